(** Model of how the project's own tests exchange private messages (rmls/src/group/group_test.rs:202-309). A failed assertion of
    the test is a panic. *)
From Verif Require Export Passive.
Local Open Scope N_scope.

(** A loop of at most [p] turns. A turn gives the next state or leaves the loop with a result. (Control structure of
    group_test.rs:285-287; recursion on the binary number, so that the bound need not be counted down.) *)
Fixpoint turns {A B} (p : positive) (f : A -> A + B) (a : A) : A + B :=
  match p with
  | xH => f a
  | xO q => match turns q f a with inl a => turns q f a | inr b => inr b end
  | xI q => match f a with
            | inl a => match turns q f a with inl a => turns q f a | inr b => inr b end
            | inr b => inr b
            end
  end.

(** Models one turn of the loop at group_test.rs:285-287. *)
Definition catch_up_turn (P : provider) (cs : cipher_suite) (g : N) (r : ratchet_secret) : ratchet_secret + res ratchet_secret :=
  if rt_generation r =? g then inr (Ok r)
  else match derive_next P cs r with Ok r => inl r | Err e => inr (Err e) | Panic => inr Panic | Hang => inr Hang end.
(** Models the loop at group_test.rs:285-287: step the ratchet until it has the generation of the message. There are 2^32
    generations, and the step beyond the last overflows; so the loop ends within that many turns. *)
Definition catch_up (P : provider) (cs : cipher_suite) (g : N) (r : ratchet_secret) : res ratchet_secret :=
  match turns 4294967296 (catch_up_turn P cs g) r with inr x => x | inl _ => Hang end.

(** Models group_test.rs:273-309 (decrypt_private_message), with the ratchet [r] and up to the comparison with the expected
    content. *)
Definition open_private (P : provider) (cs : cipher_suite) (ctx : group_context) (pk sds : bytes) (r : ratchet_secret) (m : private_message) : res private_content :=
  let* sd := decrypt_sender_data P cs m sds in
  let* r := catch_up P cs (sd_generation sd) r in
  let* c := decrypt_content P cs m r (sd_reuse_guard sd) in
  let* _ := assert_ok (verify_content_signature P cs (private_auth_content m sd c) pk ctx) in
  let* _ := match pc_content c with
            | CApplication d => Ok d
            | CProposal p => se_proposal p
            | CCommit c => se_commit c
            end in
  Ok c.

(** Models group_test.rs:210-216. *)
Definition private_of (bs : bytes) : res private_message :=
  let* m := de_exact de_mls_message bs in
  match mm_wire m with WMPrivate p => Ok p | _ => Panic end.

(** Models group_test.rs:210-237: the message [b] is for a group of [n] leaves (2 in the test) and is taken to come from leaf
    [leaf] (1 in the test). *)
Definition receive_private (P : provider) (cs : cipher_suite) (ctx : group_context) (pk encryption sds : bytes) (n leaf : N) (b : bytes) : res private_content :=
  let* m := private_of b in
  let* st := new_secret_tree P cs n encryption in
  let* x := node_index leaf in
  let* r := derive_ratchet_root P cs st x (ratchet_label_of (pv_content_type m)) in
  open_private P cs ctx pk sds r m.

(** Models group_test.rs:240-258, and the encoding as a message: [c] is sent from leaf [leaf] in generation 0. The four random
    bytes are an argument. *)
Definition send_private (P : provider) (cs : cipher_suite) (ctx : group_context) (sk encryption sds : bytes) (n leaf : N) (guard : bytes) (c : framed_content) : res bytes :=
  let* st := new_secret_tree P cs n encryption in
  let* x := node_index leaf in
  let* r := derive_ratchet_root P cs st x (ratchet_label_of (content_type_of (fc_content c))) in
  let* m := new_private_message P cs sk r sds c (new_sender_data leaf 0 guard) ctx in
  se_mls_message (MkMLSMessage MLS10 (WMPrivate m)).
