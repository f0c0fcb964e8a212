(** Private messages from sender to receiver. *)
From Verif Require Export SpecMessages.
Local Open Scope N_scope.

(** What a sender does with the library: take the ratchet of its leaf for the kind of content out of the secret tree [st],
    step it to the generation, encrypt and encode. *)
Definition send (P : provider) (cs : cipher_suite) (ctx : group_context) (sk : bytes) (st : secret_tree) (sds : bytes)
    (leaf gen : N) (guard : bytes) (c : framed_content) : res bytes :=
  let* x := node_index leaf in
  let* r := derive_ratchet_root P cs st x (ratchet_label_of (content_type_of (fc_content c))) in
  let* r := steps P cs r (N.to_nat gen) in
  let* m := new_private_message P cs sk r sds c (new_sender_data leaf gen guard) ctx in
  se_private_message m.

(** What a receiver does with it: decode, decrypt the sender data, take the ratchet it names, decrypt, verify. *)
Definition receive (P : provider) (cs : cipher_suite) (ctx : group_context) (pk : bytes) (st : secret_tree) (sds : bytes) (b : bytes) : res auth_content :=
  let* m := de_exact de_private_message b in
  let* sd := decrypt_sender_data P cs m sds in
  let* x := node_index (sd_leaf_index sd) in
  let* r := derive_ratchet_root P cs st x (ratchet_label_of (pv_content_type m)) in
  let* r := steps P cs r (N.to_nat (sd_generation sd)) in
  let* c := decrypt_content P cs m r (sd_reuse_guard sd) in
  let a := private_auth_content m sd c in
  let* _ := verify_content_signature P cs a pk ctx in Ok a.

(** ** The keys of RFC 9420, Section 9.1, over the primitives *)

(** Which of a leaf's two ratchets protects a content. *)
Definition ratchet_name (c : content_type) : bytes := match c with CTApplication => str "application" | CTProposal | CTCommit => str "handshake" end.

(** The ratchet secret of the leaf at the end of [path] in generation [g], from the encryption secret. *)
Definition message_secret (k : hpke_alg) (encryption : bytes) (path : list bool) (c : content_type) (g : nat) : res bytes :=
  let* s := node_secret k encryption path in
  let* s := expand_label k s (ratchet_name c) [] (nh k) in
  ratchet_after k s 0 g.
Definition message_key (k : hpke_alg) (encryption : bytes) (path : list bool) (c : content_type) (g : nat) : res bytes :=
  let* s := message_secret k encryption path c g in expand_label k s (str "key") (be 4 (N.of_nat g)) (a_key_size k).
Definition message_nonce (k : hpke_alg) (encryption : bytes) (path : list bool) (c : content_type) (g : nat) : res bytes :=
  let* s := message_secret k encryption path c g in expand_label k s (str "nonce") (be 4 (N.of_nat g)) (a_nonce_size k).

(** The arguments (secret, info, length) of the KDF calls made for a message key. *)
Inductive kdf_call (k : hpke_alg) (encryption : bytes) (path : list bool) (c : content_type) (g : nat) : bytes * bytes * N -> Prop :=
| kc_tree p b q s : path = (p ++ b :: q)%list -> node_secret k encryption p = Ok s ->
    kdf_call k encryption path c g (s, kdf_label (str "tree") (if b then str "right" else str "left") (nh k), nh k)
| kc_root s : node_secret k encryption path = Ok s -> kdf_call k encryption path c g (s, kdf_label (ratchet_name c) [] (nh k), nh k)
| kc_step m s : (m < g)%nat -> message_secret k encryption path c m = Ok s ->
    kdf_call k encryption path c g (s, kdf_label (str "secret") (be 4 (N.of_nat m)) (nh k), nh k)
| kc_key s : message_secret k encryption path c g = Ok s ->
    kdf_call k encryption path c g (s, kdf_label (str "key") (be 4 (N.of_nat g)) (a_key_size k), a_key_size k).
Definition expand3 (k : hpke_alg) (x : bytes * bytes * N) : res bytes := let '(s, i, n) := x in k_expand k s i n.
(** Two different calls made for two message keys give the same bytes. *)
Definition key_collision (k : hpke_alg) (e : bytes) (path : list bool) (c : content_type) (g : nat) (e' : bytes) (path' : list bool) (c' : content_type) (g' : nat) : Prop :=
  exists x x' b, kdf_call k e path c g x /\ kdf_call k e' path' c' g' x' /\ x <> x' /\ expand3 k x = Ok b /\ expand3 k x' = Ok b.
