(** Properties C96 and C97: private messages, as the tests' client handles them (PassivePrivate.v, SpecPrivate.v). *)
From Verif Require Import PrivateFacts SecretFacts MessageFacts Examples ExPrivate.
From Verif Require Import WireWF SpecPrivate.
Import Coq.Strings.Byte.
Local Open Scope N_scope.

(* ------------------------------------------------------------------------------------------- *)
(** * C96 *)

(** Exactly these messages are accepted: the sender data decrypt with the sender data secret, the content decrypts with the key
    of the leaf, the kind of content and the generation that they name, and the signature is of the sender's key over what the
    message says. The content given is the one in the message. *)
Theorem C96_accepted : forall P cs k sa ctx pk encryption sds d path st b pc, p_hpke P cs = Ok k -> p_sig P cs = Ok sa ->
  a_key_size k < 65536 -> a_nonce_size k < 65536 -> d <= 31 -> new_secret_tree P cs (2 ^ d) encryption = Ok st -> N.of_nat (length path) = d ->
  (receive_private P cs ctx pk encryption sds (2 ^ d) (position 0 path) b = Ok pc <->
   exists v m rest sd, de_mls_message b = Ok (MkMLSMessage v (WMPrivate m), rest) /\ sender_is k sds m sd /\
     content_is k encryption path (sd_generation sd) (sd_reuse_guard sd) m pc /\ private_signed sa pk ctx m sd pc).
Proof. exact c96_accepted. Qed.
Print Assumptions C96_accepted.

(** If only its owner signs with a key, they made the statement that is accepted: this content, in this header, as this sender, in a
    private message, in this state of the group. *)
Theorem C96_authentic : forall P cs k sa ctx pk encryption sds d path st b pc log, p_hpke P cs = Ok k -> p_sig P cs = Ok sa ->
  a_key_size k < 65536 -> a_nonce_size k < 65536 -> d <= 31 -> new_secret_tree P cs (2 ^ d) encryption = Ok st -> N.of_nat (length path) = d ->
  only_said P cs pk log -> wf_group_context ctx ->
  receive_private P cs ctx pk encryption sds (2 ^ d) (position 0 path) b = Ok pc ->
  exists v m rest sd, de_mls_message b = Ok (MkMLSMessage v (WMPrivate m), rest) /\ sender_is k sds m sd /\
    is_said log (SaidContent WFPrivateMessage (says_it m sd pc) ctx).
Proof. exact c96_authentic. Qed.
Print Assumptions C96_authentic.

(** What a member sends from its leaf, the others receive ... *)
Theorem C96_sent : forall P cs k ctx sk pk encryption sds d path guard c b, p_hpke P cs = Ok k -> a_key_size k < 65536 -> a_nonce_size k < 65536 ->
  d <= 31 -> N.of_nat (length path) = d -> aead_ok P cs -> key_pair_ok P cs sk pk ->
  wf_framed_content c -> fc_sender c = SMember (position 0 path) -> length guard = 4%nat ->
  send_private P cs ctx sk encryption sds (2 ^ d) (position 0 path) guard c = Ok b ->
  exists pc, receive_private P cs ctx pk encryption sds (2 ^ d) (position 0 path) b = Ok pc /\ pc_content pc = fc_content c.
Proof. exact c96_send. Qed.
Print Assumptions C96_sent.

(** ... in every generation. *)
Theorem C96_sent_later : forall P cs k ctx sk pk encryption sds d path st guard g r0 r c m b, p_hpke P cs = Ok k -> a_key_size k < 65536 -> a_nonce_size k < 65536 ->
  d <= 31 -> new_secret_tree P cs (2 ^ d) encryption = Ok st -> N.of_nat (length path) = d -> aead_ok P cs -> key_pair_ok P cs sk pk ->
  wf_framed_content c -> fc_sender c = SMember (position 0 path) -> g < 4294967296 -> length guard = 4%nat ->
  derive_ratchet_root P cs st (2 * position 0 path) (ratchet_label_of (content_type_of (fc_content c))) = Ok r0 -> steps P cs r0 (N.to_nat g) = Ok r ->
  new_private_message P cs sk r sds c (new_sender_data (position 0 path) g guard) ctx = Ok m -> se_mls_message (MkMLSMessage MLS10 (WMPrivate m)) = Ok b ->
  exists pc, receive_private P cs ctx pk encryption sds (2 ^ d) (position 0 path) b = Ok pc /\ pc_content pc = fc_content c.
Proof. exact c96_delivered. Qed.
Print Assumptions C96_sent_later.

(** The loop that steps the ratchet ends for every message and every ratchet, if each step does. *)
Theorem C96_ends : forall P cs g r, (forall r', derive_next P cs r' <> Hang) -> rt_generation r < 4294967296 -> catch_up P cs g r <> Hang.
Proof. exact c96_ends. Qed.
Print Assumptions C96_ends.

(** An application message from leaf 2 of 4 arrives. *)
Example C96_example : (exists b, send_private toy Suite1 ex_gc (str "k") (str "enc") (str "sds") (2 ^ 2) (position 0 px_path) px_guard (px_content 2) = Ok b /\ b = px_bytes 2 0) /\
  wf_framed_content (px_content 2) /\ fc_sender (px_content 2) = SMember (position 0 px_path) /\ N.of_nat (length px_path) = 2 /\
  (exists st, new_secret_tree toy Suite1 (2 ^ 2) (str "enc") = Ok st) /\ p_hpke toy Suite1 = Ok toy_hpke /\ aead_ok toy Suite1 /\ key_pair_ok toy Suite1 (str "k") (str "k") /\
  receive_private toy Suite1 ex_gc (str "k") (str "enc") (str "sds") (2 ^ 2) (position 0 px_path) (px_bytes 2 0) = Ok px_read /\ pc_content px_read = CApplication [x07; x08].
Proof.
  split; [exists (px_bytes 2 0); split; vm_compute; reflexivity|]. split; [apply px_content_wf; reflexivity|]. split; [reflexivity|]. split; [reflexivity|].
  split; [exists px_st; vm_compute; reflexivity|]. split; [reflexivity|]. split; [apply toy_aead|]. split; [apply toy_keys|]. split; vm_compute; reflexivity.
Qed.
(** With a key that signed this message only: it is accepted, and the same content under the name of leaf 3 is not. *)
Example C96_example_authentic : only_said px_provider Suite1 (str "k") px_log /\ wf_group_context ex_gc /\
  receive_private px_provider Suite1 ex_gc (str "k") (str "enc") (str "sds") (2 ^ 2) (position 0 px_path) (px_bytes 2 0) = Ok px_read /\
  receive_private px_provider Suite1 ex_gc (str "k") (str "enc") (str "sds") (2 ^ 2) (position 0 px_path) (px_bytes 3 0) = Panic.
Proof. split; [apply px_log_only|]. split; [exact ex_gc_wf|]. split; vm_compute; reflexivity. Qed.

(* ------------------------------------------------------------------------------------------- *)
(** * C97 *)

(** A message of a generation that the kept ratchet has passed is never accepted ... *)
Theorem C97_old_partial : forall P cs ctx pk sds r m sd pc, decrypt_sender_data P cs m sds = Ok sd -> sd_generation sd < rt_generation r ->
  open_private P cs ctx pk sds r m <> Ok pc.
Proof. exact c97_refused. Qed.
Print Assumptions C97_old_partial.

(** ... but there is no error either: the client steps the ratchet through all its generations and then panics. *)
Theorem C97_refuted_old : forall P cs k ctx pk sds r m sd, working_kdf P cs k -> usable k (rt_secret r) -> decrypt_sender_data P cs m sds = Ok sd -> sd_generation sd < rt_generation r -> rt_generation r < 4294967296 ->
  open_private P cs ctx pk sds r m = Panic.
Proof. exact c97_panics. Qed.
Print Assumptions C97_refuted_old.

(** So the same message twice brings a client down. *)
Theorem C97_refuted_twice : exists P cs ctx pk sds r m pc r', open_private P cs ctx pk sds r m = Ok pc /\ derive_next P cs r = Ok r' /\ open_private P cs ctx pk sds r' m = Panic.
Proof. exact c97_twice. Qed.
Print Assumptions C97_refuted_twice.

(** A message accepted once is accepted again when another member, who needs no signature key for it, encrypts it in another generation. *)
Theorem C97_refuted_again : forall P cs k sa ctx pk encryption sds d path st b pc v m rest sd g guard m' b', p_hpke P cs = Ok k -> p_sig P cs = Ok sa ->
  a_key_size k < 65536 -> a_nonce_size k < 65536 -> d <= 31 -> new_secret_tree P cs (2 ^ d) encryption = Ok st -> N.of_nat (length path) = d -> aead_ok P cs ->
  receive_private P cs ctx pk encryption sds (2 ^ d) (position 0 path) b = Ok pc ->
  de_mls_message b = Ok (MkMLSMessage v (WMPrivate m), rest) -> sender_is k sds m sd ->
  g < 4294967296 -> length guard = 4%nat -> reencrypt P cs k encryption sds path (sd_leaf_index sd) g guard m pc m' -> se_mls_message (MkMLSMessage MLS10 (WMPrivate m')) = Ok b' ->
  receive_private P cs ctx pk encryption sds (2 ^ d) (position 0 path) b' = Ok pc.
Proof. exact c96_again. Qed.
Print Assumptions C97_refuted_again.

(** A message from leaf 2 that says it is from leaf 3 is accepted ... *)
Theorem C97_refuted_sender : exists P cs ctx pk encryption sds n leaf b m sd pc, private_of b = Ok m /\ decrypt_sender_data P cs m sds = Ok sd /\ sd_leaf_index sd <> leaf /\
  receive_private P cs ctx pk encryption sds n leaf b = Ok pc.
Proof. exact c97_sender. Qed.
Print Assumptions C97_refuted_sender.

(** ... and so is one that says it is for another group and another epoch. *)
Theorem C97_refuted_group : exists P cs ctx pk encryption sds n leaf b m pc, private_of b = Ok m /\ pv_group_id m <> gc_group_id ctx /\ pv_epoch m <> gc_epoch ctx /\
  receive_private P cs ctx pk encryption sds n leaf b = Ok pc.
Proof. exact c97_group. Qed.
Print Assumptions C97_refuted_group.

(** How far the ratchet is stepped is what the sender data say: a client that has received nothing yet makes as many steps as the
    generation named, before it decrypts anything with the key it gets ... *)
Theorem C97_work : forall P cs ctx pk sds r m sd, decrypt_sender_data P cs m sds = Ok sd -> rt_generation r <= sd_generation sd -> sd_generation sd < 4294967296 ->
  open_private P cs ctx pk sds r m =
    let* r' := steps P cs r (N.to_nat (sd_generation sd - rt_generation r)) in
    let* c := decrypt_content P cs m r' (sd_reuse_guard sd) in
    let* _ := assert_ok (verify_content_signature P cs (private_auth_content m sd c) pk ctx) in
    let* _ := match pc_content c with CApplication d => Ok d | CProposal p => se_proposal p | CCommit c => se_commit c end in
    Ok c.
Proof. exact c97_work. Qed.
Print Assumptions C97_work.

(** ... and a message of 172 bytes can name the last generation. *)
Theorem C97_refuted_work : exists P cs sds b m sd, length b = 172%nat /\ private_of b = Ok m /\ decrypt_sender_data P cs m sds = Ok sd /\ sd_generation sd = 4294967295.
Proof. exact c97_short. Qed.
Print Assumptions C97_refuted_work.

(** The hypotheses of C97_refuted_again: the message above, encrypted anew in generation 3. *)
Example C97_example_again : reencrypt toy Suite1 toy_hpke (str "enc") (str "sds") px_path 2 3 px_guard' (px_message 2 0) px_read px_anew /\
  se_mls_message (MkMLSMessage MLS10 (WMPrivate px_anew)) = Ok px_anew_bytes /\ px_anew_bytes <> px_bytes 2 0 /\
  (exists sd, decrypt_sender_data toy Suite1 (px_message 2 0) (str "sds") = Ok sd /\ sd_leaf_index sd = 2) /\
  receive_private toy Suite1 ex_gc (str "k") (str "enc") (str "sds") (2 ^ 2) (position 0 px_path) px_anew_bytes = Ok px_read.
Proof.
  split; [exact px_reencrypt|]. split; [vm_compute; reflexivity|]. split; [intros H; vm_compute in H; discriminate H|]. split; [eexists; split; vm_compute; reflexivity|]. vm_compute. reflexivity.
Qed.
