(** Property C107: once two parts of a group have carried out different commits, they stay apart (SpecFork.v). The exception is always
    the same: two different strings that were hashed for the two histories have the same digest. *)
From Verif Require Import ForkFacts.
From Verif Require Import WireWF SpecFork ExFork.
Import Coq.Strings.Byte.
Local Open Scope N_scope.

(** They are never again in the same state, however many commits follow. *)
Theorem C107_apart : forall P cs h e0 start l l', p_hash P cs = Ok h -> (forall b, N.of_nat (length (h_digest h b)) = h_size h) ->
  Forall (fun x => wf_confirmed_input (fst x)) l -> Forall (fun x => wf_confirmed_input (fst x)) l' ->
  forall n n' ctx ctx', in_epoch P cs e0 start l n ctx -> in_epoch P cs e0 start l' n' ctx' -> parted l l' n' ->
  ctx <> ctx' \/ transcript_collision P cs h start (up_to l n') (up_to l' n').
Proof. exact fork_apart. Qed.
Print Assumptions C107_apart.

(** No public message of a member who has spoken on one side only is accepted on the other, *)
Theorem C107_public : forall P cs h e0 start l l', p_hash P cs = Ok h -> (forall b, N.of_nat (length (h_digest h b)) = h_size h) ->
  Forall (fun x => wf_confirmed_input (fst x)) l -> Forall (fun x => wf_confirmed_input (fst x)) l' ->
  forall log n' ctx' pk mk b c, only_said P cs pk log -> speaks_in P cs e0 start l log -> in_epoch P cs e0 start l' n' ctx' -> parted l l' n' ->
  receive_public P cs ctx' pk mk b = Ok c -> (exists i, fc_sender c = SMember i) -> transcript_collision P cs h start (up_to l n') (up_to l' n').
Proof. exact fork_public. Qed.
Print Assumptions C107_public.

(** nor a private one, *)
Theorem C107_private : forall P cs h e0 start l l', p_hash P cs = Ok h -> (forall b, N.of_nat (length (h_digest h b)) = h_size h) ->
  Forall (fun x => wf_confirmed_input (fst x)) l -> Forall (fun x => wf_confirmed_input (fst x)) l' ->
  forall log n' ctx' pk k sa encryption sds d path st b pc, p_hpke P cs = Ok k -> p_sig P cs = Ok sa -> a_key_size k < 65536 -> a_nonce_size k < 65536 ->
  d <= 31 -> new_secret_tree P cs (2 ^ d) encryption = Ok st -> N.of_nat (length path) = d ->
  only_said P cs pk log -> speaks_in P cs e0 start l log -> in_epoch P cs e0 start l' n' ctx' -> parted l l' n' ->
  receive_private P cs ctx' pk encryption sds (2 ^ d) (position 0 path) b = Ok pc -> transcript_collision P cs h start (up_to l n') (up_to l' n').
Proof. exact fork_private. Qed.
Print Assumptions C107_private.

(** nor is one of their commits carried out there. *)
Theorem C107_commit : forall P cs h e0 start l l', p_hash P cs = Ok h -> (forall b, N.of_nat (length (h_digest h b)) = h_size h) ->
  Forall (fun x => wf_confirmed_input (fst x)) l -> Forall (fun x => wf_confirmed_input (fst x)) l' ->
  forall n' ctx' sa k t d epoch b t' i pk, p_sig P cs = Ok sa -> p_hpke P cs = Ok k -> shaped t d ->
  (forall lf, leaf_at t i = Some lf -> signature_key lf = pk) ->
  (forall v m rest, de_mls_message b = Ok (MkMLSMessage v (WMPublic m), rest) -> fc_sender (pm_content m) = SMember i) ->
  forall log, only_said P cs pk log -> speaks_in P cs e0 start l log -> in_epoch P cs e0 start l' n' ctx' -> parted l l' n' ->
  passive_commit P cs t ctx' epoch b = Ok t' -> transcript_collision P cs h start (up_to l n') (up_to l' n').
Proof. exact fork_commit. Qed.
Print Assumptions C107_commit.

(** Even a message that was signed for both sides is accepted on one side only, unless its membership tag is for two inputs. *)
Theorem C107_tag : forall P cs h e0 start l l', p_hash P cs = Ok h -> (forall b, N.of_nat (length (h_digest h b)) = h_size h) ->
  Forall (fun x => wf_confirmed_input (fst x)) l -> Forall (fun x => wf_confirmed_input (fst x)) l' ->
  forall n n' ctx ctx' pk pk' mk mk' b c c', in_epoch P cs e0 start l n ctx -> in_epoch P cs e0 start l' n' ctx' -> parted l l' n' ->
  receive_public P cs ctx pk mk b = Ok c -> receive_public P cs ctx' pk' mk' b = Ok c' -> (exists i, fc_sender c = SMember i) ->
  transcript_collision P cs h start (up_to l n') (up_to l' n') \/ tag_collision h b ctx mk ctx' mk'.
Proof. exact fork_tag. Qed.
Print Assumptions C107_tag.

(** Members 1 and 2 commit in epoch 3, member 3 on both sides after that. What a member on the left says, publicly or privately, is
    understood on the left and not on the right. *)
Example C107_example : p_hash (fk_provider fk_hash) Suite2 = Ok fk_hash /\ (forall b, N.of_nat (length (h_digest fk_hash b)) = h_size fk_hash) /\
  Forall (fun x => wf_confirmed_input (fst x)) fk_left /\ Forall (fun x => wf_confirmed_input (fst x)) fk_right /\
  in_epoch (fk_provider fk_hash) Suite2 3 (str "start") fk_left 1 (fk_ctx fk_hash fk_left) /\ in_epoch (fk_provider fk_hash) Suite2 3 (str "start") fk_right 1 (fk_ctx fk_hash fk_right) /\
  parted fk_left fk_right 1 /\ only_said (fk_provider fk_hash) Suite2 (str "k") (fk_log fk_hash) /\ speaks_in (fk_provider fk_hash) Suite2 3 (str "start") fk_left (fk_log fk_hash) /\
  receive_public (fk_provider fk_hash) Suite2 (fk_ctx fk_hash fk_left) (str "k") (str "mk") (fk_sent fk_hash) = Ok fk_public /\
  receive_public (fk_provider fk_hash) Suite2 (fk_ctx fk_hash fk_right) (str "k") (str "mk") (fk_sent fk_hash) = Panic /\
  (exists pc, receive_private (fk_provider fk_hash) Suite2 (fk_ctx fk_hash fk_left) (str "k") (str "enc") (str "sds") (2 ^ 2) (position 0 px_path) (fk_bytes fk_hash) = Ok pc /\ pc_content pc = CApplication [x07; x08]) /\
  receive_private (fk_provider fk_hash) Suite2 (fk_ctx fk_hash fk_right) (str "k") (str "enc") (str "sds") (2 ^ 2) (position 0 px_path) (fk_bytes fk_hash) = Panic.
Proof.
  split; [reflexivity|]. split; [exact fk_size|]. split; [apply fk_wf; auto|]. split; [apply fk_wf; auto|]. split; [apply fk_epoch; auto|]. split; [apply fk_epoch; auto|]. split; [exact fk_parted|].
  split; [apply fk_only; auto|]. split; [apply fk_speaks; auto|]. split; [vm_compute; reflexivity|]. split; [vm_compute; reflexivity|].
  split; [eexists; split; vm_compute; reflexivity|vm_compute; reflexivity].
Qed.
(** With a digest that is the same for everything the exception occurs, and the messages are accepted on the right too. *)
Example C107_example_collision : p_hash (fk_provider fk_bad) Suite2 = Ok fk_bad /\ (forall b, N.of_nat (length (h_digest fk_bad b)) = h_size fk_bad) /\
  in_epoch (fk_provider fk_bad) Suite2 3 (str "start") fk_right 1 (fk_ctx fk_bad fk_right) /\ parted fk_left fk_right 1 /\
  only_said (fk_provider fk_bad) Suite2 (str "k") (fk_log fk_bad) /\ speaks_in (fk_provider fk_bad) Suite2 3 (str "start") fk_left (fk_log fk_bad) /\
  receive_public (fk_provider fk_bad) Suite2 (fk_ctx fk_bad fk_right) (str "k") (str "mk") (fk_sent fk_bad) = Ok fk_public /\
  (exists pc, receive_private (fk_provider fk_bad) Suite2 (fk_ctx fk_bad fk_right) (str "k") (str "enc") (str "sds") (2 ^ 2) (position 0 px_path) (fk_bytes fk_bad) = Ok pc).
Proof.
  split; [reflexivity|]. split; [reflexivity|]. split; [apply fk_epoch; auto|]. split; [exact fk_parted|]. split; [apply fk_only; auto|]. split; [apply fk_speaks; auto|].
  split; [vm_compute; reflexivity|]. eexists. vm_compute. reflexivity.
Qed.
