(** Properties C91 and C92: joining from a welcome, and public messages (SpecPassive.v). *)
From Coq Require Import Strings.Byte.
From Verif Require Import PassiveFacts ExPassive MessageFacts PropWelcome.
From Verif Require Import SpecPassive SpecAgree ExKeys.
Import Coq.Strings.Byte.
Local Open Scope N_scope.

(* ------------------------------------------------------------------------------------------- *)
(** * C91 *)

(** Who is [invited] as RFC 9420 prescribes gets a tree with the same content, the group info, the joiner secret, the PSK
    secret and the epoch secret of the key schedule. *)
Theorem C91_joins : forall P k h t gi joiner psk ids psks kp init_priv known kpb wb tree,
  p_hpke P (gc_suite (gi_context gi)) = Ok k -> p_hash P (gc_suite (gi_context gi)) = Ok h -> aead_ok P (gc_suite (gi_context gi)) ->
  invited P k h t gi joiner psk ids psks kp init_priv known kpb wb tree ->
  exists t' e, passive_join P (gc_suite (gi_context gi)) known kpb init_priv wb tree = Ok (MkJoined t' gi joiner psk e) /\
    copy_of t t' /\ (forall x, tget t' x = tget t x) /\ extract_epoch_secret P (gi_context gi) joiner psk = Ok e.
Proof. exact c91_joins. Qed.
Print Assumptions C91_joins.

(** Whatever bytes are received, a join that succeeds has checked all that [checked] lists. *)
Theorem C91_checked : forall P k h cs known kpb init_priv wb tree j,
  p_hpke P (gc_suite (gi_context (jn_info j))) = Ok k -> p_hash P (gc_suite (gi_context (jn_info j))) = Ok h ->
  passive_join P cs known kpb init_priv wb tree = Ok j -> checked P k h cs known kpb init_priv wb tree j.
Proof. exact c91_checked. Qed.
Print Assumptions C91_checked.

(** A new member and a member who accepted the commit with the tag of the group info are in the same state, unless a
    hash, MAC or KDF gave one result for two inputs. *)
Theorem C91_agrees : forall P k h known kpb init_priv wb tree cs j v jo psk e key,
  gc_suite (gi_context (jn_info j)) = gc_suite (v_context v) -> p_hpke P (gc_suite (v_context v)) = Ok k -> p_hash P (gc_suite (v_context v)) = Ok h ->
  passive_join P cs known kpb init_priv wb tree = Ok j ->
  well_typed v -> computed P v jo psk e key -> verify_auth_confirmation_tag P (gc_suite (v_context v)) (ac_auth (v_commit v)) key (gc_confirmed (v_context v)) = Ok tt ->
  gi_confirmation_tag (jn_info j) = ad_confirmation_tag (ac_auth (v_commit v)) ->
  (gi_context (jn_info j) = v_context v /\ jn_joiner j = jo /\ psk_or_zero k (jn_psk j) = psk_or_zero k psk /\ jn_epoch j = e /\
    (forall x, tget (jn_tree j) x = tget (v_tree v) x)) \/
  exists key', confirmation_key k (gi_context (jn_info j)) (jn_joiner j) (jn_psk j) key' /\
    broken_join P h k v (gi_context (jn_info j)) (jn_tree j) jo psk e key (jn_joiner j) (jn_psk j) (jn_epoch j) key'.
Proof. exact c91_agrees. Qed.
Print Assumptions C91_agrees.

(** The new member and the others hear each other's private messages. *)
Theorem C91_hears : forall P k h t gi joiner psk ids psks kp init_priv known kpb wb tree,
  p_hpke P (gc_suite (gi_context gi)) = Ok k -> p_hash P (gc_suite (gi_context gi)) = Ok h -> aead_ok P (gc_suite (gi_context gi)) ->
  invited P k h t gi joiner psk ids psks kp init_priv known kpb wb tree ->
  exists j, passive_join P (gc_suite (gi_context gi)) known kpb init_priv wb tree = Ok j /\ jn_info j = gi /\
    forall e st sds, extract_epoch_secret P (gi_context gi) joiner psk = Ok e -> epoch_keys P (gc_suite (gi_context gi)) t e = Ok (st, sds) ->
    exists st' sds', epoch_keys P (gc_suite (gi_context gi)) (jn_tree j) (jn_epoch j) = Ok (st', sds') /\
      forall leaf l sk gen guard c, leaf_at t leaf = Some l -> key_pair_ok P (gc_suite (gi_context gi)) sk (lp_signature_key (ln_payload l)) ->
        wf_framed_content c -> fc_sender c = SMember leaf -> gen < 4294967296 -> length guard = 4%nat ->
        (forall b, send P (gc_suite (gi_context gi)) (gi_context gi) sk st sds leaf gen guard c = Ok b ->
          exists l' a, leaf_at (jn_tree j) leaf = Some l' /\
            receive P (gc_suite (gi_context gi)) (gi_context gi) (lp_signature_key (ln_payload l')) st' sds' b = Ok a /\ ac_content a = c) /\
        (forall b, send P (gc_suite (gi_context gi)) (gi_context gi) sk st' sds' leaf gen guard c = Ok b ->
          exists a, receive P (gc_suite (gi_context gi)) (gi_context gi) (lp_signature_key (ln_payload l)) st sds b = Ok a /\ ac_content a = c).
Proof. exact c91_hears. Qed.
Print Assumptions C91_hears.

Example C91_example : p_hpke toy Suite1 = Ok toy_hpke /\ p_hash toy Suite1 = Ok toy_hash /\ aead_ok toy Suite1 /\
  invited toy toy_hpke toy_hash pj_tree pj_info pj_joiner pj_psk pj_ids pj_psks pj_kp (tl (kp_init_key (kp_payload pj_kp))) pj_known pj_kpb pj_wb None /\
  (exists j, passive_join toy Suite1 pj_known pj_kpb (tl (kp_init_key (kp_payload pj_kp))) pj_wb None = Ok j /\ jn_tree j = pj_tree /\ jn_epoch j = pj_epoch) /\
  (exists st sds b, epoch_keys toy Suite1 pj_tree pj_epoch = Ok (st, sds) /\
     send toy Suite1 pj_ctx [x01; x21] st sds 0 3 [x00; x01; x02; x03] (MkFramed (str "group") 1 (SMember 0) [] (CApplication (str "hello"))) = Ok b).
Proof.
  split; [reflexivity|]. split; [reflexivity|]. split; [apply toy_aead|]. split; [exact pj_invited|]. split.
  - eexists. split; [vm_compute; reflexivity|]. split; vm_compute; reflexivity.
  - eexists. eexists. eexists. split; [vm_compute; reflexivity|vm_compute; reflexivity].
Qed.
Example C91_agrees_example : well_typed pj_view /\ computed toy pj_view pj_joiner pj_psk pj_epoch pj_key /\
  verify_auth_confirmation_tag toy Suite1 (ac_auth (v_commit pj_view)) pj_key (gc_confirmed (v_context pj_view)) = Ok tt /\
  exists j, passive_join toy Suite1 pj_known pj_kpb (tl (kp_init_key (kp_payload pj_kp))) pj_wb None = Ok j /\
    gc_suite (gi_context (jn_info j)) = gc_suite (v_context pj_view) /\ gi_confirmation_tag (jn_info j) = ad_confirmation_tag (ac_auth (v_commit pj_view)).
Proof.
  split; [exact pj_typed|]. split; [exact pj_computed|]. split; [exact pj_confirmed|]. eexists. split; [vm_compute; reflexivity|]. split; vm_compute; reflexivity.
Qed.

(* ------------------------------------------------------------------------------------------- *)
(** * C92 *)

(** What a sender frames, signs, tags and encodes is what everyone with the sender's key and the epoch's membership key gets. *)
Theorem C92_delivered : forall P cs ctx sk pk mk c b,
  key_pair_ok P cs sk pk -> wf_framed_content c ->
  send_public P cs ctx sk mk c = Ok b -> receive_public P cs ctx pk mk b = Ok c.
Proof. exact c92_delivered. Qed.
Print Assumptions C92_delivered.

(** Exactly what is accepted: a message with a signature under the sender's key over the content and context and, if the
    sender is a member, with the membership tag. *)
Theorem C92_accepted : forall P cs a h ctx pk mk b c,
  p_sig P cs = Ok a -> p_hash P cs = Ok h ->
  (receive_public P cs ctx pk mk b = Ok c <->
   exists v m rest t, de_mls_message b = Ok (MkMLSMessage v (WMPublic m), rest) /\ pm_content m = c /\
     content_signed WFPublicMessage c ctx t /\ s_verify a pk t (ad_signature (pm_auth m)) = Ok tt /\
     (from_member m -> exists x, membership_input m ctx x /\ pm_tag m = Some (h_mac h mk x))).
Proof. exact c92_accepted. Qed.
Print Assumptions C92_accepted.

(** A member's message is accepted in one context only, unless its inputs for two contexts have the same MAC. *)
Theorem C92_once : forall P cs h ctx pk mk ctx' pk' mk' b c c',
  p_hash P cs = Ok h -> wf_group_context ctx -> wf_group_context ctx' ->
  receive_public P cs ctx pk mk b = Ok c -> receive_public P cs ctx' pk' mk' b = Ok c' -> (exists i, fc_sender c = SMember i) ->
  c = c' /\ (ctx = ctx' \/ tag_collision h b ctx mk ctx' mk').
Proof. exact c92_once. Qed.
Print Assumptions C92_once.

Definition ex_public_content : framed_content := MkFramed (str "group") 5 (SMember 1) [x01] (CProposal (PRemove (MkRemove 3))).
Example C92_example : key_pair_ok toy Suite1 (str "key") (str "key") /\ wf_framed_content ex_public_content /\ WireWF.wf_group_context ex_ctx1 /\ exists b,
  send_public toy Suite1 ex_ctx1 (str "key") [x07] ex_public_content = Ok b /\
  receive_public toy Suite1 ex_ctx1 (str "key") [x07] b = Ok ex_public_content /\
  receive_public toy Suite1 ex_ctx1 (str "key") [x08] b = Panic /\ receive_public toy Suite1 ex_ctx1 (str "no") [x07] b = Panic.
Proof.
  split; [apply toy_keys|]. split.
  - assert (D : de_framed_content (ok_or [] (se_framed_content ex_public_content)) = Ok (ex_public_content, [])) by (vm_compute; reflexivity).
    apply (CodecLib.codec_can WireCodecs.codec_framed_content) in D as (D & _). exact D.
  - split; [apply ex_gi_wf|]. eexists. split; [vm_compute; reflexivity|]. split; [vm_compute; reflexivity|]. split; vm_compute; reflexivity.
Qed.
