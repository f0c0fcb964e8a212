(** Properties C42, C43, C44, C46 and C47: signed, encrypted and tagged messages (SpecMessages.v). *)
From Verif Require Import MessageFacts.
From Verif Require Import WireWF SpecMessages ExProvider Examples.
Local Open Scope N_scope.

(* ------------------------------------------------------------------------------------------- *)
(** * C42 *)

Theorem C42_verifies : forall P cs sk pk w c ctx a, key_pair_ok P cs sk pk -> new_auth_content P cs sk w c ctx = Ok a ->
  ac_wire_format a = w /\ ac_content a = c /\ verify_content_signature P cs a pk ctx = Ok tt.
Proof. exact c42_verifies. Qed.
Print Assumptions C42_verifies.

(** Verification is exactly the signature scheme's verdict on the signed bytes. *)
Theorem C42_verdict : forall P cs sa a pk ctx, p_sig P cs = Ok sa ->
  (verify_content_signature P cs a pk ctx = Ok tt <->
   exists m, content_signed (ac_wire_format a) (ac_content a) ctx m /\ s_verify sa pk m (ad_signature (ac_auth a)) = Ok tt).
Proof. exact verify_iff. Qed.
Print Assumptions C42_verdict.

(** The signed bytes determine wire format, content (group, epoch, sender, data) and, for members, the context. *)
Theorem C42_covers : forall w c ctx w' c' ctx' m,
  wf_framed_content c -> wf_framed_content c' -> wf_group_context ctx -> wf_group_context ctx' ->
  content_signed w c ctx m -> content_signed w' c' ctx' m ->
  w = w' /\ c = c' /\ (covers_context (fc_sender c) -> ctx = ctx').
Proof. exact c42_covers. Qed.
Print Assumptions C42_covers.

(** For the other senders the context plays no part. *)
Theorem C42_context_free : forall P cs a pk ctx ctx', ~ covers_context (fc_sender (ac_content a)) ->
  verify_content_signature P cs a pk ctx = verify_content_signature P cs a pk ctx'.
Proof. exact c42_only. Qed.
Print Assumptions C42_context_free.

Example C42_example : key_pair_ok toy Suite1 (str "k") (str "k") /\ wf_group_context ex_gc /\
  wf_framed_content (ex_framed (SMember 2) (CCommit ex_commit)) /\ covers_context (SMember 2) /\ ~ covers_context SNewMemberProposal /\
  (exists m, content_signed WFPublicMessage (ex_framed (SMember 2) (CCommit ex_commit)) ex_gc m) /\
  exists a, new_auth_content toy Suite1 (str "k") WFPublicMessage (ex_framed (SMember 2) (CCommit ex_commit)) ex_gc = Ok a.
Proof.
  split; [apply toy_keys|]. split; [exact ex_gc_wf|]. split; [apply ex_framed_wf; reflexivity|]. split; [exact I|]. split; [intros []|].
  split.
  - eexists. eexists. split; [vm_compute; reflexivity|]. split; [vm_compute; reflexivity|reflexivity].
  - eexists. vm_compute. reflexivity.
Qed.

(* ------------------------------------------------------------------------------------------- *)
(** * C43 *)

Theorem C43_roundtrip : forall P cs sk pk r sds c sd ctx m, aead_ok P cs -> key_pair_ok P cs sk pk ->
  wf_framed_content c -> wf_sender_data sd ->
  new_private_message P cs sk r sds c sd ctx = Ok m ->
  decrypt_sender_data P cs m sds = Ok sd /\
  exists pc, decrypt_content P cs m r (sd_reuse_guard sd) = Ok pc /\ pc_content pc = fc_content c /\
    (fc_sender c = SMember (sd_leaf_index sd) ->
     ac_content (private_auth_content m sd pc) = c /\ verify_content_signature P cs (private_auth_content m sd pc) pk ctx = Ok tt).
Proof. exact c43_roundtrip. Qed.
Print Assumptions C43_roundtrip.

(** The data authenticated with the two ciphertexts determines the header. *)
Theorem C43_content_header : forall g e t a g' e' t' a' b, is_u64 e -> is_u64 e' ->
  se_private_content_aad (MkPrivateAAD g e t a) = Ok b -> se_private_content_aad (MkPrivateAAD g' e' t' a') = Ok b -> g = g' /\ e = e' /\ t = t' /\ a = a'.
Proof. exact c43_aad. Qed.
Print Assumptions C43_content_header.
Theorem C43_sender_header : forall g e t g' e' t' b, is_u64 e -> is_u64 e' ->
  se_sender_data_aad (MkSenderDataAAD g e t) = Ok b -> se_sender_data_aad (MkSenderDataAAD g' e' t') = Ok b -> g = g' /\ e = e' /\ t = t'.
Proof. exact c43_sender_aad. Qed.
Print Assumptions C43_sender_header.

Definition ex_sd : sender_data := MkSenderData 2 7 [x01; x02; x03; x04].
Definition ex_ratchet : ratchet_secret := MkRatchet (str "ratchet") 7.
Example C43_example : aead_ok toy Suite1 /\ key_pair_ok toy Suite1 (str "k") (str "k") /\ wf_sender_data ex_sd /\
  wf_framed_content (ex_framed (SMember 2) (CCommit ex_commit)) /\ fc_sender (ex_framed (SMember 2) (CCommit ex_commit)) = SMember (sd_leaf_index ex_sd) /\
  exists m, new_private_message toy Suite1 (str "k") ex_ratchet (str "sds") (ex_framed (SMember 2) (CCommit ex_commit)) ex_sd ex_gc = Ok m.
Proof.
  split; [apply toy_aead|]. split; [apply toy_keys|]. split; [repeat split; reflexivity|]. split; [apply ex_framed_wf; reflexivity|]. split; [reflexivity|].
  eexists. vm_compute. reflexivity.
Qed.

(** The proviso on the sender is needed: the constructor does not check it, and the message it builds is then rejected. *)
Theorem C43_sender_unchecked : exists c sd m pc, wf_framed_content c /\ wf_sender_data sd /\
  new_private_message toy Suite1 (str "k") ex_ratchet (str "sds") c sd ex_gc = Ok m /\
  decrypt_content toy Suite1 m ex_ratchet (sd_reuse_guard sd) = Ok pc /\
  ac_content (private_auth_content m sd pc) <> c /\
  verify_content_signature toy Suite1 (private_auth_content m sd pc) (str "k") ex_gc <> Ok tt.
Proof.
  exists (ex_framed (SMember 3) (CCommit ex_commit)), ex_sd. eexists. eexists. split; [apply ex_framed_wf; reflexivity|]. split; [repeat split; reflexivity|].
  split; [vm_compute; reflexivity|]. split; [vm_compute; reflexivity|]. split; [discriminate|]. vm_compute. discriminate.
Qed.
Print Assumptions C43_sender_unchecked.

(* ------------------------------------------------------------------------------------------- *)
(** * C44 *)

(** The key is the ratchet's; byte i of the nonce is byte i of the ratchet's nonce, xored with byte i of the guard if there is one. *)
Theorem C44_nonce : forall P cs r g k n, message_key_nonce P cs r g = Ok (k, n) <->
  exists n0, derive_key P cs r = Ok k /\ derive_nonce P cs r = Ok n0 /\ (length g <= length n0)%nat /\ length n = length n0 /\
    forall i, (i < length n0)%nat ->
    b2n (nth i n x00) = if (i <? length g)%nat then N.lxor (b2n (nth i n0 x00)) (b2n (nth i g x00)) else b2n (nth i n0 x00).
Proof. exact c44_nonce. Qed.
Print Assumptions C44_nonce.

Theorem C44_injective : forall P cs r g g' k k' n, length g = length g' ->
  message_key_nonce P cs r g = Ok (k, n) -> message_key_nonce P cs r g' = Ok (k', n) -> g = g'.
Proof. exact c44_injective. Qed.
Print Assumptions C44_injective.

Theorem C44_involutive : forall n g, xor_prefix (xor_prefix n g) g = n.
Proof. exact xor_prefix_twice. Qed.
Print Assumptions C44_involutive.

Example C44_example : exists k n, message_key_nonce toy Suite1 ex_ratchet [x01; x02; x03; x04] = Ok (k, n).
Proof. eexists. eexists. vm_compute. reflexivity. Qed.

(* ------------------------------------------------------------------------------------------- *)
(** * C46 *)

(** Refuted: a member's message without a tag is accepted under every key, and every fresh message is of that kind. *)
Theorem C46_refuted_missing_tag : exists m, from_member m /\ pm_tag m = None /\
  forall P cs k ctx, verify_membership_tag P cs m k ctx = Ok tt.
Proof.
  exists (MkPublic (ex_framed (SMember 2) (CCommit ex_commit)) (MkAuth [] []) None). split; [eexists; reflexivity|]. split; reflexivity.
Qed.
Print Assumptions C46_refuted_missing_tag.
Theorem C46_fresh : forall P cs sk c ctx m k ctx', new_public_message P cs sk c ctx = Ok m ->
  pm_tag m = None /\ verify_membership_tag P cs m k ctx' = Ok tt.
Proof. exact c46_fresh. Qed.
Print Assumptions C46_fresh.

(** Exactly what is accepted. *)
Theorem C46_accepted : forall P cs h m k ctx, p_hash P cs = Ok h -> from_member m ->
  (verify_membership_tag P cs m k ctx = Ok tt <-> pm_tag m = None \/ exists b, membership_input m ctx b /\ pm_tag m = Some (h_mac h k b)).
Proof. exact c46_iff. Qed.
Print Assumptions C46_accepted.

(** Off the wire the property holds. *)
Theorem C46_wire_partial : forall P cs h bs rest m k ctx, p_hash P cs = Ok h -> de_public_message bs = Ok (m, rest) -> from_member m ->
  (verify_membership_tag P cs m k ctx = Ok tt <-> exists b, membership_input m ctx b /\ pm_tag m = Some (h_mac h k b)).
Proof. exact c46_wire. Qed.
Print Assumptions C46_wire_partial.

Theorem C46_signed_verifies : forall P cs m k ctx m', sign_membership_tag P cs m k ctx = Ok m' ->
  pm_content m' = pm_content m /\ pm_auth m' = pm_auth m /\ verify_membership_tag P cs m' k ctx = Ok tt /\ (from_member m -> pm_tag m' <> None).
Proof. exact c46_sign. Qed.
Print Assumptions C46_signed_verifies.

(** The bytes under the tag determine content, authentication data and context. *)
Theorem C46_binds : forall m m' ctx ctx' b, from_member m -> from_member m' ->
  wf_framed_content (pm_content m) -> wf_framed_content (pm_content m') ->
  wf_auth_data (content_type_of (fc_content (pm_content m))) (pm_auth m) -> wf_auth_data (content_type_of (fc_content (pm_content m'))) (pm_auth m') ->
  wf_group_context ctx -> wf_group_context ctx' ->
  membership_input m ctx b -> membership_input m' ctx' b -> pm_content m = pm_content m' /\ pm_auth m = pm_auth m' /\ ctx = ctx'.
Proof. exact c46_binds. Qed.
Print Assumptions C46_binds.

Theorem C46_non_members : forall P cs m k ctx, ~ from_member m -> verify_membership_tag P cs m k ctx = Ok tt.
Proof. exact c46_other. Qed.
Print Assumptions C46_non_members.

Example C46_example : from_member ex_public /\ p_hash toy Suite1 = Ok toy_hash /\
  (exists b, membership_input ex_public ex_gc b) /\
  (exists bs, se_public_message ex_public = Ok bs /\ de_public_message bs = Ok (ex_public, [])) /\
  verify_membership_tag toy Suite1 ex_public (str "mk") ex_gc = Err VerifyConfirmationTagFailed /\
  exists m', sign_membership_tag toy Suite1 ex_public (str "mk") ex_gc = Ok m' /\ verify_membership_tag toy Suite1 m' (str "other") ex_gc = Err VerifyConfirmationTagFailed.
Proof.
  split; [eexists; reflexivity|]. split; [reflexivity|]. split; [eexists; vm_compute; reflexivity|].
  split; [eexists; split; vm_compute; reflexivity|]. split; [vm_compute; reflexivity|]. eexists. split; [vm_compute; reflexivity|vm_compute; reflexivity].
Qed.

(* ------------------------------------------------------------------------------------------- *)
(** * C47 *)

(** Refuted: everything the library frames has an empty confirmation tag, which no key and transcript make valid. *)
Theorem C47_refuted_public : forall P cs sk c ctx m k ch, new_public_message P cs sk c ctx = Ok m ->
  verify_auth_confirmation_tag P cs (pm_auth m) k ch = Err VerifyConfirmationTagFailed.
Proof. exact c47_public. Qed.
Print Assumptions C47_refuted_public.
Theorem C47_refuted_private : forall P cs sk r sds c sd ctx m pc k ch, aead_ok P cs -> wf_framed_content c -> wf_sender_data sd ->
  new_private_message P cs sk r sds c sd ctx = Ok m -> decrypt_content P cs m r (sd_reuse_guard sd) = Ok pc ->
  verify_auth_confirmation_tag P cs (pc_auth pc) k ch = Err VerifyConfirmationTagFailed.
Proof. exact c47_private. Qed.
Print Assumptions C47_refuted_private.
Theorem C47_refuted_any : forall P cs sk w c ctx a k ch, new_auth_content P cs sk w c ctx = Ok a ->
  ad_confirmation_tag (ac_auth a) = [] /\ verify_auth_confirmation_tag P cs (ac_auth a) k ch = Err VerifyConfirmationTagFailed.
Proof. exact c47_built. Qed.
Print Assumptions C47_refuted_any.

(** What does hold: a receiver accepts exactly the non-empty tag equal to the MAC of the confirmed transcript hash. *)
Theorem C47_accepted_partial : forall P cs h a k ch, p_hash P cs = Ok h ->
  (verify_auth_confirmation_tag P cs a k ch = Ok tt <-> ad_confirmation_tag a <> [] /\ ad_confirmation_tag a = h_mac h k ch).
Proof. exact c47_iff. Qed.
Print Assumptions C47_accepted_partial.

Example C47_example : exists m, new_public_message toy Suite1 (str "k") (ex_framed (SMember 2) (CCommit ex_commit)) ex_gc = Ok m /\
  verify_auth_confirmation_tag toy Suite1 (MkAuth [] (str "key" ++ str "hash")%list) (str "key") (str "hash") = Ok tt.
Proof. eexists. split; [vm_compute; reflexivity|vm_compute; reflexivity]. Qed.
