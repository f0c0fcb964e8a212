(** Proofs about the byte layouts of SpecLayout.v. *)
From Verif Require Import Base Wire CodecLib WireWF WireCodecs TreeCodec SpecSecrets SecretFacts SpecLayout.
From Coq Require Import List NArith Lia.
Import ListNotations.
Local Open Scope N_scope.

Definition says (r : res bytes) (l : bytes) : Prop := forall b, r = Ok b -> b = l.
Lemma says_ok b : says (Ok b) b.
Proof. intros x H. apply Ok_inj in H. auto. Qed.
Lemma says_seq x y l m : says x l -> says y m -> says (x +++ y) (l ++ m)%list.
Proof. intros X Y b H. apply seqw_ok in H as (p & q & Hp & Hq & ->). rewrite (X _ Hp), (Y _ Hq). reflexivity. Qed.
Lemma says_seq_nil x l : says x l -> says (x +++ Ok []) l.
Proof. intros X b H. apply seqw_ok in H as (p & q & Hp & Hq & ->). apply Ok_inj in Hq; subst q. rewrite app_nil_r. auto. Qed.
Lemma says_u8 n : says (put_u8 n) (uint8 n).
Proof. intros b H. apply Ok_inj in H. subst b. unfold uint8. cbn [be]. rewrite N.div_1_r. reflexivity. Qed.
Lemma be2_uint n : be 2 n = uint16 n.
Proof. unfold uint16. cbn [be]. change (256 ^ N.of_nat 1) with 256. change (256 ^ N.of_nat 0) with 1. rewrite N.div_1_r. reflexivity. Qed.
Lemma be4_uint n : be 4 n = uint32 n.
Proof.
  unfold uint32. cbn [be]. change (256 ^ N.of_nat 3) with 16777216. change (256 ^ N.of_nat 2) with 65536.
  change (256 ^ N.of_nat 1) with 256. change (256 ^ N.of_nat 0) with 1. rewrite N.div_1_r. reflexivity.
Qed.
Lemma be8_uint n : be 8 n = uint64 n.
Proof.
  unfold uint64. rewrite <- !be4_uint. cbn [be app].
  change (256 ^ N.of_nat 7) with (4294967296 * 256 ^ N.of_nat 3). change (256 ^ N.of_nat 6) with (4294967296 * 256 ^ N.of_nat 2).
  change (256 ^ N.of_nat 5) with (4294967296 * 256 ^ N.of_nat 1). change (256 ^ N.of_nat 4) with (4294967296 * 256 ^ N.of_nat 0).
  rewrite <- !N.div_div by discriminate. reflexivity.
Qed.
Lemma says_u16 n : says (put_u16 n) (uint16 n).
Proof. intros b H. apply Ok_inj in H. subst b. apply be2_uint. Qed.
Lemma says_u32 n : says (put_u32 n) (uint32 n).
Proof. intros b H. apply Ok_inj in H. subst b. apply be4_uint. Qed.
Lemma says_u64 n : says (put_u64 n) (uint64 n).
Proof. intros b H. apply Ok_inj in H. subst b. apply be8_uint. Qed.
Lemma opaqueV_vec b : opaqueV b = vec b.
Proof.
  unfold opaqueV, vec, size_header. cbn zeta. f_equal. rewrite be2_uint, be4_uint.
  destruct (_ <? 64); [|reflexivity]. symmetry. apply (says_u8 (N.of_nat (length b))). reflexivity.
Qed.
Lemma says_opaque b : says (se_opaque b) (opaqueV b).
Proof.
  intros x H. rewrite opaqueV_vec. destruct (fits30_dec b) as [F|F].
  - rewrite (se_opaque_vec _ F) in H. apply Ok_inj in H. auto.
  - destruct (se_opaque_long _ F) as [E|E]; rewrite E in H; discriminate.
Qed.
Lemma says_elems {A} (g : A -> res bytes) f l : (forall a, says (g a) (f a)) -> says (se_elems g l) (concat (map f l)).
Proof. intros G. induction l as [|a l IH]; cbn; [apply says_ok|]. apply says_seq; [apply G|exact IH]. Qed.
Lemma says_vector {A} (g : A -> res bytes) f l : (forall a, says (g a) (f a)) -> says (se_vector g l) (vectorV f l).
Proof.
  intros G b H. unfold se_vector in H. apply bind_ok in H as (raw & R & H).
  apply (says_elems g f l G) in R. subst raw. apply says_opaque in H. exact H.
Qed.
Lemma says_option {A} (g : A -> res bytes) f o : (forall a, says (g a) (f a)) -> says (se_option g o) (optionalT f o).
Proof. intros G. destruct o as [a|]; cbn [se_option optionalT se_optflag]; [apply says_seq; [apply says_u8|apply G]|apply says_u8]. Qed.

Create HintDb lay discriminated.
#[local] Hint Resolve says_ok says_u8 says_u16 says_u32 says_u64 says_opaque says_vector says_option : lay.
Ltac lay := repeat first [solve [auto 4 with lay] | apply says_seq | apply says_seq_nil].

Lemma l_version v : says (se_u16_as u16_of_version v) (rfc_version v). Proof. apply says_u16. Qed.
Lemma l_suite v : says (se_u16_as u16_of_cipher_suite v) (rfc_suite v). Proof. apply says_u16. Qed.
Lemma l_ext v : says (se_u16_as u16_of_extension_type v) (rfc_extension_type v). Proof. apply says_u16. Qed.
Lemma l_prop v : says (se_u16_as u16_of_proposal_type v) (rfc_proposal_type v). Proof. apply says_u16. Qed.
Lemma l_cred v : says (se_u16_as u16_of_credential_type v) (rfc_credential_type v). Proof. apply says_u16. Qed.
Lemma l_version' v : says (put_u16 (u16_of_version v)) (rfc_version v). Proof. apply says_u16. Qed.
Lemma l_suite' v : says (put_u16 (u16_of_cipher_suite v)) (rfc_suite v). Proof. apply says_u16. Qed.
Lemma l_ext' v : says (put_u16 (u16_of_extension_type v)) (rfc_extension_type v). Proof. apply says_u16. Qed.
Lemma l_wire_format v : says (se_wire_format v) (rfc_wire_format v). Proof. apply says_u16. Qed.
Lemma l_content_type v : says (se_content_type v) (rfc_content_type v). Proof. apply says_u8. Qed.
Lemma l_scheme v : says (se_signature_scheme v) (rfc_signature_scheme v). Proof. destruct v; apply says_u16. Qed.
Lemma l_proposal_type v : says (se_proposal_type v) (rfc_proposal_type v). Proof. apply says_u16. Qed.
Lemma l_usage v : says (se_psk_usage v) (rfc_psk_usage v). Proof. apply says_u8. Qed.
#[local] Hint Resolve l_version l_suite l_ext l_prop l_cred l_version' l_suite' l_ext' l_wire_format l_content_type l_usage : lay.

Lemma l_credential c : says (se_credential c) (rfc_credential c).
Proof. destruct c; unfold se_credential, se_identity, se_certificate, rfc_credential; cbn [credential_type_of u16_of_credential_type]; lay. Qed.
Lemma l_sender s : says (se_sender s) (rfc_sender s).
Proof. destruct s; unfold se_sender, rfc_sender, se_sender_type; cbn [sender_type_of]; lay. Qed.
Lemma l_extension e : says (se_extension e) (rfc_extension e).
Proof. unfold se_extension, rfc_extension. lay. Qed.
Lemma l_extensions e : says (se_extensions e) (rfc_extensions e).
Proof. apply says_vector, l_extension. Qed.
#[local] Hint Resolve l_credential l_sender l_extension l_extensions : lay.
Lemma l_required c : says (se_required_capabilities c) (rfc_required_capabilities c).
Proof. unfold se_required_capabilities, rfc_required_capabilities. lay. Qed.
Lemma l_external_sender e : says (se_external_senders e) (rfc_external_sender e).
Proof. unfold se_external_senders, rfc_external_sender, se_secret_key. lay. Qed.
Lemma l_lifetime l : says (se_lifetime l) (rfc_lifetime l).
Proof. unfold se_lifetime, rfc_lifetime. lay. Qed.
#[local] Hint Resolve l_lifetime : lay.
Lemma l_source s : says (se_leaf_node_source s) (rfc_leaf_node_source s).
Proof. destruct s; unfold se_leaf_node_source, rfc_leaf_node_source; lay. Qed.
Lemma l_capabilities c : says (se_capabilities c) (rfc_capabilities c).
Proof. unfold se_capabilities, rfc_capabilities. lay. Qed.
#[local] Hint Resolve l_source l_capabilities : lay.
Lemma l_leaf_payload p : says (se_leaf_payload p) (rfc_leaf_payload p).
Proof. unfold se_leaf_payload, rfc_leaf_payload. lay. Qed.
#[local] Hint Resolve l_leaf_payload : lay.
Lemma l_leaf_node p : says (se_leaf_node p) (rfc_leaf_node p).
Proof. unfold se_leaf_node, rfc_leaf_node. lay. Qed.
#[local] Hint Resolve l_leaf_node : lay.
Lemma l_leaf_tbs p g i : says (se_leaf_node_tbs p (TIUpdateOrCommit g i)) (rfc_leaf_node_tbs p g i).
Proof. unfold se_leaf_node_tbs, rfc_leaf_node_tbs. destruct (lp_source p); lay. Qed.
Lemma l_parent p : says (se_parent_node p) (rfc_parent_node p).
Proof. unfold se_parent_node, rfc_parent_node. lay. Qed.
Lemma l_hpke p : says (se_hpke_ciphertext p) (rfc_hpke_ciphertext p).
Proof. unfold se_hpke_ciphertext, rfc_hpke_ciphertext. lay. Qed.
#[local] Hint Resolve l_parent l_hpke : lay.
Lemma l_upn p : says (se_update_path_node p) (rfc_update_path_node p).
Proof. unfold se_update_path_node, rfc_update_path_node. lay. Qed.
#[local] Hint Resolve l_upn : lay.
Lemma l_update_path p : says (se_update_path p) (rfc_update_path p).
Proof. unfold se_update_path, rfc_update_path. lay. Qed.
Lemma l_node n : says (se_node n) (rfc_node n).
Proof. destruct n; unfold se_node, rfc_node, se_node_type; cbn [node_type_of]; lay. Qed.
#[local] Hint Resolve l_update_path l_node : lay.
Lemma l_nodes t : says (se_vector (se_option se_node) t) (rfc_nodes t).
Proof. apply says_vector. intros o. apply says_option, l_node. Qed.
Lemma l_kp_tbs k : says (se_key_package_tbs k) (rfc_key_package_tbs k).
Proof. unfold se_key_package_tbs, rfc_key_package_tbs. lay. Qed.
#[local] Hint Resolve l_kp_tbs : lay.
Lemma l_kp k : says (se_key_package k) (rfc_key_package k).
Proof. unfold se_key_package, rfc_key_package. lay. Qed.
Lemma l_context g : says (se_group_context g) (rfc_group_context g).
Proof. unfold se_group_context, rfc_group_context. lay. Qed.
#[local] Hint Resolve l_kp l_context : lay.
Lemma l_psk p : says (se_psk p) (rfc_psk p).
Proof. destruct p; unfold se_psk, rfc_psk, se_psk_type, se_resumption; cbn [psk_type_of]; lay. Qed.
#[local] Hint Resolve l_psk : lay.
Lemma l_psk_id p : says (se_psk_id p) (rfc_psk_id p).
Proof. unfold se_psk_id, rfc_psk_id. lay. Qed.
#[local] Hint Resolve l_psk_id : lay.
Lemma l_psk_label p : says (se_psk_label p) (rfc_psk_label p).
Proof. unfold se_psk_label, rfc_psk_label. lay. Qed.
Lemma l_proposal p : says (se_proposal p) (rfc_proposal p).
Proof.
  destruct p; unfold se_proposal, rfc_proposal, se_add_proposal, se_update_proposal, se_remove_proposal, se_psk_proposal,
    se_reinit_proposal, se_external_init_proposal, se_gce_proposal; cbn [u16_of_proposal_type]; lay.
Qed.
#[local] Hint Resolve l_proposal : lay.
Lemma l_por p : says (se_proposal_or_ref p) (rfc_proposal_or_ref p).
Proof. destruct p; unfold se_proposal_or_ref, rfc_proposal_or_ref; lay. Qed.
#[local] Hint Resolve l_por : lay.
Lemma l_commit p : says (se_commit p) (rfc_commit p).
Proof. unfold se_commit, rfc_commit; lay. Qed.
#[local] Hint Resolve l_commit : lay.
Lemma l_body c : says (se_content_body c) (rfc_bare_content c).
Proof. destruct c; cbn; lay. Qed.
#[local] Hint Resolve l_body : lay.
Lemma kind_of c : content_type_of c = kind c. Proof. destruct c; reflexivity. Qed.
Lemma l_content c : says (se_content c) (rfc_content c).
Proof. unfold se_content, rfc_content. rewrite kind_of. lay. Qed.
#[local] Hint Resolve l_content : lay.
Lemma l_framed c : says (se_framed_content c) (rfc_framed_content c).
Proof. unfold se_framed_content, rfc_framed_content. lay. Qed.
Lemma l_auth ct a : says (se_auth_data ct a) (rfc_auth_data ct a).
Proof. unfold se_auth_data, rfc_auth_data. destruct ct; lay. Qed.
#[local] Hint Resolve l_framed l_auth : lay.
Lemma l_auth_content a : says (se_auth_content a) (rfc_auth_content a).
Proof. unfold se_auth_content, rfc_auth_content. rewrite kind_of. lay. Qed.
Lemma l_tbs v w f g : says (se_framed_content_tbs (MkTBS v w f (Some g))) (rfc_framed_content_tbs v w f g).
Proof. unfold se_framed_content_tbs, rfc_framed_content_tbs. cbn [tbs_version tbs_wire_format tbs_content tbs_context]. destruct (fc_sender f); lay. Qed.
Lemma l_tbs_none v w f g b : se_framed_content_tbs (MkTBS v w f None) = Ok b ->
  (fc_sender f = SNewMemberProposal \/ exists i, fc_sender f = SExternal i) /\ b = rfc_framed_content_tbs v w f g.
Proof.
  intros H. split.
  - unfold se_framed_content_tbs in H. cbn [tbs_content tbs_context] in H. destruct (fc_sender f); eauto; exfalso;
      repeat (apply seqw_ok in H as (? & ? & _ & H & _)); discriminate.
  - revert b H. change (says (se_framed_content_tbs (MkTBS v w f None)) (rfc_framed_content_tbs v w f g)).
    unfold se_framed_content_tbs, rfc_framed_content_tbs. cbn [tbs_version tbs_wire_format tbs_content tbs_context].
    destruct (fc_sender f); lay; intros b H; discriminate.
Qed.
Lemma l_tbm v w f g a : says (se_auth_content_tbm (MkTBM (MkTBS v w f (Some g)) a))
  (rfc_framed_content_tbs v w f g ++ rfc_auth_data (kind (fc_content f)) a)%list.
Proof. unfold se_auth_content_tbm. cbn [tbm_tbs tbm_auth tbs_content]. rewrite kind_of. apply says_seq; [apply l_tbs|apply l_auth]. Qed.
Lemma l_public f a t : says (se_public_message (MkPublic f a (Some t))) (rfc_public_message f a t).
Proof. unfold se_public_message, rfc_public_message. cbn [pm_content pm_auth pm_tag]. rewrite kind_of. destruct (fc_sender f); lay. Qed.
Lemma l_public_none f a t : (forall i, fc_sender f <> SMember i) -> says (se_public_message (MkPublic f a None)) (rfc_public_message f a t).
Proof. intros N. unfold se_public_message, rfc_public_message. cbn [pm_content pm_auth pm_tag]. rewrite kind_of. destruct (fc_sender f) eqn:E; [exfalso; apply (N _ eq_refl)|lay..]. Qed.
Lemma l_private m : says (se_private_message m) (rfc_private_message m).
Proof. unfold se_private_message, rfc_private_message. lay. Qed.
Lemma l_private_content m : says (se_private_content m) (rfc_private_content m).
Proof. unfold se_private_content, rfc_private_content. rewrite kind_of. lay. Qed.
Lemma l_private_aad m : says (se_private_content_aad m) (rfc_private_content_aad m).
Proof. unfold se_private_content_aad, rfc_private_content_aad. lay. Qed.
Lemma l_sender_data m : says (se_sender_data m) (rfc_sender_data m).
Proof. unfold se_sender_data, rfc_sender_data. lay. Qed.
Lemma l_sender_aad m : says (se_sender_data_aad m) (rfc_sender_data_aad m).
Proof. unfold se_sender_data_aad, rfc_sender_data_aad. lay. Qed.
Lemma l_gi_base g : says (se_group_info_base g) (rfc_group_info_tbs g).
Proof. unfold se_group_info_base, rfc_group_info_tbs. lay. Qed.
#[local] Hint Resolve l_private l_gi_base : lay.
Lemma l_gi g : says (se_group_info g) (rfc_group_info g).
Proof. unfold se_group_info, rfc_group_info. apply says_seq; lay. Qed.
Lemma l_gs g : says (se_group_secrets g) (rfc_group_secrets g).
Proof. unfold se_group_secrets, rfc_group_secrets. lay. Qed.
Lemma l_egs g : says (se_egs g) (rfc_encrypted_group_secrets g).
Proof. unfold se_egs, rfc_encrypted_group_secrets, se_key_package_ref. lay. Qed.
#[local] Hint Resolve l_gi l_gs l_egs : lay.
Lemma l_welcome w : says (se_welcome w) (rfc_welcome w).
Proof. unfold se_welcome, rfc_welcome. lay. Qed.
#[local] Hint Resolve l_welcome : lay.
Lemma l_wire m : says (se_wire_message m) (rfc_wire_message m).
Proof.
  destruct m as [[f a [t|]]|m|m|m|m]; unfold se_wire_message, rfc_wire_message, se_wire_format; cbn [wire_format_of pm_tag pm_content pm_auth];
    apply says_seq; try apply says_u16; try solve [auto with lay].
  - apply l_public.
  - unfold se_public_message. cbn [pm_content pm_auth pm_tag]. rewrite kind_of. apply says_seq; [apply l_framed|]. destruct (fc_sender f); apply says_seq_nil, l_auth.
Qed.
Lemma l_mls m : says (se_mls_message m) (rfc_mls_message m).
Proof. unfold se_mls_message, rfc_mls_message. apply says_seq; [lay|apply l_wire]. Qed.
Lemma l_confirmed c : says (se_confirmed_input c) (rfc_confirmed_input c).
Proof. unfold se_confirmed_input, rfc_confirmed_input. destruct (fc_content _); [intros b H; discriminate..|lay]. Qed.

Lemma speaks_codec {A} {wf : A -> Prop} {ser de} layout : codec wf ser de -> (forall a, says (ser a) (layout a)) -> speaks ser de layout.
Proof.
  intros C L. split; [exact L|]. intros bs a rest H. destruct (codec_can C _ _ _ H) as (_ & p & Hp & ->).
  rewrite (L _ _ Hp). reflexivity.
Qed.

Lemma c76_tree_written t b : se_ratchet_tree t = Ok b ->
  exists l n, t = (l ++ repeat None n)%list /\ (forall l', l <> (l' ++ [None])%list) /\ b = rfc_nodes l.
Proof.
  intros H. destruct (trim_blank_spec t) as [n E]. exists (trim_blank t), n. split; [exact E|].
  split; [apply trim_blank_no_trailing|]. apply l_nodes in H. exact H.
Qed.
Lemma c76_tree_read bs t rest : de_ratchet_tree bs = Ok (t, rest) ->
  exists l n, t = (l ++ repeat None n)%list /\ bs = (rfc_nodes l ++ rest)%list.
Proof.
  intros H. apply tree_decode in H as (_ & l & p & S & -> & (n & k & -> & _)). apply l_nodes in S. subst p. eauto.
Qed.

(** ** External senders *)
Lemma se_external_senders_fits e b : se_external_senders e = Ok b -> fits30 (es_signature_key e).
Proof.
  unfold se_external_senders, se_secret_key. intros H. apply seqw_ok in H as (x & y & X & _ & _).
  destruct (fits30_dec (es_signature_key e)) as [F|F]; [exact F|]. destruct (se_opaque_long _ F) as [E|E]; rewrite E in X; discriminate.
Qed.
Lemma credential_long c : (2 <= length (rfc_credential c))%nat.
Proof. destruct c; cbn [rfc_credential]; rewrite app_length; cbn [uint16 length]; lia. Qed.
Lemma c77_never_written e b l : se_external_senders e = Ok b -> fits30 (concat (map rfc_external_sender l)) -> b <> rfc_external_senders l.
Proof.
  intros H F E. pose proof (se_external_senders_fits _ _ H) as K. apply l_external_sender in H. subst b.
  unfold rfc_external_senders, vectorV in E. unfold rfc_external_sender in E at 1. rewrite !opaqueV_vec in E.
  rewrite <- (app_nil_r (vec (concat _))) in E. apply (vec_prefix _ _ _ _ K F) in E as [_ E].
  pose proof (credential_long (es_credential e)). rewrite E in H. cbn in H. lia.
Qed.
Lemma c77_never_read l e rest : fits30 (concat (map rfc_external_sender l)) -> de_external_senders (rfc_external_senders l) <> Ok (e, rest).
Proof.
  intros F H. apply (codec_can codec_external_senders) in H as (_ & p & S & E).
  pose proof (se_external_senders_fits _ _ S) as K. apply l_external_sender in S. subst p.
  unfold rfc_external_senders, vectorV in E. unfold rfc_external_sender in E at 2. rewrite !opaqueV_vec in E.
  rewrite <- (app_nil_r (vec (concat _))), <- app_assoc in E. apply (vec_prefix _ _ _ _ F K) in E as [_ E].
  pose proof (credential_long (es_credential e)). apply (f_equal (@length byte)) in E. rewrite app_length in E. cbn in E. lia.
Qed.

Lemma c76_layout :
  speaks se_content_type de_content_type rfc_content_type /\
  speaks se_wire_format de_wire_format rfc_wire_format /\
  speaks se_proposal_type de_proposal_type rfc_proposal_type /\
  speaks se_signature_scheme de_signature_scheme rfc_signature_scheme /\
  speaks se_credential de_credential rfc_credential /\
  speaks se_sender de_sender rfc_sender /\
  speaks se_extensions de_extensions rfc_extensions /\
  speaks se_required_capabilities de_required_capabilities rfc_required_capabilities /\
  speaks se_application_id de_application_id opaqueV /\
  speaks se_unknown_extension de_unknown_extension opaqueV /\
  speaks se_external_pub de_external_pub opaqueV /\
  speaks se_capabilities de_capabilities rfc_capabilities /\
  speaks se_leaf_node_source de_leaf_node_source rfc_leaf_node_source /\
  speaks se_leaf_node de_leaf_node rfc_leaf_node /\
  speaks se_parent_node de_parent_node rfc_parent_node /\
  speaks se_hpke_ciphertext de_hpke_ciphertext rfc_hpke_ciphertext /\
  speaks se_update_path_node de_update_path_node rfc_update_path_node /\
  speaks se_update_path de_update_path rfc_update_path /\
  speaks se_node de_node rfc_node /\
  speaks se_key_package_ref de_key_package_ref opaqueV /\
  speaks se_key_package_tbs de_key_package_tbs rfc_key_package_tbs /\
  speaks se_key_package de_key_package rfc_key_package /\
  speaks se_group_context de_group_context rfc_group_context /\
  speaks se_psk de_psk rfc_psk /\
  speaks se_psk_id de_psk_id rfc_psk_id /\
  speaks se_psk_label de_psk_label rfc_psk_label /\
  speaks se_proposal de_proposal rfc_proposal /\
  speaks se_proposal_or_ref de_proposal_or_ref rfc_proposal_or_ref /\
  speaks se_commit de_commit rfc_commit /\
  speaks se_content de_content rfc_content /\
  speaks se_framed_content de_framed_content rfc_framed_content /\
  (forall ct, speaks (se_auth_data ct) (de_auth_data ct) (rfc_auth_data ct)) /\
  speaks se_auth_content de_auth_content rfc_auth_content /\
  speaks se_sender_data de_sender_data rfc_sender_data /\
  speaks se_private_message de_private_message rfc_private_message /\
  speaks se_private_content_aad de_private_content_aad rfc_private_content_aad /\
  speaks se_group_info de_group_info rfc_group_info /\
  speaks se_group_secrets de_group_secrets rfc_group_secrets /\
  speaks se_egs de_egs rfc_encrypted_group_secrets /\
  speaks se_welcome de_welcome rfc_welcome /\
  speaks se_mls_message de_mls_message rfc_mls_message /\
  speaks se_confirmed_input de_confirmed_input rfc_confirmed_input.
Proof.
  assert (O : speaks se_opaque de_opaque opaqueV) by exact (speaks_codec _ codec_opaque says_opaque).
  repeat match goal with |- _ /\ _ => split end; try exact O.
  - exact (speaks_codec _ codec_content_type l_content_type).
  - exact (speaks_codec _ codec_wire_format l_wire_format).
  - exact (speaks_codec _ codec_proposal_type l_proposal_type).
  - exact (speaks_codec _ codec_signature_scheme l_scheme).
  - exact (speaks_codec _ codec_credential l_credential).
  - exact (speaks_codec _ codec_sender l_sender).
  - exact (speaks_codec _ codec_extensions l_extensions).
  - exact (speaks_codec _ codec_required_capabilities l_required).
  - exact (speaks_codec _ codec_capabilities l_capabilities).
  - exact (speaks_codec _ codec_leaf_node_source l_source).
  - exact (speaks_codec _ codec_leaf_node l_leaf_node).
  - exact (speaks_codec _ codec_parent_node l_parent).
  - exact (speaks_codec _ codec_hpke_ciphertext l_hpke).
  - exact (speaks_codec _ codec_update_path_node l_upn).
  - exact (speaks_codec _ codec_update_path l_update_path).
  - exact (speaks_codec _ codec_node l_node).
  - exact (speaks_codec _ codec_key_package_tbs l_kp_tbs).
  - exact (speaks_codec _ codec_key_package l_kp).
  - exact (speaks_codec _ codec_group_context l_context).
  - exact (speaks_codec _ codec_psk l_psk).
  - exact (speaks_codec _ codec_psk_id l_psk_id).
  - exact (speaks_codec _ codec_psk_label l_psk_label).
  - exact (speaks_codec _ codec_proposal l_proposal).
  - exact (speaks_codec _ codec_proposal_or_ref l_por).
  - exact (speaks_codec _ codec_commit l_commit).
  - exact (speaks_codec _ codec_content l_content).
  - exact (speaks_codec _ codec_framed_content l_framed).
  - intros ct. exact (speaks_codec _ (codec_auth_data ct) (l_auth ct)).
  - exact (speaks_codec _ codec_auth_content l_auth_content).
  - exact (speaks_codec _ codec_sender_data l_sender_data).
  - exact (speaks_codec _ codec_private_message l_private).
  - exact (speaks_codec _ codec_private_content_aad l_private_aad).
  - exact (speaks_codec _ codec_group_info l_gi).
  - exact (speaks_codec _ codec_group_secrets l_gs).
  - exact (speaks_codec _ codec_egs l_egs).
  - exact (speaks_codec _ codec_welcome l_welcome).
  - exact (speaks_codec _ codec_mls_message l_mls).
  - exact (speaks_codec _ codec_confirmed_input l_confirmed).
Qed.

Lemma l_leaf_tbs_kp p l b g i : lp_source p = LSKeyPackage l -> se_leaf_node_tbs p TIKeyPackage = Ok b -> b = rfc_leaf_node_tbs p g i.
Proof. intros E. apply (fun H : says _ _ => H b). unfold se_leaf_node_tbs, rfc_leaf_node_tbs. rewrite E. apply says_seq; [apply l_leaf_payload|apply says_ok]. Qed.
Lemma c76_signed :
  (forall p g i b, se_leaf_node_tbs p (TIUpdateOrCommit g i) = Ok b -> b = rfc_leaf_node_tbs p g i) /\
  (forall p l b g i, lp_source p = LSKeyPackage l -> se_leaf_node_tbs p TIKeyPackage = Ok b -> b = rfc_leaf_node_tbs p g i) /\
  (forall v w f g b, se_framed_content_tbs (MkTBS v w f (Some g)) = Ok b -> b = rfc_framed_content_tbs v w f g) /\
  (forall v w f g b, se_framed_content_tbs (MkTBS v w f None) = Ok b ->
     (fc_sender f = SNewMemberProposal \/ exists i, fc_sender f = SExternal i) /\ b = rfc_framed_content_tbs v w f g) /\
  (forall v w f g a b, se_auth_content_tbm (MkTBM (MkTBS v w f (Some g)) a) = Ok b ->
     b = (rfc_framed_content_tbs v w f g ++ rfc_auth_data (kind (fc_content f)) a)%list) /\
  (forall g b, se_group_info_base g = Ok b -> b = rfc_group_info_tbs g) /\
  (forall s b, se_sender_data_aad s = Ok b -> b = rfc_sender_data_aad s) /\
  (forall p b, se_private_content p = Ok b -> b = rfc_private_content p).
Proof.
  split; [exact l_leaf_tbs|]. split; [exact l_leaf_tbs_kp|]. split; [exact l_tbs|]. split; [exact l_tbs_none|].
  split; [exact l_tbm|]. split; [exact l_gi_base|]. split; [exact l_sender_aad|exact l_private_content].
Qed.
Lemma c76_public :
  (forall f a t b, se_public_message (MkPublic f a (Some t)) = Ok b -> b = rfc_public_message f a t) /\
  (forall bs m rest, de_public_message bs = Ok (m, rest) ->
     exists t, bs = (rfc_public_message (pm_content m) (pm_auth m) t ++ rest)%list /\
       (forall i, fc_sender (pm_content m) = SMember i -> pm_tag m = Some t)).
Proof.
  split; [exact l_public|]. intros bs [f a [t|]] rest H; cbn [pm_content pm_auth pm_tag];
    apply (codec_can codec_public_message) in H as (W & p & S & ->).
  - exists t. apply l_public in S. subst p. auto.
  - assert (N : forall i, fc_sender f <> SMember i).
    { intros i E. destruct W as (_ & _ & W). cbn [pm_content pm_tag] in W. rewrite E in W. cbn in W. congruence. }
    exists []. apply (l_public_none f a [] N) in S. subst p. split; [reflexivity|]. intros i E. destruct (N i E).
Qed.
Lemma c76_key_pairs : speaks se_signature_key_pair de_signature_key_pair stored_signature_key_pair /\ speaks se_hpke_key_pair de_hpke_key_pair stored_hpke_key_pair.
Proof.
  split; (eapply speaks_codec; [typeclasses eauto|]).
  - intros k. unfold se_signature_key_pair, stored_signature_key_pair, se_secret_key. lay. apply l_scheme.
  - intros k. unfold se_hpke_key_pair, stored_hpke_key_pair, se_secret_key. lay.
Qed.
