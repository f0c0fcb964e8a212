(** Proofs about what is signed, sealed and tagged (SpecSealed.v). *)
From Verif Require Import SpecSealed LayoutFacts SecretFacts PrivateFacts TreePaths KeyPackage Group Messages SpecSecrets CodecLib WireWF WireCodecs TreeCodec CodecFacts SpecMessages SpecLayout.
Local Open Scope N_scope.

Lemma sign_content_eq l c : sign_content l c = labelled l c.
Proof. unfold sign_content, labelled, mls_label. rewrite !opaqueV_vec. reflexivity. Qed.
Lemma kdf_input_eq l c n : kdf_input l c n = kdf_label l c n.
Proof. unfold kdf_input, kdf_label, mls_label. rewrite !opaqueV_vec, be2_uint. reflexivity. Qed.
Lemma label_data_ok l c b : mls_prefix_label_data l c = Ok b -> b = sign_content l c.
Proof.
  intros H. rewrite sign_content_eq. destruct (fits30_dec (mls_label l)) as [L|L], (fits30_dec c) as [C|C];
    try (destruct (label_data_long l c) as [E|E]; [tauto| |]; rewrite H in E; discriminate).
  rewrite (label_data_eq _ _ L C) in H. apply Ok_inj in H. auto.
Qed.
Lemma sign_made P cs sa sk l c sig : p_sig P cs = Ok sa -> sign_with_label P cs sk l c = Ok sig -> signature_is sa sk l c sig.
Proof.
  intros S H. unfold sign_with_label in H. apply bind_ok in H as (m & M & H). apply label_data_ok in M. subst m.
  rewrite S in H. exact H.
Qed.
Lemma verify_made P cs sa pk l c sig : p_sig P cs = Ok sa -> verify_with_label P cs pk l c sig = Ok tt -> signature_good sa pk l c sig.
Proof.
  intros S H. unfold verify_with_label in H. apply bind_ok in H as (m & M & H). apply label_data_ok in M. subst m.
  rewrite S in H. exact H.
Qed.
Lemma expand_made P cs k s l c n b : p_hpke P cs = Ok k -> expand_with_label P cs s l c n = Ok b -> expands_to k s l c n b.
Proof.
  intros K H. apply expand_ok in H as (k' & K' & _ & _ & H). rewrite K in K'. apply Ok_inj in K'. subst k'.
  unfold expands_to. rewrite kdf_input_eq. exact H.
Qed.

(** Signatures. *)
Lemma c112_content P cs sa sk w c ctx a : p_sig P cs = Ok sa -> new_auth_content P cs sk w c ctx = Ok a ->
  ac_wire_format a = w /\ ac_content a = c /\ ad_confirmation_tag (ac_auth a) = [] /\
  signature_is sa sk (str "FramedContentTBS") (rfc_framed_content_tbs MLS10 w c ctx) (ad_signature (ac_auth a)).
Proof.
  intros S H. unfold new_auth_content in H. apply bind_ok in H as (s & H & E). apply Ok_inj in E. subst a. cbn.
  unfold sign_framed_content in H. apply bind_ok in H as (raw & R & H). unfold content_tbs in R. cbn in R. apply l_tbs in R. subst raw.
  repeat split. eapply sign_made; eassumption.
Qed.
Lemma c112_content_checked P cs sa pk a ctx : p_sig P cs = Ok sa -> verify_content_signature P cs a pk ctx = Ok tt ->
  signature_good sa pk (str "FramedContentTBS") (rfc_framed_content_tbs MLS10 (ac_wire_format a) (ac_content a) ctx) (ad_signature (ac_auth a)).
Proof.
  intros S H. unfold verify_content_signature, verify_auth_signature in H. apply bind_ok in H as (raw & R & H).
  unfold content_tbs in R. apply l_tbs in R. subst raw. eapply verify_made; eassumption.
Qed.
(** The place that goes with the source of a leaf. *)
Lemma leaf_tbs_said p ti b group index : match lp_source p with LSKeyPackage _ => True | _ => ti = TIUpdateOrCommit group index end ->
  se_leaf_node_tbs p ti = Ok b -> b = rfc_leaf_node_tbs p group index.
Proof.
  intros M H. destruct ti as [|g i].
  - destruct (lp_source p) eqn:S; try discriminate. eapply l_leaf_tbs_kp; eassumption.
  - apply l_leaf_tbs in H. subst b. unfold rfc_leaf_node_tbs. destruct (lp_source p); congruence.
Qed.
Lemma c112_leaf P fill cs sa cred skp src caps exts ti l ekp group index : p_sig P cs = Ok sa ->
  match src with LSKeyPackage _ => True | _ => ti = TIUpdateOrCommit group index end ->
  leaf_node_new P fill cs cred skp src caps exts ti = Ok (l, ekp) ->
  ln_payload l = MkLeafPayload (hkp_public ekp) (skp_public skp) cred caps src exts /\
  signature_is sa (skp_public skp) (str "LeafNodeTBS") (rfc_leaf_node_tbs (ln_payload l) group index) (ln_signature l).
Proof.
  intros S M H. unfold leaf_node_new in H. apply bind_ok in H as (h & _ & H). apply bind_ok in H as (ikm & _ & H).
  apply bind_ok in H as (k & _ & H). apply bind_ok in H as (kp & _ & H). apply bind_ok in H as (tbs & T & H).
  apply bind_ok in H as (sig & G & H). apply Ok_inj in H. injection H as <- <-. cbn. split; [reflexivity|].
  apply (leaf_tbs_said _ _ _ group index) in T; [|exact M]. subst tbs. eapply sign_made; eassumption.
Qed.
Lemma is_ok_true {A} (m : res A) : is_ok m = Ok true -> exists a, m = Ok a.
Proof. destruct m; cbn; intros H; try discriminate. eauto. Qed.
Lemma c112_leaf_checked P cs sa l ti group index : p_sig P cs = Ok sa ->
  match lp_source (ln_payload l) with LSKeyPackage _ => True | _ => ti = TIUpdateOrCommit group index end ->
  leaf_verify_signature P cs l ti = Ok true ->
  signature_good sa (lp_signature_key (ln_payload l)) (str "LeafNodeTBS") (rfc_leaf_node_tbs (ln_payload l) group index) (ln_signature l).
Proof.
  intros S M H. unfold leaf_verify_signature in H. destruct (se_leaf_node_tbs (ln_payload l) ti) as [tbs|e| |] eqn:T; try discriminate.
  apply (leaf_tbs_said _ _ _ group index M) in T. subst tbs. apply is_ok_true in H as ([] & H). eapply verify_made; eassumption.
Qed.
Lemma c112_package P fill v cs sa cred skp lt kexts caps lexts init kp ekp : p_sig P cs = Ok sa ->
  key_package_from_keys P fill v cs cred skp lt kexts caps lexts init = Ok (kp, ekp) ->
  signature_is sa (skp_public skp) (str "KeyPackageTBS") (rfc_key_package_tbs (kp_payload kp)) (kp_signature kp) /\
  signature_is sa (skp_public skp) (str "LeafNodeTBS") (rfc_leaf_payload (ln_payload (kp_leaf (kp_payload kp)))) (ln_signature (kp_leaf (kp_payload kp))).
Proof.
  intros S H. unfold key_package_from_keys in H. apply bind_ok in H as ([l e] & L & H). apply bind_ok in H as (raw & R & H).
  apply bind_ok in H as (sig & G & H). apply Ok_inj in H. injection H as <- <-. cbn [kp_payload kp_signature kp_leaf].
  apply l_kp_tbs in R. subst raw. split; [eapply sign_made; eassumption|].
  destruct (c112_leaf P fill cs sa cred skp (LSKeyPackage lt) caps lexts TIKeyPackage l e [] 0 S I L) as [E K]. unfold rfc_leaf_node_tbs in K. rewrite E in K at 2. cbn [lp_source] in K.
  rewrite app_nil_r in K. exact K.
Qed.
Lemma c112_package_checked P sa kp : p_sig P (kp_suite (kp_payload kp)) = Ok sa -> key_package_verify_signature P kp = Ok tt ->
  signature_good sa (lp_signature_key (ln_payload (kp_leaf (kp_payload kp)))) (str "KeyPackageTBS") (rfc_key_package_tbs (kp_payload kp)) (kp_signature kp).
Proof.
  intros S H. unfold key_package_verify_signature in H. apply bind_ok in H as (raw & R & H). apply l_kp_tbs in R. subst raw.
  eapply verify_made; eassumption.
Qed.
Lemma c112_info_checked P sa g pk : p_sig P (gc_suite (gi_context g)) = Ok sa -> group_info_verify_signature P g pk = Ok tt ->
  signature_good sa pk (str "GroupInfoTBS") (rfc_group_info_tbs g) (gi_signature g).
Proof.
  intros S H. unfold group_info_verify_signature in H. apply bind_ok in H as (raw & R & H). apply l_gi_base in R. subst raw.
  eapply verify_made; eassumption.
Qed.

(** Private messages. *)
Lemma sample_made P cs k ct s : p_hpke P cs = Ok k -> sample_ciphertext P cs ct = Ok s -> s = firstn (N.to_nat (k_extract_size k)) ct.
Proof.
  intros K H. unfold sample_ciphertext in H. rewrite K in H. cbn [bind] in H. apply Ok_inj in H. subst s.
  destruct (N.ltb_spec (N.of_nat (length ct)) (k_extract_size k)); [|reflexivity]. symmetry. apply firstn_all2. lia.
Qed.
Lemma c112_private P cs k sa sk r sds c leaf guard ctx m : p_hpke P cs = Ok k -> p_sig P cs = Ok sa -> a_key_size k < 65536 -> a_nonce_size k < 65536 ->
  new_private_message P cs sk r sds c (new_sender_data leaf (rt_generation r) guard) ctx = Ok m ->
  exists sig, signature_is sa sk (str "FramedContentTBS") (rfc_framed_content_tbs MLS10 WFPrivateMessage c ctx) sig /\
    rfc_private k (rt_secret r) sds leaf (rt_generation r) guard c sig [] 0 m.
Proof.
  intros K S A B H. unfold new_private_message in H. cbn [sd_reuse_guard new_sender_data] in H.
  apply bind_ok in H as (ct & C & H). apply bind_ok in H as (esd & E & H). apply Ok_inj in H. subst m.
  unfold encrypt_private_content in C. apply bind_ok in C as (a & NA & C). apply bind_ok in C as (pt & PT & C).
  apply bind_ok in C as ([key n] & KN & C). apply bind_ok in C as (aad & AD & C). rewrite K in C. cbn [bind] in C.
  pose proof (c112_content _ _ _ _ _ _ _ _ S NA) as (_ & _ & T & SG).
  assert (AA : ac_auth a = MkAuth (ad_signature (ac_auth a)) []) by (destruct (ac_auth a); cbn in *; subst; reflexivity).
  exists (ad_signature (ac_auth a)). split; [exact SG|].
  apply l_private_content in PT. subst pt. unfold rfc_private_content in C. cbn [pc_content pc_auth] in C. rewrite AA in C.
  apply l_private_aad in AD. subst aad. unfold rfc_private_content_aad in C. cbn [pa_group_id pa_epoch pa_content_type pa_auth_data] in C. change (content_type_of (fc_content c)) with (kind (fc_content c)) in C.
  unfold message_key_nonce in KN. apply bind_ok in KN as (key' & DK & KN). apply bind_ok in KN as (nonce & DN & KN).
  destruct (length nonce <? length guard)%nat eqn:LG; [discriminate|]. apply Ok_inj in KN. injection KN as -> <-.
  destruct (c37_keys P cs k r K A B) as [EK EN]. rewrite EK in DK. rewrite EN in DN.
  unfold encrypt_sender_data in E. apply bind_ok in E as (sk1 & K1 & E). apply bind_ok in E as (sn1 & N1 & E).
  apply bind_ok in E as (aad & AD & E). apply bind_ok in E as (raw & R & E). rewrite K in E. cbn [bind] in E.
  unfold sender_data_key in K1. rewrite K in K1. cbn [bind] in K1. apply bind_ok in K1 as (sa1 & SA & K1). apply (sample_made _ _ _ _ _ K) in SA. subst sa1.
  unfold sender_data_nonce in N1. rewrite K in N1. cbn [bind] in N1. apply bind_ok in N1 as (sa1 & SA & N1). apply (sample_made _ _ _ _ _ K) in SA. subst sa1.
  rewrite N.mod_small in K1, N1 by assumption.
  apply l_sender_aad in AD. subst aad. apply l_sender_data in R. subst raw. unfold rfc_sender_data, rfc_sender_data_aad in E. cbn [sda_group_id sda_epoch sda_content_type new_sender_data sd_leaf_index sd_generation sd_reuse_guard] in E. change (content_type_of (fc_content c)) with (kind (fc_content c)) in E.
  exists key, nonce, (xor_prefix nonce guard), ct, sk1, sn1, esd. change (content_type_of (fc_content c)) with (kind (fc_content c)).
  split; [unfold expands_to; rewrite kdf_input_eq, <- be4_uint; exact DK|].
  split; [unfold expands_to; rewrite kdf_input_eq, <- be4_uint; exact DN|].
  split; [apply guarded_iff; split; [apply Nat.ltb_ge; exact LG|reflexivity]|].
  split; [cbn [repeat]; rewrite app_nil_r; exact C|]. split; [eapply expand_made; eassumption|]. split; [eapply expand_made; eassumption|].
  split; [exact E|reflexivity].
Qed.

(** Welcomes. *)
Lemma find_egs_in l r e : find_egs l r = Some e -> exists before after, l = (before ++ e :: after)%list /\ egs_new_member e = r /\ Forall (fun x => egs_new_member x <> r) before.
Proof.
  induction l as [|x l IH]; cbn; [discriminate|]. destruct (bytes_eqb (egs_new_member x) r) eqn:Q.
  - intros E. injection E as <-. exists [], l. apply bytes_eqb_eq in Q. auto.
  - intros E. destruct (IH E) as (b & a & -> & R & F). exists (x :: b), a. split; [reflexivity|]. split; [exact R|]. constructor; [|exact F].
    intros X. apply bytes_eqb_eq in X. congruence.
Qed.
Lemma exact_layout {A} (f : bytes -> res (A * bytes)) (ser : A -> res bytes) lay b a : speaks ser f lay -> de_exact f b = Ok a -> exists rest, b = (lay a ++ rest)%list.
Proof. intros [_ D] H. unfold de_exact in H. apply bind_ok in H as ([a' rest] & H & E). apply Ok_inj in E. subst a'. exists rest. apply D. exact H. Qed.

Lemma c112_secrets P w r sk gs : decrypt_group_secrets P w r sk = Ok gs ->
  exists before e after rest, w_secrets w = (before ++ e :: after)%list /\ egs_new_member e = r /\ Forall (fun x => egs_new_member x <> r) before /\
    p_base_open P (w_suite w) sk (sign_content (str "Welcome") (w_group_info w)) (hc_kem_output (egs_secrets e)) (hc_ciphertext (egs_secrets e)) =
      Ok (rfc_group_secrets gs ++ rest)%list.
Proof.
  intros H. unfold decrypt_group_secrets, find_secret in H. destruct (find_egs (w_secrets w) r) as [e|] eqn:F; [|discriminate].
  apply find_egs_in in F as (b & a & E & R & N). apply bind_ok in H as (raw & H & D).
  unfold decrypt_with_label in H. apply bind_ok in H as (info & I & H). apply label_data_ok in I. subst info.
  destruct (hpke_suite_ok (w_suite w)); [|discriminate].
  apply (exact_layout _ _ _ _ _ (speaks_codec _ codec_group_secrets l_gs)) in D as (rest & ->). exists b, e, a, rest. auto.
Qed.
Lemma extract_made P cs k joiner psk x : p_hpke P cs = Ok k ->
  k_extract k (match psk with [] => zeros (k_extract_size k) | _ => psk end) joiner = Ok x -> member_is k joiner psk x.
Proof. intros K H. exact H. Qed.
Lemma derive_made P cs k s l b : p_hpke P cs = Ok k -> k_extract_size k < 65536 -> derive_secret P cs s l = Ok b -> expands_to k s l [] (k_extract_size k) b.
Proof. intros K N H. unfold derive_secret in H. rewrite K in H. cbn [bind] in H. rewrite N.mod_small in H by exact N. eapply expand_made; eassumption. Qed.
Lemma c112_info P k w joiner psk g : p_hpke P (w_suite w) = Ok k -> a_key_size k < 65536 -> a_nonce_size k < 65536 -> k_extract_size k < 65536 ->
  decrypt_group_info P w joiner psk = Ok g ->
  exists m ws key nonce rest, member_is k joiner psk m /\ expands_to k m (str "welcome") [] (k_extract_size k) ws /\
    expands_to k ws (str "key") [] (a_key_size k) key /\ expands_to k ws (str "nonce") [] (a_nonce_size k) nonce /\
    a_open k key nonce (w_group_info w) [] = Ok (rfc_group_info g ++ rest)%list.
Proof.
  intros K A B C H. unfold decrypt_group_info in H. apply bind_ok in H as ([key nonce] & KN & H). rewrite K in H. cbn [bind] in H.
  apply bind_ok in H as (raw & O & D). apply (exact_layout _ _ _ _ _ (speaks_codec _ codec_group_info l_gi)) in D as (rest & ->).
  unfold welcome_key_nonce in KN. apply bind_ok in KN as (ws & W & KN). rewrite K in KN. cbn [bind] in KN.
  apply bind_ok in KN as (n & EN & KN). apply bind_ok in KN as (k' & EK & KN). apply Ok_inj in KN. injection KN as -> ->.
  rewrite N.mod_small in EN, EK by assumption.
  unfold extract_welcome_secret in W. rewrite K in W. cbn [bind] in W. apply bind_ok in W as (m & M & W).
  exists m, ws, key, nonce, rest. split; [exact M|]. split; [eapply derive_made; eassumption|].
  split; [eapply expand_made; eassumption|]. split; [eapply expand_made; eassumption|exact O].
Qed.

(** Tags. *)
Lemma mac_made P cs h key msg tag : p_hash P cs = Ok h -> (verify_mac P cs key msg tag = Ok tt <-> tag = h_mac h key msg).
Proof.
  intros H. unfold verify_mac, sign_mac. rewrite H. cbn [bind]. destruct (bytes_eqb tag (h_mac h key msg)) eqn:Q.
  - apply bytes_eqb_eq in Q. split; auto.
  - split; [discriminate|]. intros E. apply bytes_eqb_eq in E. congruence.
Qed.
Lemma c112_tag P k h g joiner psk : p_hpke P (gc_suite (gi_context g)) = Ok k -> p_hash P (gc_suite (gi_context g)) = Ok h -> k_extract_size k < 65536 ->
  group_info_verify_tag P g joiner psk = Ok tt ->
  exists m es ck, member_is k joiner psk m /\ expands_to k m (str "epoch") (rfc_group_context (gi_context g)) (k_extract_size k) es /\
    expands_to k es (str "confirm") [] (k_extract_size k) ck /\ gi_confirmation_tag g = h_mac h ck (gc_confirmed (gi_context g)).
Proof.
  intros K HH N H. unfold group_info_verify_tag in H. apply bind_ok in H as (es & E & H). apply bind_ok in H as (ck & C & H).
  apply (mac_made _ _ _ _ _ _ HH) in H. unfold extract_epoch_secret in E. rewrite K in E. cbn [bind] in E.
  apply bind_ok in E as (m & M & E). apply bind_ok in E as (raw & R & E). rewrite N.mod_small in E by exact N.
  apply l_context in R. subst raw. exists m, es, ck. split; [exact M|]. split; [eapply expand_made; eassumption|].
  split; [eapply derive_made; eassumption|exact H].
Qed.
Lemma c112_commit_tag P cs h a key confirmed : p_hash P cs = Ok h ->
  (verify_auth_confirmation_tag P cs a key confirmed = Ok tt <-> ad_confirmation_tag a <> [] /\ ad_confirmation_tag a = h_mac h key confirmed).
Proof.
  intros H. unfold verify_auth_confirmation_tag. destruct (ad_confirmation_tag a) as [|x t] eqn:T.
  - split; [discriminate|]. intros [N _]. congruence.
  - rewrite (mac_made _ _ _ _ _ _ H). split; [intros E; split; [discriminate|exact E]|tauto].
Qed.
Lemma c112_membership P cs h m key ctx : p_hash P cs = Ok h -> (exists i, fc_sender (pm_content m) = SMember i) -> verify_membership_tag P cs m key ctx = Ok tt ->
  pm_tag m = None \/ pm_tag m = Some (h_mac h key (rfc_framed_content_tbs MLS10 WFPublicMessage (pm_content m) ctx ++ rfc_auth_data (kind (fc_content (pm_content m))) (pm_auth m)))%list.
Proof.
  intros H (i & E) V. unfold verify_membership_tag in V. rewrite E in V. destruct (pm_tag m) as [t|]; [right|left; reflexivity].
  destruct (se_auth_content_tbm (public_tbm m ctx)) as [raw|e| |] eqn:T; try discriminate.
  apply (mac_made _ _ _ _ _ _ H) in V. unfold public_tbm in T. apply l_tbm in T. subst raw. subst t. reflexivity.
Qed.
Lemma c112_leaf_placed P cs sa l group index : p_sig P cs = Ok sa -> leaf_verify_signature P cs l (TIUpdateOrCommit group index) = Ok true ->
  signature_good sa (lp_signature_key (ln_payload l)) (str "LeafNodeTBS") (rfc_leaf_node_tbs (ln_payload l) group index) (ln_signature l).
Proof. intros S. apply (c112_leaf_checked P cs sa l _ group index S). destruct (lp_source (ln_payload l)); auto. Qed.

(** The other way: what the RFC prescribes is accepted and read. *)
Lemma sign_content_fits l c b : se_opaque (str "MLS 1.0 " ++ l) = Ok b -> fits30 c -> mls_prefix_label_data l c = Ok (sign_content l c).
Proof. intros L C. rewrite sign_content_eq. apply label_data_eq; [|exact C]. destruct (fits30_dec (mls_label l)) as [F|F]; [exact F|]. destruct (se_opaque_long _ F) as [E|E]; unfold mls_label in E; rewrite L in E; discriminate. Qed.
Lemma verify_accepts P cs sa pk l c sig : p_sig P cs = Ok sa -> fits30 (mls_label l) -> fits30 c -> signature_good sa pk l c sig -> verify_with_label P cs pk l c sig = Ok tt.
Proof. intros S L C H. unfold verify_with_label. rewrite (label_data_eq _ _ L C). cbn [bind]. rewrite S. cbn [bind]. rewrite <- sign_content_eq. exact H. Qed.
Lemma expand_accepts P cs k s l c n b : p_hpke P cs = Ok k -> fits30 (mls_label l) -> fits30 c -> expands_to k s l c n b -> expand_with_label P cs s l c n = Ok b.
Proof. intros K L C H. rewrite (c38_expand P cs k s l c n K L C). unfold expand_label. rewrite <- kdf_input_eq. exact H. Qed.

Lemma c112_content_accepted P cs sa pk a ctx b : p_sig P cs = Ok sa -> se_framed_content_tbs (MkTBS MLS10 (ac_wire_format a) (ac_content a) (Some ctx)) = Ok b -> fits30 b ->
  signature_good sa pk (str "FramedContentTBS") (rfc_framed_content_tbs MLS10 (ac_wire_format a) (ac_content a) ctx) (ad_signature (ac_auth a)) ->
  verify_content_signature P cs a pk ctx = Ok tt.
Proof.
  intros S E F H. unfold verify_content_signature, verify_auth_signature, content_tbs. rewrite E. cbn [bind]. apply l_tbs in E. subst b.
  apply (verify_accepts _ _ _ _ _ _ _ S); [reflexivity|exact F|exact H].
Qed.
Lemma c112_package_accepted P sa kp b : p_sig P (kp_suite (kp_payload kp)) = Ok sa -> se_key_package_tbs (kp_payload kp) = Ok b -> fits30 b ->
  signature_good sa (lp_signature_key (ln_payload (kp_leaf (kp_payload kp)))) (str "KeyPackageTBS") (rfc_key_package_tbs (kp_payload kp)) (kp_signature kp) ->
  key_package_verify_signature P kp = Ok tt.
Proof.
  intros S E F H. unfold key_package_verify_signature. rewrite E. cbn [bind]. apply l_kp_tbs in E. subst b.
  apply (verify_accepts _ _ _ _ _ _ _ S); [reflexivity|exact F|exact H].
Qed.
Lemma c112_leaf_accepted P cs sa l group index b : p_sig P cs = Ok sa -> se_leaf_node_tbs (ln_payload l) (TIUpdateOrCommit group index) = Ok b -> fits30 b ->
  signature_good sa (lp_signature_key (ln_payload l)) (str "LeafNodeTBS") (rfc_leaf_node_tbs (ln_payload l) group index) (ln_signature l) ->
  leaf_verify_signature P cs l (TIUpdateOrCommit group index) = Ok true.
Proof.
  intros S E F H. unfold leaf_verify_signature. rewrite E. apply l_leaf_tbs in E. subst b.
  unfold leaf_node_label. rewrite (verify_accepts P cs sa _ (str "LeafNodeTBS") _ _ S); [reflexivity|reflexivity|exact F|exact H].
Qed.
Lemma c112_info_accepted P sa g pk b : p_sig P (gc_suite (gi_context g)) = Ok sa -> se_group_info_base g = Ok b -> fits30 b ->
  signature_good sa pk (str "GroupInfoTBS") (rfc_group_info_tbs g) (gi_signature g) -> group_info_verify_signature P g pk = Ok tt.
Proof.
  intros S E F H. unfold group_info_verify_signature. rewrite E. cbn [bind]. apply l_gi_base in E. subst b.
  apply (verify_accepts _ _ _ _ _ _ _ S); [reflexivity|exact F|exact H].
Qed.
Lemma exact_rt {A} (wf : A -> Prop) ser de lay (C : codec wf ser de) a b rest : (forall a, says (ser a) (lay a)) -> wf a -> ser a = Ok b -> de_exact de (lay a ++ rest) = Ok a.
Proof. intros L W H. pose proof (L _ _ H) as E. rewrite <- E. unfold de_exact. rewrite (codec_rt C a b rest W H). reflexivity. Qed.
Lemma find_egs_first before e after r : egs_new_member e = r -> Forall (fun x => egs_new_member x <> r) before -> find_egs (before ++ e :: after) r = Some e.
Proof.
  intros R. induction 1 as [|x l N _ IH]; cbn [app find_egs].
  - destruct (bytes_eqb (egs_new_member e) r) eqn:Q; [reflexivity|]. apply bytes_eqb_eq in R. congruence.
  - destruct (bytes_eqb (egs_new_member x) r) eqn:Q; [apply bytes_eqb_eq in Q; contradiction|exact IH].
Qed.
Lemma c112_secrets_read P w r sk gs b before e after rest : hpke_suite_ok (w_suite w) = true -> fits30 (w_group_info w) -> wf_group_secrets gs -> se_group_secrets gs = Ok b ->
  w_secrets w = (before ++ e :: after)%list -> egs_new_member e = r -> Forall (fun x => egs_new_member x <> r) before ->
  p_base_open P (w_suite w) sk (sign_content (str "Welcome") (w_group_info w)) (hc_kem_output (egs_secrets e)) (hc_ciphertext (egs_secrets e)) = Ok (rfc_group_secrets gs ++ rest)%list ->
  decrypt_group_secrets P w r sk = Ok gs.
Proof.
  intros S F W G E R N O. unfold decrypt_group_secrets, find_secret. rewrite E, (find_egs_first _ _ _ _ R N).
  unfold decrypt_with_label. rewrite (label_data_eq (str "Welcome") (w_group_info w) eq_refl F), S. cbn [bind]. rewrite <- sign_content_eq, O. cbn [bind].
  exact (exact_rt _ _ _ _ codec_group_secrets _ _ _ l_gs W G).
Qed.
Lemma derive_accepts P cs k s l b : p_hpke P cs = Ok k -> k_extract_size k < 65536 -> fits30 (mls_label l) -> expands_to k s l [] (k_extract_size k) b -> derive_secret P cs s l = Ok b.
Proof. intros K N L H. unfold derive_secret. rewrite K. cbn [bind]. rewrite N.mod_small by exact N. eapply expand_accepts; [exact K|exact L|reflexivity|exact H]. Qed.
Lemma c112_info_read P k w joiner psk g b m ws key nonce rest : p_hpke P (w_suite w) = Ok k -> a_key_size k < 65536 -> a_nonce_size k < 65536 -> k_extract_size k < 65536 ->
  wf_group_info g -> se_group_info g = Ok b -> member_is k joiner psk m -> expands_to k m (str "welcome") [] (k_extract_size k) ws ->
  expands_to k ws (str "key") [] (a_key_size k) key -> expands_to k ws (str "nonce") [] (a_nonce_size k) nonce ->
  a_open k key nonce (w_group_info w) [] = Ok (rfc_group_info g ++ rest)%list -> decrypt_group_info P w joiner psk = Ok g.
Proof.
  intros K A B C W G M X Y Z O. unfold decrypt_group_info, welcome_key_nonce, extract_welcome_secret. rewrite K. cbn [bind].
  change (zeros (k_extract_size k)) with (repeat Coq.Init.Byte.x00 (N.to_nat (k_extract_size k))). unfold member_is in M. rewrite M. cbn [bind].
  rewrite (derive_accepts _ _ _ _ (str "welcome") _ K C eq_refl X). cbn [bind]. rewrite !N.mod_small by assumption.
  rewrite (expand_accepts _ _ _ _ (str "nonce") [] _ _ K eq_refl eq_refl Z). cbn [bind].
  rewrite (expand_accepts _ _ _ _ (str "key") [] _ _ K eq_refl eq_refl Y). cbn [bind]. rewrite O. cbn [bind].
  exact (exact_rt _ _ _ _ codec_group_info _ _ _ l_gi W G).
Qed.
Lemma c112_tag_accepted P k h g joiner psk b m es ck : p_hpke P (gc_suite (gi_context g)) = Ok k -> p_hash P (gc_suite (gi_context g)) = Ok h -> k_extract_size k < 65536 ->
  se_group_context (gi_context g) = Ok b -> fits30 b ->
  member_is k joiner psk m -> expands_to k m (str "epoch") (rfc_group_context (gi_context g)) (k_extract_size k) es ->
  expands_to k es (str "confirm") [] (k_extract_size k) ck -> gi_confirmation_tag g = h_mac h ck (gc_confirmed (gi_context g)) ->
  group_info_verify_tag P g joiner psk = Ok tt.
Proof.
  intros K HH N G F M X Y T. unfold group_info_verify_tag, extract_epoch_secret. rewrite K. cbn [bind].
  change (zeros (k_extract_size k)) with (repeat Coq.Init.Byte.x00 (N.to_nat (k_extract_size k))). unfold member_is in M. rewrite M, G. cbn [bind].
  apply l_context in G. subst b. rewrite N.mod_small by exact N. rewrite (expand_accepts _ _ _ _ (str "epoch") _ _ _ K eq_refl F X). cbn [bind].
  rewrite (derive_accepts _ _ _ _ label_confirm _ K N eq_refl Y). cbn [bind]. apply (mac_made _ _ _ _ _ _ HH). exact T.
Qed.
Lemma seq_first x y b : x +++ y = Ok b -> exists p, x = Ok p.
Proof. intros H. apply seqw_ok in H as (p & q & X & _ & _). eauto. Qed.
Lemma c112_private_read P cs k secret sds leaf g guard c sig tag pad m b : p_hpke P cs = Ok k -> aead_ok P cs ->
  a_key_size k < 65536 -> a_nonce_size k < 65536 -> k_extract_size k < 65536 ->
  wf_framed_content c -> leaf < 4294967296 -> g < 4294967296 -> length guard = 4%nat ->
  (kind (fc_content c) <> CTCommit -> tag = []) ->
  se_auth_content (MkAuthContent WFPrivateMessage c (MkAuth sig tag)) = Ok b ->
  rfc_private k secret sds leaf g guard c sig tag pad m ->
  decrypt_sender_data P cs m sds = Ok (MkSenderData leaf g guard) /\
  decrypt_content P cs m (MkRatchet secret g) guard = Ok (MkPrivateContent (fc_content c) (MkAuth sig tag)).
Proof.
  intros K AE A B N W L G GU T E (key & nonce & n & ct & sk1 & sn1 & esd & X & Y & GD & C & X1 & Y1 & S & ->).
  assert (FC : exists p, se_framed_content c = Ok p) by (unfold se_auth_content in E; cbn in E; apply seqw_ok in E as (? & ? & _ & E & _); apply (seq_first _ _ _ E)).
  assert (PC : exists p, se_private_content (MkPrivateContent (fc_content c) (MkAuth sig tag)) = Ok p).
  { unfold se_auth_content in E. cbn [ac_wire_format ac_content ac_auth] in E. apply seqw_ok in E as (? & ? & _ & E & _). apply seqw_ok in E as (? & q & F & D & _).
    unfold se_framed_content in F. do 4 (apply seqw_ok in F as (? & ? & _ & F & _)). unfold se_content in F. apply seqw_ok in F as (? & p & _ & F & _).
    unfold se_private_content. cbn [pc_content pc_auth]. rewrite F, D. eexists. reflexivity. }
  assert (OG : exists p, se_opaque (fc_group_id c) = Ok p) by (destruct FC as (p & F); unfold se_framed_content in F; apply (seq_first _ _ _ F)).
  assert (OA : exists p, se_opaque (fc_auth_data c) = Ok p).
  { destruct FC as (p & F). unfold se_framed_content in F. do 3 (apply seqw_ok in F as (? & ? & _ & F & _)). apply (seq_first _ _ _ F). }
  destruct OG as (og & OG), OA as (oa & OA), PC as (p & PC). clear FC E b.
  assert (SM : sample_ciphertext P cs ct = Ok (firstn (N.to_nat (k_extract_size k)) ct)).
  { unfold sample_ciphertext. rewrite K. cbn [bind]. destruct (N.ltb_spec (N.of_nat (length ct)) (k_extract_size k)); [|reflexivity]. f_equal. symmetry. apply firstn_all2. lia. }
  assert (SF : fits30 (firstn (N.to_nat (k_extract_size k)) ct)) by (unfold fits30; rewrite firstn_length; lia).
  split.
  - unfold decrypt_sender_data, sender_data_key, sender_data_nonce. cbn [pv_ciphertext pv_group_id pv_epoch pv_content_type pv_sender_data]. rewrite K. cbn [bind]. rewrite SM. cbn [bind].
    rewrite !N.mod_small by assumption. rewrite (expand_accepts _ _ _ _ (str "key") _ _ _ K eq_refl SF X1). cbn [bind].
    rewrite (expand_accepts _ _ _ _ (str "nonce") _ _ _ K eq_refl SF Y1). cbn [bind].
    destruct (se_sender_data_aad (MkSenderDataAAD (fc_group_id c) (fc_epoch c) (kind (fc_content c)))) as [aad|e| |] eqn:AD;
      try (unfold se_sender_data_aad in AD; cbn [sda_group_id] in AD; rewrite OG in AD; discriminate).
    apply l_sender_aad in AD. subst aad. cbn [bind]. unfold rfc_sender_data_aad. cbn [sda_group_id sda_epoch sda_content_type].
    rewrite (AE _ _ _ _ _ _ K S). cbn [bind]. rewrite <- (app_nil_r (uint32 leaf ++ uint32 g ++ guard)).
    refine (exact_rt _ _ _ rfc_sender_data codec_sender_data (MkSenderData leaf g guard) _ [] l_sender_data _ eq_refl). repeat split; assumption.
  - unfold decrypt_content. cbn [pv_ciphertext pv_group_id pv_epoch pv_content_type pv_auth_data]. unfold message_key_nonce.
    destruct (c37_keys P cs k (MkRatchet secret g) K A B) as [-> ->]. cbn [rt_secret rt_generation]. unfold expands_to in X, Y.
    unfold expand_label. rewrite !be4_uint, <- !kdf_input_eq, X, Y. cbn [bind]. apply guarded_iff in GD as [LG ->].
    rewrite (proj2 (Nat.ltb_ge _ _) LG). cbn [bind].
    destruct (se_private_content_aad (MkPrivateAAD (fc_group_id c) (fc_epoch c) (kind (fc_content c)) (fc_auth_data c))) as [aad|e| |] eqn:AD;
      try (unfold se_private_content_aad in AD; cbn [pa_group_id pa_auth_data] in AD; rewrite OG, OA in AD; discriminate).
    apply l_private_aad in AD. subst aad. cbn [bind]. unfold rfc_private_content_aad. cbn [pa_group_id pa_epoch pa_content_type pa_auth_data].
    rewrite K. cbn [bind]. rewrite (AE _ _ _ _ _ _ K C). cbn [bind]. rewrite app_assoc.
    pose proof PC as PL. apply l_private_content in PL. unfold rfc_private_content in PL. cbn [pc_content pc_auth] in PL. rewrite <- PL.
    assert (WP : wf_private_content (MkPrivateContent (fc_content c) (MkAuth sig tag))).
    { destruct W as (_ & _ & W). split; [exact W|]. cbn [pc_content pc_auth]. change (content_type_of (fc_content c)) with (kind (fc_content c)).
      unfold wf_auth_data. destruct (kind (fc_content c)); cbn [ad_confirmation_tag]; [apply T; discriminate|apply T; discriminate|exact I]. }
    destruct (padding_rt _ p (repeat Coq.Init.Byte.x00 pad) WP PC) as [R _]. apply R. apply Forall_forall. intros z Z. apply repeat_spec in Z. exact Z.
Qed.
Lemma c112_secrets_read_in P w r sk gs b before e after rest : In (w_suite w) [Suite1; Suite2; Suite3] -> fits30 (w_group_info w) -> wf_group_secrets gs -> se_group_secrets gs = Ok b ->
  w_secrets w = (before ++ e :: after)%list -> egs_new_member e = r -> Forall (fun x => egs_new_member x <> r) before ->
  p_base_open P (w_suite w) sk (sign_content (str "Welcome") (w_group_info w)) (hc_kem_output (egs_secrets e)) (hc_ciphertext (egs_secrets e)) = Ok (rfc_group_secrets gs ++ rest)%list ->
  decrypt_group_secrets P w r sk = Ok gs.
Proof. intros S. apply c112_secrets_read. destruct S as [E|[E|[E|[]]]]; rewrite <- E; reflexivity. Qed.
