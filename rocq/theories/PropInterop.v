(** Property C86: members whose libraries were built with different providers (SpecInterop.v). *)
From Verif Require Import CodecLib TreePaths MessageFacts ProviderFacts InteropFacts.
From Verif Require Import WireWF SpecProvider SpecInterop ExKeys PropProvider RatchetTree KeyPackage Group SecretTree.
Import Coq.Strings.Byte.
Local Open Scope N_scope.

(** What the public state is hashed to, errors included. *)
Theorem C86_public : forall p q, same_libraries p q ->
  (forall cs t, root_tree_hash (rust_provider p) cs t = root_tree_hash (ring_provider q) cs t) /\
  (forall kp, generate_ref (rust_provider p) kp = generate_ref (ring_provider q) kp) /\
  (forall cs c i, confirmed_hash (rust_provider p) cs c i = confirmed_hash (ring_provider q) cs c i) /\
  (forall cs c t, next_interim_hash (rust_provider p) cs c t = next_interim_hash (ring_provider q) cs c t) /\
  (forall cs t s u, merge_update_path (rust_provider p) cs t s u = merge_update_path (ring_provider q) cs t s u) /\
  (forall cs m k ctx, sign_membership_tag (rust_provider p) cs m k ctx = sign_membership_tag (ring_provider q) cs m k ctx).
Proof. exact c86_public. Qed.
Print Assumptions C86_public.

(** What is verified: both accept the same leaves, trees, key packages, messages and group infos. *)
Theorem C86_checks : forall p q, same_libraries p q -> sized_prims p ->
  (forall l o, agree (leaf_verify (rust_provider p) l o) (leaf_verify (ring_provider q) l o)) /\
  (forall t ctx now, agree (verify_integrity (rust_provider p) t ctx now) (verify_integrity (ring_provider q) t ctx now)) /\
  (forall kp ctx, agree (key_package_verify (rust_provider p) kp ctx) (key_package_verify (ring_provider q) kp ctx)) /\
  (forall cs a k ctx, agree (verify_content_signature (rust_provider p) cs a k ctx) (verify_content_signature (ring_provider q) cs a k ctx)) /\
  (forall g k, agree (group_info_verify_signature (rust_provider p) g k) (group_info_verify_signature (ring_provider q) g k)) /\
  (forall g j s, agree (group_info_verify_tag (rust_provider p) g j s) (group_info_verify_tag (ring_provider q) g j s)) /\
  (forall cs a k c, agree (verify_auth_confirmation_tag (rust_provider p) cs a k c) (verify_auth_confirmation_tag (ring_provider q) cs a k c)) /\
  (forall cs m k ctx, agree (verify_membership_tag (rust_provider p) cs m k ctx) (verify_membership_tag (ring_provider q) cs m k ctx)).
Proof. exact c86_checks. Qed.
Print Assumptions C86_checks.

(** The key schedule. *)
Theorem C86_schedule : forall p q, same_libraries p q -> sized_prims p ->
  (forall g i c, agree (extract_joiner_secret (rust_provider p) g i c) (extract_joiner_secret (ring_provider q) g i c)) /\
  (forall g j s, agree (extract_epoch_secret (rust_provider p) g j s) (extract_epoch_secret (ring_provider q) g j s)) /\
  (forall cs j s, agree (extract_welcome_secret (rust_provider p) cs j s) (extract_welcome_secret (ring_provider q) cs j s)) /\
  (forall cs ids psks, agree (extract_psk_secret (rust_provider p) cs ids psks) (extract_psk_secret (ring_provider q) cs ids psks)) /\
  (forall cs s l, long s -> agree (derive_secret (rust_provider p) cs s l) (derive_secret (ring_provider q) cs s l)).
Proof. exact c86_schedule. Qed.
Print Assumptions C86_schedule.
(** Its secrets are long enough to derive from. *)
Theorem C86_long : forall p q, same_libraries p q -> sized_prims p ->
  (forall g i c s, extract_joiner_secret (rust_provider p) g i c = Ok s -> long s) /\ (forall g j k s, extract_epoch_secret (rust_provider p) g j k = Ok s -> long s) /\
  (forall cs k l s, derive_secret (rust_provider p) cs k l = Ok s -> long s).
Proof. exact c86_long. Qed.
Print Assumptions C86_long.

(** Message keys, and the messages sent with them. *)
Theorem C86_traffic : forall p q, same_libraries p q -> sized_prims p -> forall cs,
  (forall n s, long s -> agree (new_secret_tree (rust_provider p) cs n s) (new_secret_tree (ring_provider q) cs n s)) /\
  (forall n s t x l, long s -> new_secret_tree (rust_provider p) cs n s = Ok t ->
     agree (derive_ratchet_root (rust_provider p) cs t x l) (derive_ratchet_root (ring_provider q) cs t x l)) /\
  (forall r, long (rt_secret r) -> agree (derive_key (rust_provider p) cs r) (derive_key (ring_provider q) cs r) /\
     agree (derive_nonce (rust_provider p) cs r) (derive_nonce (ring_provider q) cs r) /\ agree (derive_next (rust_provider p) cs r) (derive_next (ring_provider q) cs r)) /\
  (forall key r s c sd ctx, long (rt_secret r) -> long s ->
     agree (new_private_message (rust_provider p) cs key r s c sd ctx) (new_private_message (ring_provider q) cs key r s c sd ctx)) /\
  (forall key c ctx, agree (new_public_message (rust_provider p) cs key c ctx) (new_public_message (ring_provider q) cs key c ctx)).
Proof. exact c86_traffic. Qed.
Print Assumptions C86_traffic.

(** Leaves and key packages, from the same random bytes. *)
Theorem C86_build : forall p q, same_libraries p q -> sized_prims p ->
  (forall fill cs cred skp src caps exts ti, agree (leaf_node_new (rust_provider p) fill cs cred skp src caps exts ti) (leaf_node_new (ring_provider q) fill cs cred skp src caps exts ti)) /\
  (forall f1 f2 v cs cred skp lt ke caps le, agree (key_package_new (rust_provider p) f1 f2 v cs cred skp lt ke caps le) (key_package_new (ring_provider q) f1 f2 v cs cred skp lt ke caps le)).
Proof. exact c86_build. Qed.
Print Assumptions C86_build.

(** Joining. *)
Theorem C86_join : forall p q, same_libraries p q -> sized_prims p ->
  (forall s w, from_welcome (rust_provider p) s w = from_welcome (ring_provider q) s w) /\
  (forall w r sk, agree (decrypt_group_secrets (rust_provider p) w r sk) (decrypt_group_secrets (ring_provider q) w r sk)) /\
  (forall w j s, follows (decrypt_group_info (rust_provider p) w j s) (decrypt_group_info (ring_provider q) w j s)).
Proof. exact c86_join. Qed.
Print Assumptions C86_join.

(** A message that the library makes, with either provider, is read with both, with the same contents, and its signature verified. *)
Theorem C86_deliver : forall p q, same_libraries p q -> sized_prims p -> forall cs sk pk r s c sd ctx m,
  aead_prims_ok p -> (forall d, rfc_suite cs = Some d -> pair_prims_ok p (d_signature d) sk pk) -> wf_framed_content c -> wf_sender_data sd ->
  long (rt_secret r) -> long s ->
  (new_private_message (rust_provider p) cs sk r s c sd ctx = Ok m \/ new_private_message (ring_provider q) cs sk r s c sd ctx = Ok m) ->
  decrypt_sender_data (rust_provider p) cs m s = Ok sd /\ decrypt_sender_data (ring_provider q) cs m s = Ok sd /\
  exists pc, decrypt_content (rust_provider p) cs m r (sd_reuse_guard sd) = Ok pc /\ decrypt_content_ring (ring_provider q) cs m r (sd_reuse_guard sd) = Ok pc /\
    pc_content pc = fc_content c /\
    (fc_sender c = SMember (sd_leaf_index sd) -> ac_content (private_auth_content m sd pc) = c /\
      verify_content_signature (rust_provider p) cs (private_auth_content m sd pc) pk ctx = Ok tt /\
      verify_content_signature (ring_provider q) cs (private_auth_content m sd pc) pk ctx = Ok tt).
Proof. exact c86_deliver. Qed.
Print Assumptions C86_deliver.
(** Whoever made it, what the RustCrypto build reads, the ring build reads. *)
Theorem C86_read : forall p q cs m, same_libraries p q ->
  (forall s, follows (decrypt_sender_data (rust_provider p) cs m s) (decrypt_sender_data (ring_provider q) cs m s)) /\
  (forall r g, follows (decrypt_content (rust_provider p) cs m r g) (decrypt_content_ring (ring_provider q) cs m r g)).
Proof. exact c86_read. Qed.
Print Assumptions C86_read.

(** Refuted in the other direction: a member can seal a message whose padding is not zero, and then the two builds disagree. *)
Theorem C86_refuted_padding : forall p q, same_libraries p q -> forall cs m r g key nonce ad h c e pad,
  aead_prims_ok p -> message_key_nonce (rust_provider p) cs r g = Ok (key, nonce) ->
  se_private_content_aad (MkPrivateAAD (pv_group_id m) (pv_epoch m) (pv_content_type m) (pv_auth_data m)) = Ok ad -> p_hpke (rust_provider p) cs = Ok h ->
  wf_private_content c -> se_private_content c = Ok e -> pv_content_type m = content_type_of (pc_content c) -> ~ Forall (fun b => b = x00) pad ->
  a_seal h key nonce (e ++ pad) ad = Ok (pv_ciphertext m) ->
  decrypt_content_ring (ring_provider q) cs m r g = Ok c /\ decrypt_content (rust_provider p) cs m r g = Err PaddingContainsNonZeroBytes.
Proof. exact c86_padding. Qed.
Print Assumptions C86_refuted_padding.

(** Libraries for the examples: those of PropProvider.v with Ed25519 keys of 32 bytes, and the same with other errors and another tail. *)
Definition ex_left : prims :=
  MkPrims (pr_digest ex_prims) (pr_hmac ex_prims) (pr_prk ex_prims) (pr_expand ex_prims) (pr_derive ex_prims) (pr_seal ex_prims) (pr_open ex_prims)
    (fun s k m => if (length k =? 32)%nat then pr_sign ex_prims s k m else None) (pr_verify ex_prims) (pr_base_seal ex_prims) (pr_base_open ex_prims).
Definition ex_right : prims :=
  MkPrims (pr_digest ex_prims) (pr_hmac ex_prims) (fun _ _ => true) (pr_expand ex_prims) (pr_derive ex_prims) (pr_seal ex_prims)
    (fun a k n c ad => match pr_open ex_prims a k n c ad with Ok (pt, _) => Ok (pt, repeat x07 16) | _ => Err RingCryptoError end)
    (pr_sign ex_left) (fun s k m g => match pr_verify ex_prims s k m g with Ok _ => Ok tt | _ => Err RingCryptoError end) (pr_base_seal ex_prims) (pr_base_open ex_prims).
Lemma ex_same : same_libraries ex_left ex_right.
Proof.
  constructor; try reflexivity; try (intros; split; exact (fun x => x)).
  - intros a k n c ad pt. cbn [ex_left ex_right pr_open]. destruct (pr_open ex_prims a k n c ad) as [[pt' t]|e| |]; split; intros [x X]; try discriminate; injection X as <- <-; eexists; reflexivity.
  - intros k m x. cbn [ex_right ex_left pr_sign]. destruct (length k =? 32)%nat eqn:E; [|discriminate]. intros _. now apply Nat.eqb_eq.
  - intros s k m x v. cbn [ex_left ex_right pr_verify ex_prims]. destruct v. destruct (bytes_eqb x (k ++ m)); split; intros H; try discriminate; reflexivity.
Qed.
Lemma ex_left_aead : aead_prims_ok ex_left. Proof. exact ex_aead. Qed.
Lemma ex_left_sized : sized_prims ex_left. Proof. exact ex_sized. Qed.
Lemma ex_left_pair s sk : pair_prims_ok ex_left s sk (x01 :: sk).
Proof. intros m g H. cbn [ex_left pr_sign pr_verify] in *. destruct (length sk =? 32)%nat; [|discriminate]. exact (ex_pair s sk m g H). Qed.
Lemma does {A} (m : res A) : (match m with Ok _ => true | _ => false end) = true -> exists v, m = Ok v.
Proof. destruct m as [v|e| |]; intros H; [exists v; reflexivity|discriminate..]. Qed.
Example C86_example : same_libraries ex_left ex_right /\ sized_prims ex_left /\ aead_prims_ok ex_left /\ pair_prims_ok ex_left ED25519 ex_sk32 (x01 :: ex_sk32) /\
  wf_framed_content (ex_framed (SMember 2) (CCommit ex_commit)) /\ wf_sender_data ex_sd1 /\ long (rt_secret ex_rat) /\
  exists m, ex_msg (rust_provider ex_left) = Ok m.
Proof.
  split; [exact ex_same|]. split; [exact ex_left_sized|]. split; [exact ex_left_aead|]. split; [apply ex_left_pair|]. split; [apply ex_framed_wf; reflexivity|]. split; [repeat split; reflexivity|].
  split; [vm_compute; repeat constructor|]. apply does. vm_compute. reflexivity.
Qed.

(** A sender data plaintext that ends early: the ring build takes the missing bytes from the tag, the RustCrypto build refuses it. *)
Definition ex_cut (P : provider) : res private_message :=
  let ct := repeat x33 40 in
  let* key := sender_data_key P Suite1 (repeat x42 32) ct in
  let* nonce := sender_data_nonce P Suite1 (repeat x42 32) ct in
  let* aad := se_sender_data_aad (MkSenderDataAAD [x01] 5 CTApplication) in
  let* h := p_hpke P Suite1 in
  let* raw := se_sender_data ex_sd1 in
  let* c := a_seal h key nonce (firstn 8 raw) aad in
  Ok (MkPrivate [x01] 5 CTApplication [] c ct).
Theorem C86_refuted_sender_data : exists p q cs m secret sd e, same_libraries p q /\ sized_prims p /\ aead_prims_ok p /\ long secret /\
  decrypt_sender_data (ring_provider q) cs m secret = Ok sd /\ decrypt_sender_data (rust_provider p) cs m secret = Err e.
Proof.
  destruct (does (ex_cut (rust_provider ex_left)) ltac:(vm_compute; reflexivity)) as [m E]. exists ex_left, ex_right, Suite1, m, (repeat x42 32).
  vm_compute in E. apply Ok_inj in E. subst m. do 2 eexists. split; [exact ex_same|]. split; [exact ex_left_sized|]. split; [exact ex_left_aead|].
  split; [vm_compute; repeat constructor|]. split; vm_compute; reflexivity.
Qed.
Print Assumptions C86_refuted_sender_data.

(** A short secret: the RustCrypto build derives nothing from it. *)
Theorem C86_refuted_short : forall p q cs s l v, same_libraries p q -> ~ long s -> derive_secret (rust_provider p) cs s l <> Ok v.
Proof. exact c86_short. Qed.
Print Assumptions C86_refuted_short.
Example C86_short_example : ~ long [x01] /\ exists v, derive_secret (ring_provider ex_right) Suite1 [x01] (str "init") = Ok v.
Proof. split; [unfold long; cbn; lia|]. eexists. vm_compute. reflexivity. Qed.

Definition ex_pc : private_content := MkPrivateContent (CApplication (str "hi")) (MkAuth [x01] []).
Example C86_padding_example : exists m key nonce ad h e, message_key_nonce (rust_provider ex_left) Suite1 ex_rat [x01; x02; x03; x04] = Ok (key, nonce) /\
  se_private_content_aad (MkPrivateAAD (pv_group_id m) (pv_epoch m) (pv_content_type m) (pv_auth_data m)) = Ok ad /\ p_hpke (rust_provider ex_left) Suite1 = Ok h /\
  wf_private_content ex_pc /\ se_private_content ex_pc = Ok e /\ pv_content_type m = content_type_of (pc_content ex_pc) /\ ~ Forall (fun b => b = x00) [x00; x07] /\
  a_seal h key nonce (e ++ [x00; x07]) ad = Ok (pv_ciphertext m).
Proof.
  set (k := message_key_nonce (rust_provider ex_left) Suite1 ex_rat [x01; x02; x03; x04]). destruct k as [[key nonce]|e| |] eqn:E; unfold k in E; try (vm_compute in E; discriminate).
  destruct (se_private_content_aad (MkPrivateAAD [x01] 5 CTApplication [])) as [ad|e| |] eqn:A; try (vm_compute in A; discriminate).
  destruct (p_hpke (rust_provider ex_left) Suite1) as [h|e| |] eqn:H; try discriminate H.
  destruct (se_private_content ex_pc) as [b|e| |] eqn:B; try (vm_compute in B; discriminate).
  destruct (a_seal h key nonce (b ++ [x00; x07]) ad) as [c|e| |] eqn:C; try (injection H as <-; discriminate C).
  exists (MkPrivate [x01] 5 CTApplication [] [] c), key, nonce, ad, h, b. split; [reflexivity|]. split; [exact A|]. split; [reflexivity|]. split; [split; [exact I|reflexivity]|]. split; [exact eq_refl|].
  split; [reflexivity|]. split; [|exact C]. intros F. inversion F as [|? ? _ F']. inversion F' as [|? ? X _]. discriminate X.
Qed.
