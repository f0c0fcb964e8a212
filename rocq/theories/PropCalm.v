(** C79: calls return a value or an error. *)
From Verif Require Import SpecCalm SpecMessages SpecTree SpecRatchet TreeFacts CalmFacts CalmTree ExProvider Examples ExKeys PropProvider.
Local Open Scope N_scope.

(** With a provider that returns, all of these return, for all arguments. Missing, because it is false: receiving
    proposals and commits in private messages, decoding (C05), trees out of range (C14, C36). *)
Theorem C79_crypto_partial : forall P cs, steady P cs ->
  (forall key msg, returns (sign_mac P cs key msg)) /\
  (forall key msg tag, returns (verify_mac P cs key msg tag)) /\
  (forall label v, returns (ref_hash P cs label v)) /\
  (forall s label c n, returns (expand_with_label P cs s label c n)) /\
  (forall s label, returns (derive_secret P cs s label)) /\
  (forall key label c, returns (sign_with_label P cs key label c)) /\
  (forall key label c sig, returns (verify_with_label P cs key label c sig)) /\
  (forall e pk label c pt, returns (encrypt_with_label P cs e pk label c pt)) /\
  (forall sk label c kem ct, returns (decrypt_with_label P cs sk label c kem ct)) /\
  (forall g init commit, gc_suite g = cs -> returns (extract_joiner_secret P g init commit)) /\
  (forall g joiner psk, gc_suite g = cs -> returns (extract_epoch_secret P g joiner psk)) /\
  (forall joiner psk, returns (extract_welcome_secret P cs joiner psk)) /\
  (forall ids psks, returns (extract_psk_secret P cs ids psks)) /\
  (forall c interim, returns (confirmed_hash P cs c interim)) /\
  (forall confirmed tag, returns (next_interim_hash P cs confirmed tag)) /\
  (forall n s, 0 < n -> n <= 2147483648 -> returns (new_secret_tree P cs n s)) /\
  (forall t x l, returns (derive_ratchet_root P cs t x l)) /\
  (forall r, returns (derive_nonce P cs r)) /\
  (forall r, returns (derive_key P cs r)) /\
  (forall r, rt_generation r < 4294967295 -> returns (derive_next P cs r)).
Proof. exact c79_crypto. Qed.
Print Assumptions C79_crypto_partial.

Theorem C79_messages_partial : forall P cs, steady P cs ->
  (forall key w c ctx, returns (new_auth_content P cs key w c ctx)) /\
  (forall a key ctx, returns (verify_content_signature P cs a key ctx)) /\
  (forall a key confirmed, returns (verify_auth_confirmation_tag P cs a key confirmed)) /\
  (forall key c ctx, returns (new_public_message P cs key c ctx)) /\
  (forall m key ctx, returns (sign_membership_tag P cs m key ctx)) /\
  (forall m key ctx, returns (verify_membership_tag P cs m key ctx)) /\
  (forall key r sds c sd ctx, returns (new_private_message P cs key r sds c sd ctx)) /\
  (forall m sds, returns (decrypt_sender_data P cs m sds)) /\
  (forall m r guard, pv_content_type m = CTApplication -> returns (decrypt_content P cs m r guard)) /\
  (forall ps senders committer, returns (verify_proposal_list ps senders committer)).
Proof. exact c79_messages. Qed.
Print Assumptions C79_messages_partial.

Theorem C79_joining_partial : forall P cs, steady P cs ->
  (forall w ref key, w_suite w = cs -> returns (decrypt_group_secrets P w ref key)) /\
  (forall w joiner psk, w_suite w = cs -> returns (decrypt_group_info P w joiner psk)) /\
  (forall g pk, gc_suite (gi_context g) = cs -> returns (group_info_verify_signature P g pk)) /\
  (forall g joiner psk, gc_suite (gi_context g) = cs -> returns (group_info_verify_tag P g joiner psk)) /\
  (forall s, N.of_nat (length (gs_psk_ids s)) < 2147483648 -> returns (single_reinit_or_branch s)) /\
  (forall fill cred skp src caps exts ti, (forall n, returns (fill n)) -> returns (leaf_node_new P fill cs cred skp src caps exts ti)) /\
  (forall l o, lo_suite o = cs -> returns (leaf_verify P l o)) /\
  (forall kp, kp_suite (kp_payload kp) = cs -> returns (generate_ref P kp)) /\
  (forall kp ctx, kp_suite (kp_payload kp) = cs -> returns (key_package_verify P kp ctx)) /\
  (forall f1 f2 s b v cred skp, (forall n, returns (f1 n)) -> (forall n, returns (f2 n)) -> returns (snd (key_package_build P f1 f2 s b v cs cred skp))).
Proof. exact c79_joining. Qed.
Print Assumptions C79_joining_partial.

(** Joining, if the stored packages can be decoded. *)
Theorem C79_from_welcome_partial : forall P s w, (forall cs, steady P cs) ->
  (forall k raw, ks_retrieve s k = Some raw -> de_key_package raw <> Panic) -> returns (snd (from_welcome P s w)).
Proof. exact r_from_welcome. Qed.
Print Assumptions C79_from_welcome_partial.

(** Trees of a size the library produces, if unmerged leaves are in the tree. Missing, because it is false: other trees (C14,
    C16, C24). *)
Theorem C79_tree_partial : forall P cs t d, steady P cs -> tsized t d -> tlen t < 4294967296 ->
  (forall x p u, tget t x = Some (Parent p) -> In u (pn_unmerged p) -> u < 2 ^ d) ->
  returns (root_tree_hash P cs t) /\ returns (verify_parent_hashes P cs t) /\
  (forall ctx now, gc_suite ctx = cs -> returns (verify_integrity P t ctx now)) /\
  returns (supported_creds t) /\ returns (keys t) /\ (forall l, returns (find_leaf t l)) /\
  (forall x, in_tree d x -> returns (resolve t x) /\ returns (filtered_direct_path t x)) /\
  (forall i, i < 2 ^ d -> (forall l, returns (tree_update t i l)) /\ returns (tree_remove t i) /\ (forall u, returns (snd (merge_update_path P cs t i u)))) /\
  (forall l, full_size t d -> tlen t < 4294967295 -> returns (tree_add t l)).
Proof. exact c79_tree. Qed.
Print Assumptions C79_tree_partial.

(** The bundled providers return, except that the P-256 signature panics for keys that do not have 32 bytes. *)
Theorem C79_bundled_partial : forall p P cs, bundled p P -> steady_prims p -> cs <> Suite2 -> steady P cs.
Proof. exact c79_bundled. Qed.
Print Assumptions C79_bundled_partial.
Theorem C79_refuted_sign : forall p P, bundled p P -> exists s, p_sig P Suite2 = Ok s /\ forall key msg,
  (length key <> 32%nat -> s_sign s key msg = Panic) /\ (length key = 32%nat -> returns (s_sign s key msg)).
Proof. exact c79_p256. Qed.
Print Assumptions C79_refuted_sign.

(** Signing with any scheme of the bundled providers: where it panics, and that it returns elsewhere. *)
Theorem C79_refuted_schemes : forall p s key msg,
  let bad := (s = ECDSA_SECP256R1_SHA256 /\ length key <> 32%nat) \/ (s = ECDSA_SECP384R1_SHA384 /\ length key <> 48%nat) in
  (bad -> rust_sign p s key msg = Panic /\ ring_sign p s key msg = Panic) /\
  (~ bad -> returns (rust_sign p s key msg) /\ returns (ring_sign p s key msg)).
Proof. exact c79_schemes. Qed.
Print Assumptions C79_refuted_schemes.

Theorem C79_verify_partial : forall p s key msg sig, steady_prims p -> returns (bundled_verify p s key msg sig).
Proof. exact c79_verify. Qed.
Print Assumptions C79_verify_partial.

(** Refuted: whoever has a message key of the group can crash the receivers with the 21 bytes [cut_update] (SpecCalm.v),
    sealed as a proposal; this is before any signature is checked. *)
Theorem C79_refuted_insider : forall P cs k r guard key nonce gid epoch ad esd aad c, aead_ok P cs -> p_hpke P cs = Ok k ->
  message_key_nonce P cs r guard = Ok (key, nonce) -> se_private_content_aad (MkPrivateAAD gid epoch CTProposal ad) = Ok aad ->
  a_seal k key nonce cut_update aad = Ok c -> decrypt_content P cs (MkPrivate gid epoch CTProposal ad esd c) r guard = Panic.
Proof. exact c79_insider. Qed.
Print Assumptions C79_refuted_insider.
(** Refuted: the ratchet panics after its last generation. *)
Theorem C79_refuted_generation : forall P cs r s, rt_generation r = 4294967295 -> (exists k, p_hpke P cs = Ok k) ->
  (forall k, p_hpke P cs = Ok k -> derive_tree_secret P cs (rt_secret r) (str "secret") 4294967295 (nh k) = Ok s) -> derive_next P cs r = Panic.
Proof. exact c79_generation. Qed.
Print Assumptions C79_refuted_generation.

Example C79_example : steady_prims ex_prims /\ steady (rust_provider ex_prims) Suite1 /\ aead_ok (rust_provider ex_prims) Suite1 /\
  exists k key nonce aad c, p_hpke (rust_provider ex_prims) Suite1 = Ok k /\ message_key_nonce (rust_provider ex_prims) Suite1 ex_rat [x01; x02; x03; x04] = Ok (key, nonce) /\
    se_private_content_aad (MkPrivateAAD (str "g") 3 CTProposal []) = Ok aad /\ a_seal k key nonce cut_update aad = Ok c.
Proof.
  assert (S : steady_prims ex_prims).
  { split; intros; cbn [ex_prims pr_seal pr_open pr_verify pr_base_seal pr_base_open toy p_base_seal p_base_open]; unfold toy_strip; calm. }
  split; [exact S|]. split; [apply (c79_bundled ex_prims); [left; reflexivity|exact S|discriminate]|]. split; [apply C60_rust, ex_aead|].
  do 5 eexists. split; [reflexivity|]. split; [vm_compute; reflexivity|]. split; [vm_compute; reflexivity|]. vm_compute. reflexivity.
Qed.
Example C79_tree_example : tsized ex_tree 2 /\ (exists x p, tget ex_tree x = Some (Parent p)) /\
  forall x p u, tget ex_tree x = Some (Parent p) -> In u (pn_unmerged p) -> u < 2 ^ 2.
Proof. split; [left; reflexivity|]. split; [exists 1; eexists; reflexivity|exact (good_below ex_tree 2 ex_tree_good)]. Qed.
