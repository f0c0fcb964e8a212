(** Property C119: a check that refuses something says truly why. *)
From Verif Require Import ReasonMore ReasonOrder.
Local Open Scope N_scope.

(* ------------------------------------------------------------------------------------------- *)
(** * C119 *)

(** [leaf_reason] and the others (SpecReasons.v) say for each error what must be wrong. An error that is none of theirs is never returned. *)
Theorem C119_leaf : forall P l o e, leaf_verify P l o = Err e -> leaf_reason P l o e.
Proof. exact leaf_reasons. Qed.
Print Assumptions C119_leaf.

Theorem C119_package : forall P kp ctx e, key_package_verify P kp ctx = Err e -> package_reason P kp ctx e.
Proof. exact package_reasons. Qed.
Print Assumptions C119_package.

(** When several things are wrong with a leaf node or a key package, the error is that of the first check that fails, in the order of
    [leaf_checks] and [package_checks] (SpecReasons.v); this says which one it is. *)
Theorem C119_leaf_first : forall P l o e, leaf_verify P l o = Err e -> first_of (leaf_checks P l o) e.
Proof. exact leaf_order. Qed.
Print Assumptions C119_leaf_first.
Theorem C119_package_first : forall P kp ctx e, key_package_verify P kp ctx = Err e -> first_of (package_checks P kp ctx) e.
Proof. exact package_order. Qed.
Print Assumptions C119_package_first.
Theorem C119_first_unique : forall checks e e', first_of checks e -> first_of checks e' -> e = e'.
Proof. exact first_unique. Qed.
Print Assumptions C119_first_unique.

(** The provider's own error, if it has no hash for the suite, is passed on. *)
Theorem C119_tree : forall P t ctx now d e, tsized t d -> tlen t < 4294967296 -> (forall x nd, tget t x = Some nd -> in_tree d x) ->
  verify_integrity P t ctx now = Err e -> p_hash P (gc_suite ctx) = Err e \/ tree_reason P t ctx now e.
Proof. exact tree_reasons. Qed.
Print Assumptions C119_tree.
(** The error is that of the first check that fails: the tree's hash, its parent hashes, its members from left to right, its parents. *)
Theorem C119_tree_first : forall P t ctx now d e, tsized t d -> tlen t < 4294967296 -> (forall x nd, tget t x = Some nd -> in_tree d x) ->
  verify_integrity P t ctx now = Err e -> root_tree_hash P (gc_suite ctx) t = Err e \/ tree_first P t ctx now e.
Proof. exact tree_order. Qed.
Print Assumptions C119_tree_first.

Theorem C119_path : forall P cs t d i u t' e fp, shaped t d -> i < 2 ^ d -> filtered_direct_path t (2 * i) = Ok fp ->
  merge_update_path P cs t i u = (t', Err e) -> p_hash P cs = Err e \/ path_reason P cs t i fp u e.
Proof. exact path_reasons. Qed.
Print Assumptions C119_path.

(** No entry of the welcome is for a package in the store; or one is, and the store has no init key for it. *)
Theorem C119_joining : forall P s w s', from_welcome P s w = (s', Err NoMatchingKeyPackage) ->
  (forall e, In e (w_secrets w) -> ks_retrieve s (egs_new_member e) = None) \/
  (exists e raw kp, In e (w_secrets w) /\ ks_retrieve s (egs_new_member e) = Some raw /\ de_exact de_key_package raw = Ok kp /\
    (ks_retrieve s' (kp_init_key (kp_payload kp)) = None \/ p_hash P (kp_suite (kp_payload kp)) = Err NoMatchingKeyPackage)).
Proof. exact join_reasons. Qed.
Print Assumptions C119_joining.

Theorem C119_secrets : forall P w r k, decrypt_group_secrets P w r k = Err EncryptedGroupSecretsNotFoundForProvidedKeyPackageRef ->
  (forall e, In e (w_secrets w) -> egs_new_member e <> r) \/
  (exists e, In e (w_secrets w) /\ egs_new_member e = r /\
    decrypt_with_label P (w_suite w) k (str "Welcome") (w_group_info w) (hc_kem_output (egs_secrets e)) (hc_ciphertext (egs_secrets e)) = Err EncryptedGroupSecretsNotFoundForProvidedKeyPackageRef).
Proof. exact secrets_reasons. Qed.
Print Assumptions C119_secrets.

Theorem C119_confirmation : forall P cs a key confirmed, verify_auth_confirmation_tag P cs a key confirmed = Err VerifyConfirmationTagFailed ->
  p_hash P cs = Err VerifyConfirmationTagFailed \/ ad_confirmation_tag a = [] \/ exists t, sign_mac P cs key confirmed = Ok t /\ t <> ad_confirmation_tag a.
Proof. exact tag_reasons. Qed.
Print Assumptions C119_confirmation.

(** What is missing or wrong is reported so: a welcome for no stored package, a welcome without an entry for the package, a missing
    confirmation tag and a wrong one. *)
Theorem C119_reported : forall P,
  (forall s w, (forall e, In e (w_secrets w) -> ks_retrieve s (egs_new_member e) = None) -> from_welcome P s w = (s, Err NoMatchingKeyPackage)) /\
  (forall w r k, (forall e, In e (w_secrets w) -> egs_new_member e <> r) -> decrypt_group_secrets P w r k = Err EncryptedGroupSecretsNotFoundForProvidedKeyPackageRef) /\
  (forall cs a key confirmed, ad_confirmation_tag a = [] -> verify_auth_confirmation_tag P cs a key confirmed = Err VerifyConfirmationTagFailed) /\
  (forall cs a key confirmed t, sign_mac P cs key confirmed = Ok t -> t <> ad_confirmation_tag a -> verify_auth_confirmation_tag P cs a key confirmed = Err VerifyConfirmationTagFailed).
Proof. exact reported. Qed.
Print Assumptions C119_reported.

(** A wrong membership tag is reported as a wrong confirmation tag, although that one is right. *)
Theorem C119_refuted_membership : exists P cs m mk ctx ck ch, verify_membership_tag P cs m mk ctx = Err VerifyConfirmationTagFailed /\
  verify_auth_confirmation_tag P cs (pm_auth m) ck ch = Ok tt.
Proof. exact (ex_intro _ toy (ex_intro _ Suite1 (ex_intro _ ex_mistagged (ex_intro _ (str "mk") (ex_intro _ ex_gc (ex_intro _ (str "ck") (ex_intro _ (str "ch") ex_mistagged_says))))))). Qed.
Print Assumptions C119_refuted_membership.

Example C119_example : leaf_verify toy ex_v_leaf1 (ex_options 0) = Err LeafNodeSignatureVerificationFailed /\
  leaf_verify toy ex_v_leaf1 (MkLeafOptions Suite1 (str "group") 1 [] [] [] 5000%Z) = Err (CredentialTypeUsedByLeafNodeNotSupportedByAllMembers 1) /\
  leaf_verify toy ex_v_leaf1 (MkLeafOptions Suite1 (str "group") 0 [] [] [] 5000%Z) = Err LeafNodeSignatureVerificationFailed.
Proof. exact ex_leaf_refused. Qed.
Example C119_tree_example : tsized ex_twins 1 /\ tlen ex_twins < 4294967296 /\ (forall x nd, tget ex_twins x = Some nd -> in_tree 1 x) /\
  verify_integrity toy ex_twins (ex_context ex_verified) (fun _ => 5000%Z) = Err TreeHashVerificationFailed /\
  verify_integrity toy ex_twins (ex_context ex_twins) (fun _ => 5000%Z) = Err ParentHashesVerificationFailed.
Proof. exact ex_tree_refused. Qed.
