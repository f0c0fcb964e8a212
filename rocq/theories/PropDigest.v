(** Property C106: hashes are those of RFC 9420 (SpecDigest.v, over the layouts of SpecLayout.v). *)
From Verif Require Import DigestFacts.
From Verif Require Import SpecDigest SpecLayout SpecRatchet SpecSecrets SpecMessages KeyPackage Examples ExProvider KeyFacts TreeFacts Verified.
Local Open Scope N_scope.

(* ------------------------------------------------------------------------------------------- *)
(** * C106 *)

(** The tree hash of a node, with the leaves [out] left out: if there is one, it is this. *)
Theorem C106_tree_hash : forall P cs h t out k j b, p_hash P cs = Ok h -> k <= 31 -> tree_hash P cs t (node_at k j) out = Ok b ->
  b = rfc_tree_hash (h_digest h) (without t out) (N.to_nat k) j.
Proof. exact c106_tree_N. Qed.
Print Assumptions C106_tree_hash.

(** There is one if what is below the node can be encoded. *)
Theorem C106_tree_hash_exists : forall P cs h t out k j, p_hash P cs = Ok h -> (forall b, fits30 (h_digest h b)) -> k <= 31 ->
  hashable (without t out) k j -> tree_hash P cs t (node_at k j) out = Ok (rfc_tree_hash (h_digest h) (without t out) (N.to_nat k) j).
Proof. exact c106_exact. Qed.
Print Assumptions C106_tree_hash_exists.

Theorem C106_root : forall P cs h t d b, p_hash P cs = Ok h -> tsized t d -> tlen t < 4294967296 -> root_tree_hash P cs t = Ok b ->
  b = rfc_tree_hash (h_digest h) (tget t) (N.to_nat d) 0.
Proof. exact c106_root. Qed.
Print Assumptions C106_root.

Theorem C106_parent_hash : forall P cs h p s b, p_hash P cs = Ok h -> parent_hash P cs p s = Ok b -> b = rfc_parent_hash (h_digest h) p s.
Proof. exact c106_parent. Qed.
Print Assumptions C106_parent_hash.

(** After an update path is merged, the leaf carries the hash of the first node of its filtered direct path, that node the
    hash of the next one, and so on. *)
Theorem C106_merged : forall P cs h t d i u t', p_hash P cs = Ok h -> shaped t d -> merge_update_path P cs t i u = (t', Ok tt) ->
  exists fp ph, filtered_direct_path t (2 * i) = Ok fp /\ leaf_at t' i = Some (up_leaf u) /\
    lp_source (ln_payload (up_leaf u)) = LSCommit ph /\ rfc_chain (h_digest h) t' i ph fp.
Proof. exact c106_merge. Qed.
Print Assumptions C106_merged.

(** In a tree that passed the integrity check, the context has the tree's hash and every parent's hash, over the subtree
    on one side as it was before the parent's unmerged leaves came, is carried on exactly one other side. *)
Theorem C106_verified : forall P t ctx now d h, tsized t d -> tlen t < 4294967296 -> (forall x nd, tget t x = Some nd -> in_tree d x) ->
  verify_integrity P t ctx now = Ok tt -> p_hash P (gc_suite ctx) = Ok h ->
  gc_tree_hash ctx = rfc_tree_hash (h_digest h) (tget t) (N.to_nat d) 0 /\
  forall k j p, tget t (node_at (k + 1) j) = Some (Parent p) ->
    let left := rfc_tree_hash (h_digest h) (without t (pn_unmerged p)) (N.to_nat k) (2 * j) in
    let right := rfc_tree_hash (h_digest h) (without t (pn_unmerged p)) (N.to_nat k) (2 * j + 1) in
    (linked t k (2 * j) (rfc_parent_hash (h_digest h) p right) /\ ~ linked t k (2 * j + 1) (rfc_parent_hash (h_digest h) p left)) \/
    (~ linked t k (2 * j) (rfc_parent_hash (h_digest h) p right) /\ linked t k (2 * j + 1) (rfc_parent_hash (h_digest h) p left)).
Proof. exact c106_verified. Qed.
Print Assumptions C106_verified.

(** Transcript hashes: one commit, and a history of commits. *)
Theorem C106_transcript : forall P cs h, p_hash P cs = Ok h ->
  (forall c i b, confirmed_hash P cs c i = Ok b -> b = rfc_confirmed_hash (h_digest h) i c) /\
  (forall c tag b, next_interim_hash P cs c tag = Ok b -> b = rfc_interim_hash (h_digest h) c tag) /\
  (forall l i b, transcript P cs i l = Ok b -> b = rfc_transcript (h_digest h) i l).
Proof. exact (fun P cs h H => conj (fun c i b => c106_confirmed P cs h c i b H) (conj (fun c tag b => c106_interim P cs h c tag b H) (c106_transcript P cs h H))). Qed.
Print Assumptions C106_transcript.

(** References, and the reference of a key package. *)
Theorem C106_reference : forall P cs h l v b, p_hash P cs = Ok h -> ref_hash P cs l v = Ok b -> b = rfc_reference (h_digest h) l v.
Proof. exact c106_ref. Qed.
Print Assumptions C106_reference.
Theorem C106_key_package : forall P h kp b, p_hash P (kp_suite (kp_payload kp)) = Ok h -> generate_ref P kp = Ok b ->
  b = rfc_reference (h_digest h) (str "MLS 1.0 KeyPackage Reference") (rfc_key_package kp).
Proof. exact c106_package. Qed.
Print Assumptions C106_key_package.

(** The membership tag: the MAC of the signed content, its context and the authentication data. *)
Theorem C106_membership_tag : forall P cs h m k ctx m', p_hash P cs = Ok h -> from_member m -> sign_membership_tag P cs m k ctx = Ok m' ->
  pm_tag m' = Some (h_mac h k (rfc_framed_content_tbs MLS10 WFPublicMessage (pm_content m) ctx ++
                               rfc_auth_data (kind (fc_content (pm_content m))) (pm_auth m))%list).
Proof. exact c106_membership. Qed.
Print Assumptions C106_membership_tag.

(** A tree with an unmerged leaf: leaving it out changes the hash of the parent it is unmerged at. *)
Example C106_example : p_hash fixed Suite1 = Ok fixed_hash /\ (forall b, fits30 (h_digest fixed_hash b)) /\ hashable (without ex_tree [1]) 2 0 /\
  tree_hash toy Suite1 ex_tree (node_at 1 0) [1] = Ok (rfc_tree_hash (h_digest toy_hash) (without ex_tree [1]) 1 0) /\
  tree_hash toy Suite1 ex_tree (node_at 1 0) [1] <> tree_hash toy Suite1 ex_tree (node_at 1 0) [] /\
  without ex_tree [1] 1 = Some (Parent (MkParentNode (pn_encryption_key (ex_parent x31 [1])) (pn_parent_hash (ex_parent x31 [1])) [])) /\
  without ex_tree [1] 2 = None /\ without ex_tree [1] 0 = tget ex_tree 0.
Proof. exact c106_example. Qed.
Example C106_example_hashes : good ex_two 1 /\ merge_update_path toy Suite1 ex_two 0 ex_path = (ex_merged, Ok tt) /\
  verify_integrity toy ex_verified (ex_context ex_verified) (fun _ => 5000%Z) = Ok tt /\
  (exists r, transcript toy Suite1 [] [(ex_confirmed 1, str "tag"); (ex_confirmed 2, str "other")] = Ok r) /\
  (exists r, generate_ref toy (ex_kp x41) = Ok r) /\ from_member ex_public /\ exists m, sign_membership_tag toy Suite1 ex_public (str "mk") ex_gc = Ok m.
Proof. exact c106_example_hashes. Qed.
