(** What the errors of the checks say (rmls/src/error.rs gives a name to each): the reason that the name gives for refusing a leaf node, a
    key package, a tree or an update path. *)
From Verif Require Export SpecRatchet SpecKeys.
Local Open Scope N_scope.

(** Why a leaf node is refused. *)
Definition leaf_reason (P : provider) (l : leaf_node) (o : leaf_options) (e : error) : Prop :=
  match e with
  | LeafNodeSignatureVerificationFailed => ~ leaf_signed P (lo_suite o) l (lo_group_id o) (lo_leaf_index o)
  | CredentialTypeUsedByLeafNodeNotSupportedByAllMembers v =>
      exists c, c = credential_type_of (lp_credential (ln_payload l)) /\ v = u16_of_credential_type c /\ ~ In c (lo_supported_creds o)
  | LifetimeVerificationFailed =>
      exists lt, lp_source (ln_payload l) = LSKeyPackage lt /\ (0 < lo_now o)%Z /\ ~ lifetime_accepted lt (lo_now o)
  | ExtensionTypeUsedByLeafNodeNotSupportedByThatLeafNode v =>
      exists x, In x (lp_extensions (ln_payload l)) /\ v = u16_of_extension_type (ext_type x) /\ ~ In (ext_type x) (cap_extensions (lp_capabilities (ln_payload l)))
  | DuplicateSignatureKeyInRatchetTree => In (lp_signature_key (ln_payload l)) (lo_signature_keys o)
  | DuplicateEncryptionKeyInRatchetTree => In (lp_encryption_key (ln_payload l)) (lo_encryption_keys o)
  | _ => False
  end.

(** Why a key package is refused. *)
Definition package_reason (P : provider) (kp : key_package) (ctx : group_context) (e : error) : Prop :=
  let p := kp_payload kp in
  match e with
  | KeyPackageVersionNotMatchGroupContext => kp_version p <> gc_version ctx
  | CipherSuiteNotMatchGroupContext => kp_suite p <> gc_suite ctx
  | KeyPackageContainsLeafNodeWithInvalidSource => ~ is_package_leaf (kp_leaf p)
  | InvalidKeyPackageSignature => ~ package_signed P kp
  | KeyPackageEncryptionKeyAndInitKeyIdentical => lp_encryption_key (ln_payload (kp_leaf p)) = kp_init_key p
  | _ => False
  end.

(** The error is about a field of a node, or a digest, that is longer than a size can say. *)
Definition too_long (P : provider) (cs : cipher_suite) (t : tree) (e : error) : Prop :=
  (exists x l, tget t x = Some (Leaf l) /\ se_leaf_node l = Err e) \/
  (exists x p, tget t x = Some (Parent p) /\ se_parent_node p = Err e) \/
  (exists H b, p_hash P cs = Ok H /\ se_opaque (h_digest H b) = Err e).

(** Why a tree is refused. A leaf that is refused for a reason of its own is a member's. *)
Definition tree_reason (P : provider) (t : tree) (ctx : group_context) (now : N -> Z) (e : error) : Prop :=
  match e with
  | TreeHashVerificationFailed => exists h, root_tree_hash P (gc_suite ctx) t = Ok h /\ h <> gc_tree_hash ctx
  | ParentHashesVerificationFailed => exists k j p, tget t (node_at (k + 1) j) = Some (Parent p) /\ ~ hash_valid P (gc_suite ctx) t k j p
  | LeafNodeSignatureVerificationFailed | CredentialTypeUsedByLeafNodeNotSupportedByAllMembers _ | LifetimeVerificationFailed
  | ExtensionTypeUsedByLeafNodeNotSupportedByThatLeafNode _ =>
      exists i l creds, leaf_at t i = Some l /\ supported_creds t = Ok creds /\
        leaf_reason P l (MkLeafOptions (gc_suite ctx) (gc_group_id ctx) i creds [] [] (now i)) e
  | DuplicateSignatureKeyInRatchetTree => exists i i' l l', i <> i' /\ leaf_at t i = Some l /\ leaf_at t i' = Some l' /\
      lp_signature_key (ln_payload l) = lp_signature_key (ln_payload l')
  | DuplicateEncryptionKeyInRatchetTree => exists x x' n n', x <> x' /\ tget t x = Some n /\ tget t x' = Some n' /\ node_key n = node_key n'
  | UnmergedLeafIsNotDescendantOfTheParentNode => exists k j p u, tget t (node_at k j) = Some (Parent p) /\ In u (pn_unmerged p) /\ ~ covers k j u
  | NonBlankIntermediateNodeMissingUnmergedLeaf => exists k j p u k' j' q, tget t (node_at k j) = Some (Parent p) /\ In u (pn_unmerged p) /\
      0 < k' /\ (covers k j u -> k' < k) /\ covers k' j' u /\ tget t (node_at k' j') = Some (Parent q) /\ ~ In u (pn_unmerged q)
  | InvalidLeafNode => exists i p, tget t (2 * i) = Some (Parent p)
  | InvalidParentNode => exists k j l, tget t (node_at (k + 1) j) = Some (Leaf l)
  | VarintExceeds30Bits | OpaqueSizeExceedsMaximumValueOfU32 => too_long P (gc_suite ctx) t e
  | _ => False
  end.

(** The update path with another source in its leaf. *)
Definition with_source (u : update_path) (s : leaf_node_source) : update_path :=
  let l := up_leaf u in
  let p := ln_payload l in
  MkUpdatePath (MkLeafNode (MkLeafPayload (lp_encryption_key p) (lp_signature_key p) (lp_credential p) (lp_capabilities p) s (lp_extensions p)) (ln_signature l)) (up_nodes u).
(** Why the update path [u] of leaf [i] is refused, whose nodes are to go to [fp]. *)
Definition path_reason (P : provider) (cs : cipher_suite) (t : tree) (i : N) (fp : list N) (u : update_path) (e : error) : Prop :=
  match e with
  | UpdatePathAndFilteredDirectPathHasDifferentNode => length fp <> length (up_nodes u)
  (** No parent hash would do, as there is no node above the leaf; or another one would have done. *)
  | ParentHashMismatchForUpdatePathLeafNode => length fp = length (up_nodes u) /\
      (fp = [] \/ exists h t', lp_source (ln_payload (up_leaf u)) <> LSCommit h /\ merge_update_path P cs t i (with_source u (LSCommit h)) = (t', Ok tt))
  | VarintExceeds30Bits | OpaqueSizeExceedsMaximumValueOfU32 =>
      (exists n, In n (up_nodes u) /\ se_opaque (upn_encryption_key n) = Err e) \/ too_long P cs t e
  | _ => False
  end.

(** Checks in order, each with the error that reports it and what is wrong then. [first_of checks e]: [e] reports the first one that
    fails. *)
Definition first_of (checks : list (error * Prop)) (e : error) : Prop :=
  exists before wrong after, checks = (before ++ (e, wrong) :: after)%list /\ wrong /\ Forall (fun c : error * Prop => ~ snd c) before.

(** The checks of a leaf node, in order. *)
Definition leaf_checks (P : provider) (l : leaf_node) (o : leaf_options) : list (error * Prop) :=
  let p := ln_payload l in
  let c := credential_type_of (lp_credential p) in
  ([(LeafNodeSignatureVerificationFailed, ~ leaf_signed P (lo_suite o) l (lo_group_id o) (lo_leaf_index o));
    (CredentialTypeUsedByLeafNodeNotSupportedByAllMembers (u16_of_credential_type c), ~ In c (lo_supported_creds o));
    (LifetimeVerificationFailed, exists lt, lp_source p = LSKeyPackage lt /\ (0 < lo_now o)%Z /\ ~ lifetime_accepted lt (lo_now o))] ++
   map (fun x => (ExtensionTypeUsedByLeafNodeNotSupportedByThatLeafNode (u16_of_extension_type (ext_type x)),
                  ~ In (ext_type x) (cap_extensions (lp_capabilities p)))) (lp_extensions p) ++
   [(DuplicateSignatureKeyInRatchetTree, In (lp_signature_key p) (lo_signature_keys o));
    (DuplicateEncryptionKeyInRatchetTree, In (lp_encryption_key p) (lo_encryption_keys o))])%list.

(** The checks of a key package, in order. *)
Definition package_checks (P : provider) (kp : key_package) (ctx : group_context) : list (error * Prop) :=
  let p := kp_payload kp in
  [(KeyPackageVersionNotMatchGroupContext, kp_version p <> gc_version ctx);
   (CipherSuiteNotMatchGroupContext, kp_suite p <> gc_suite ctx);
   (KeyPackageContainsLeafNodeWithInvalidSource, ~ is_package_leaf (kp_leaf p));
   (InvalidKeyPackageSignature, ~ package_signed P kp);
   (KeyPackageEncryptionKeyAndInitKeyIdentical, lp_encryption_key (ln_payload (kp_leaf p)) = kp_init_key p)].

(** The members before leaf [i] are in order: each is valid by itself, and their keys differ. *)
Definition members_before (P : provider) (t : tree) (ctx : group_context) (now : N -> Z) (creds : list credential_type) (i : N) : Prop :=
  (forall m l, m < i -> leaf_at t m = Some l -> leaf_valid P (gc_suite ctx) (gc_group_id ctx) creds (now m) m l) /\
  (forall m m' l l', m < i -> m' < i -> m <> m' -> leaf_at t m = Some l -> leaf_at t m' = Some l' ->
    lp_signature_key (ln_payload l) <> lp_signature_key (ln_payload l') /\ lp_encryption_key (ln_payload l) <> lp_encryption_key (ln_payload l')).
(** The keys of the members before leaf [i]. *)
Definition keys_before (t : tree) (key : leaf_node -> bytes) (i : N) (ks : list bytes) : Prop :=
  forall k, In k ks <-> exists m l, m < i /\ leaf_at t m = Some l /\ k = key l.

(** Which check of a tree fails first: its hash, its parent hashes, its members from left to right, its parents. *)
Inductive tree_first (P : provider) (t : tree) (ctx : group_context) (now : N -> Z) : error -> Prop :=
| at_hash h : root_tree_hash P (gc_suite ctx) t = Ok h -> h <> gc_tree_hash ctx -> tree_first P t ctx now TreeHashVerificationFailed
| at_parent_hash k j p : root_tree_hash P (gc_suite ctx) t = Ok (gc_tree_hash ctx) ->
    tget t (node_at (k + 1) j) = Some (Parent p) -> ~ hash_valid P (gc_suite ctx) t k j p -> tree_first P t ctx now ParentHashesVerificationFailed
| at_member e i l creds sks eks : root_tree_hash P (gc_suite ctx) t = Ok (gc_tree_hash ctx) ->
    (forall k j p, tget t (node_at (k + 1) j) = Some (Parent p) -> hash_valid P (gc_suite ctx) t k j p) ->
    supported_creds t = Ok creds -> leaf_at t i = Some l -> members_before P t ctx now creds i ->
    keys_before t (fun l => lp_signature_key (ln_payload l)) i sks -> keys_before t (fun l => lp_encryption_key (ln_payload l)) i eks ->
    first_of (leaf_checks P l (MkLeafOptions (gc_suite ctx) (gc_group_id ctx) i creds sks eks (now i))) e -> tree_first P t ctx now e
| at_parent e creds : root_tree_hash P (gc_suite ctx) t = Ok (gc_tree_hash ctx) ->
    (forall k j p, tget t (node_at (k + 1) j) = Some (Parent p) -> hash_valid P (gc_suite ctx) t k j p) ->
    supported_creds t = Ok creds -> (forall i, members_before P t ctx now creds i) ->
    In e [UnmergedLeafIsNotDescendantOfTheParentNode; NonBlankIntermediateNodeMissingUnmergedLeaf; DuplicateEncryptionKeyInRatchetTree] ->
    tree_reason P t ctx now e -> tree_first P t ctx now e.
