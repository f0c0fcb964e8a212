(** The hashes of RFC 9420 as functions of the digest [D] of the cipher suite, written out over the byte layouts of
    SpecLayout.v. Nothing here refers to a function of the model, except [tget], which reads a node of a tree. *)
From Verif Require Import SpecTree RatchetTree SpecLayout.
Local Open Scope N_scope.

(** RefHash (Section 5.2). *)
Definition rfc_reference (D : bytes -> bytes) (label value : bytes) : bytes := D (opaqueV label ++ opaqueV value)%list.

(** What is at a node: a leaf, a parent, or nothing. *)
Definition leaf_of (n : option node) : option leaf_node := match n with Some (Leaf l) => Some l | _ => None end.
Definition parent_of (n : option node) : option parent_node := match n with Some (Parent p) => Some p | _ => None end.

(** Tree hash (Section 7.8) of the node at level [k], position [j], of a tree given by the contents of its nodes. *)
Fixpoint rfc_tree_hash (D : bytes -> bytes) (at_node : N -> option node) (k : nat) (j : N) : bytes :=
  let here := at_node (node_at (N.of_nat k) j) in
  D match k with
    | O => (uint8 1 ++ uint32 j ++ optionalT rfc_leaf_node (leaf_of here))%list
    | S k => (uint8 2 ++ optionalT rfc_parent_node (parent_of here) ++
              opaqueV (rfc_tree_hash D at_node k (2 * j)) ++ opaqueV (rfc_tree_hash D at_node k (2 * j + 1)))%list
    end.

(** Parent hash (Section 7.9) of the parent [p] over the tree hash of the sibling subtree. *)
Definition rfc_parent_hash (D : bytes -> bytes) (p : parent_node) (sibling : bytes) : bytes :=
  D (opaqueV (pn_encryption_key p) ++ opaqueV (pn_parent_hash p) ++ opaqueV sibling)%list.

(** The contents of [t] with the leaves [out] left out, for the original sibling tree hash (Section 7.9): their nodes are
    blank and they are in no list of unmerged leaves. *)
Definition without (t : tree) (out : list N) (x : N) : option node :=
  match tget t x with
  | Some (Leaf l) => if in_dec N.eq_dec x (map (fun u => 2 * u) out) then None else Some (Leaf l)
  | Some (Parent p) =>
      Some (Parent (MkParentNode (pn_encryption_key p) (pn_parent_hash p)
        (filter (fun u => if in_dec N.eq_dec u out then false else true) (pn_unmerged p))))
  | None => None
  end.

(** Transcript hashes (Section 8.2). *)
Definition rfc_confirmed_hash (D : bytes -> bytes) (interim : bytes) (c : confirmed_input) : bytes := D (interim ++ rfc_confirmed_input c)%list.
Definition rfc_interim_hash (D : bytes -> bytes) (confirmed tag : bytes) : bytes := D (confirmed ++ opaqueV tag)%list.
(** After the commits [l], each with its confirmation tag. *)
Fixpoint rfc_transcript (D : bytes -> bytes) (interim : bytes) (l : list (confirmed_input * bytes)) : bytes :=
  match l with [] => interim | (c, tag) :: l => rfc_transcript D (rfc_interim_hash D (rfc_confirmed_hash D interim c) tag) l end.

(** Below the node at level [k], position [j]: leaves at leaf positions and parents above them, all short enough to encode. *)
Definition hashable (at_node : N -> option node) (k j : N) : Prop :=
  forall k' j', k' <= k -> j' / 2 ^ (k - k') = j ->
    match at_node (node_at k' j') with
    | None => True
    | Some (Leaf l) => k' = 0 /\ exists b, se_leaf_node l = Ok b
    | Some (Parent p) => 0 < k' /\ exists b, se_parent_node p = Ok b
    end.

(** [ph] is the parent hash that the node just below the first node of [path] has to carry, where [path] goes up from
    leaf [i]: the hash of that node over the subtree on its other side; above the top it is empty. *)
Fixpoint rfc_chain (D : bytes -> bytes) (t : tree) (i : N) (ph : bytes) (path : list N) : Prop :=
  match path with
  | [] => ph = []
  | x :: rest =>
      exists p k c, tget t x = Some (Parent p) /\ x = node_at (k + 1) (c / 2) /\ ~ covers k c i /\
        ph = rfc_parent_hash D p (rfc_tree_hash D (tget t) (N.to_nat k) c) /\ rfc_chain D t i (pn_parent_hash p) rest
  end.
