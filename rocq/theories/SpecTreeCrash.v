(** When checking a received tree panics. *)
From Verif Require Import SpecRatchet.
Local Open Scope N_scope.

(** The unmerged leaf [u] that the parent at [x] lists is below it, and the filled-in parents in between list it too. *)
Definition unmerged_leaf_ok (t : tree) (x u : N) : Prop :=
  exists K J, x = node_at K J /\ 0 < K /\ covers K J u /\
    forall k j q, 0 < k < K -> covers k j u -> tget t (node_at k j) = Some (Parent q) -> In u (pn_unmerged q).

(** The nodes the check has come across when it looks at the parent at [x]: all members, and the parents before. *)
Definition seen_before (x y : N) (n : node) : Prop := (exists l, n = Leaf l) \/ y < x.

(** The filled-in parent [q] is the first on the way down from the node at level [k], position [j]: resolving that node resolves [q]. *)
Inductive reached (t : tree) : N -> N -> parent_node -> Prop :=
| reached_here k j q : tget t (node_at k j) = Some (Parent q) -> reached t k j q
| reached_left k j q : tget t (node_at (k + 1) j) = None -> reached t k (2 * j) q -> reached t (k + 1) j q
| reached_right k j q : tget t (node_at (k + 1) j) = None -> reached t k (2 * j + 1) q -> reached t (k + 1) j q.
(** Resolving the node comes across a listed leaf whose node index does not fit 32 bits. *)
Definition overlong (t : tree) (k j : N) : Prop := exists q u, reached t k j q /\ In u (pn_unmerged q) /\ 2147483648 <= u.

(** Checking the parent hash of the parent [p] at level [k + 1], position [j] resolves such a node, and everything checked before is in order. *)
Record overflows (P : provider) (t : tree) (ctx : group_context) (k j : N) (p : parent_node) : Prop := {
  ov_hash : root_tree_hash P (gc_suite ctx) t = Ok (gc_tree_hash ctx);
  ov_before : forall k' j' q, node_at (k' + 1) j' < node_at (k + 1) j -> tget t (node_at (k' + 1) j') = Some (Parent q) ->
    hash_valid P (gc_suite ctx) t k' j' q /\ ~ overlong t k' (2 * j') /\ ~ overlong t k' (2 * j' + 1);
  ov_here : tget t (node_at (k + 1) j) = Some (Parent p);
  ov_hashes : exists lh rh lph rph,
    tree_hash P (gc_suite ctx) t (node_at k (2 * j)) (pn_unmerged p) = Ok lh /\
    tree_hash P (gc_suite ctx) t (node_at k (2 * j + 1)) (pn_unmerged p) = Ok rh /\
    parent_hash P (gc_suite ctx) p rh = Ok lph /\ parent_hash P (gc_suite ctx) p lh = Ok rph;
  ov_here_overlong : overlong t k (2 * j) \/ overlong t k (2 * j + 1) }.

(** The parent [p] at [x] lists [u], which is outside the tree, and everything checked before is in order. *)
Record crashes (P : provider) (t : tree) (ctx : group_context) (now : N -> Z) (d x : N) (p : parent_node) (pre : list N) (u : N) : Prop := {
  cr_hash : root_tree_hash P (gc_suite ctx) t = Ok (gc_tree_hash ctx);
  cr_parent_hashes : forall k j q, tget t (node_at (k + 1) j) = Some (Parent q) -> hash_valid P (gc_suite ctx) t k j q;
  cr_resolutions : forall k j q, tget t (node_at (k + 1) j) = Some (Parent q) -> ~ overlong t k (2 * j) /\ ~ overlong t k (2 * j + 1);
  cr_leaves : exists creds, supported_creds t = Ok creds /\
    forall i l, leaf_at t i = Some l -> leaf_valid P (gc_suite ctx) (gc_group_id ctx) creds (now i) i l;
  cr_signature_keys : forall i i' l l', leaf_at t i = Some l -> leaf_at t i' = Some l' ->
    lp_signature_key (ln_payload l) = lp_signature_key (ln_payload l') -> i = i';
  cr_encryption_keys : forall y y' n n', tget t y = Some n -> tget t y' = Some n' -> seen_before x y n -> seen_before x y' n' ->
    node_key n = node_key n' -> y = y';
  cr_parents_before : forall y q v, y < x -> tget t y = Some (Parent q) -> In v (pn_unmerged q) -> unmerged_leaf_ok t y v;
  cr_here : tget t x = Some (Parent p);
  cr_list : exists post, pn_unmerged p = (pre ++ u :: post)%list;
  cr_list_before : forall v, In v pre -> unmerged_leaf_ok t x v;
  cr_outside : 2 ^ d <= u }.
