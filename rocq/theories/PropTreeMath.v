(** Property theorems about array-tree index arithmetic: C11-C14. Vocabulary: SpecTree.v ([node_at],
    [in_tree], [covers]) and [chain] (each element is the parent of the one before, the last has none). *)
From Verif Require Import TreeMathProofs.
Local Open Scope N_scope.

(* ------------------------------------------------------------------------------------------- *)
(** * C11 *)

(** The root of a tree with 2^d leaves, and its lack of a parent. *)
Theorem C11_root : forall d, d <= 31 -> root (2 ^ d) = Ok (2 ^ d - 1) /\ parent (2 ^ d) (2 ^ d - 1) = Ok None.
Proof. exact tm_root. Qed.
Print Assumptions C11_root.

(** Every non-leaf node is the parent of its two children, which lie one level below, on either side of
    it, inside the tree. *)
Theorem C11_children : forall d x, d <= 31 -> in_tree d x -> N.odd x = true ->
  exists l r k, children x = Ok (Some (l, r)) /\ left x = Ok (Some l) /\ right x = Ok (Some r) /\
    l < x /\ x < r /\ in_tree d l /\ in_tree d r /\
    parent (2 ^ d) l = Ok (Some x) /\ parent (2 ^ d) r = Ok (Some x) /\
    level x = Ok (k + 1) /\ level l = Ok k /\ level r = Ok k.
Proof. exact tm_children. Qed.
Print Assumptions C11_children.

(** Leaves have no children and level zero. *)
Theorem C11_leaf : forall x, x <= 4294967294 -> N.even x = true ->
  children x = Ok None /\ left x = Ok None /\ right x = Ok None /\ level x = Ok 0.
Proof. exact tm_leaf. Qed.
Print Assumptions C11_leaf.

(** Every non-root node has a parent in the tree, one level up, and is its left or right child. *)
Theorem C11_parent : forall d x, d <= 31 -> in_tree d x -> x <> 2 ^ d - 1 ->
  exists p k, parent (2 ^ d) x = Ok (Some p) /\ in_tree d p /\ level x = Ok k /\ level p = Ok (k + 1) /\
    ((x < p /\ left p = Ok (Some x)) \/ (p < x /\ right p = Ok (Some x))).
Proof. exact tm_parent. Qed.
Print Assumptions C11_parent.

(** The same against the arithmetic layout: the node at level [k], position [j]. *)
Theorem C11_layout : forall k j d, k <= d -> d <= 31 -> j < 2 ^ (d - k) ->
  level (node_at k j) = Ok k /\
  (k < d -> parent (2 ^ d) (node_at k j) = Ok (Some (node_at (k + 1) (j / 2)))) /\
  (0 < k -> left (node_at k j) = Ok (Some (node_at (k - 1) (2 * j))) /\
            right (node_at k j) = Ok (Some (node_at (k - 1) (2 * j + 1)))).
Proof. exact tm_layout. Qed.
Print Assumptions C11_layout.

(** Every node of the tree has a level and a position. *)
Theorem C11_layout_onto : forall d x, in_tree d x -> exists k j, x = node_at k j /\ k <= d /\ j < 2 ^ (d - k).
Proof. exact tm_onto. Qed.
Print Assumptions C11_layout_onto.

(** A tree with a number of leaves that is not a power of two is navigated as the next larger complete one. *)
Theorem C11_any_size : forall n d, 0 < n -> n <= 2 ^ d -> 2 ^ d < 2 * n -> d <= 31 ->
  root n = Ok (2 ^ d - 1) /\ forall x, parent n x = parent (2 ^ d) x /\ direct_path n x = direct_path (2 ^ d) x.
Proof. exact tm_any_size. Qed.
Print Assumptions C11_any_size.

(** The number of leaves is recovered from the array width. *)
Theorem C11_width : forall n, n <= 2147483648 -> exists w, width n = Ok w /\ num_leaves_of_width w = n.
Proof. exact tm_width. Qed.
Print Assumptions C11_width.

Example C11_example : in_tree 3 11 /\ N.odd 11 = true /\ children 11 = Ok (Some (9, 13)) /\ node_at 2 1 = 11 /\
  parent 8 11 = Ok (Some 7) /\ parent 5 11 = Ok (Some 7) /\ root 8 = Ok 7.
Proof. repeat split. Qed.

(* ------------------------------------------------------------------------------------------- *)
(** * C12 *)

Theorem C12_direct_path : forall d x, d <= 31 -> in_tree d x ->
  exists path k, direct_path (2 ^ d) x = Ok path /\ level x = Ok k /\ chain (2 ^ d) x path /\
    length path = N.to_nat (d - k) /\ last path x = 2 ^ d - 1 /\ Forall (in_tree d) path.
Proof. exact tm_direct_path. Qed.
Print Assumptions C12_direct_path.

(** The same against the arithmetic layout. *)
Theorem C12_direct_path_nodes : forall d k j, d <= 31 -> k <= d -> j < 2 ^ (d - k) -> exists path,
  direct_path (2 ^ d) (node_at k j) = Ok path /\
  forall i, nth_error path (N.to_nat i) = if i <? d - k then Some (node_at (k + i + 1) (j / 2 ^ (i + 1))) else None.
Proof. exact tm_path_nth. Qed.
Print Assumptions C12_direct_path_nodes.

(** The leaves under a node are exactly those whose direct path contains it. *)
Theorem C12_leaves_below : forall d i k j, d <= 31 -> i < 2 ^ d -> 0 < k -> k <= d ->
  exists path, direct_path (2 ^ d) (2 * i) = Ok path /\ (In (node_at k j) path <-> covers k j i).
Proof. exact tm_covers. Qed.
Print Assumptions C12_leaves_below.

Example C12_example : direct_path 8 10 = Ok [9; 11; 7] /\ in_tree 3 10 /\ covers 2 1 5 /\ node_at 2 1 = 11.
Proof. repeat split; vm_compute; congruence. Qed.

(* ------------------------------------------------------------------------------------------- *)
(** * C13 *)

Theorem C13_sibling : forall d x, d <= 31 -> in_tree d x -> x <> 2 ^ d - 1 ->
  exists s p, sibling (2 ^ d) x = Ok (Some s) /\ parent (2 ^ d) x = Ok (Some p) /\ parent (2 ^ d) s = Ok (Some p) /\
    s <> x /\ in_tree d s /\ sibling (2 ^ d) s = Ok (Some x) /\ children p = Ok (Some (N.min x s, N.max x s)).
Proof. exact tm_sibling. Qed.
Print Assumptions C13_sibling.

Theorem C13_copath : forall d x, d <= 31 -> in_tree d x ->
  exists path co, direct_path (2 ^ d) x = Ok path /\ copath (2 ^ d) x = Ok co /\ length co = length path /\
    forall i p s, nth_error path i = Some p -> nth_error co i = Some s ->
      exists y, nth_error (x :: path) i = Some y /\ parent (2 ^ d) y = Ok (Some p) /\ sibling (2 ^ d) y = Ok (Some s) /\
        ~ In s (x :: path).
Proof. exact tm_copath. Qed.
Print Assumptions C13_copath.

(** Siblings and copaths in a tree whose number of leaves is not a power of two are those of the next larger complete one. *)
Theorem C13_any_size : forall n d, 0 < n -> n <= 2 ^ d -> 2 ^ d < 2 * n -> d <= 31 ->
  forall x, sibling n x = sibling (2 ^ d) x /\ copath n x = copath (2 ^ d) x.
Proof. exact tm_any_size_copath. Qed.
Print Assumptions C13_any_size.

Example C13_example : copath 8 10 = Ok [8; 13; 3] /\ in_tree 3 10 /\ sibling 8 11 = Ok (Some 3).
Proof. repeat split. Qed.

(* ------------------------------------------------------------------------------------------- *)
(** * C14: index arithmetic. (Tree operations: PropTree.v.) *)

(** Climbing from any index outside the (completed) tree always overflows. *)
Theorem C14_climb_panics : forall n x, 0 < n -> n <= 2147483648 ->
  (forall d, n <= 2 ^ d -> 2 ^ d < 2 * n -> ~ in_tree d x) -> direct_path n x = Panic.
Proof. exact tm_out. Qed.
Print Assumptions C14_climb_panics.

(** ... and from any index inside it never does; in particular the loop always ends. *)
Theorem C14_climb_dichotomy : forall n x, 0 < n -> n <= 2147483648 ->
  (in_tree (depth n) x /\ exists l, direct_path n x = Ok l) \/ (~ in_tree (depth n) x /\ direct_path n x = Panic).
Proof. exact tm_in_or_out. Qed.
Print Assumptions C14_climb_dichotomy.

(** The root of an empty tree, and the level of the largest index, panic. *)
Theorem C14_refuted_root : root 0 = Panic /\ level 4294967295 = Panic.
Proof. exact (conj root_0 (level_panics 32 0 (N.le_refl 32))). Qed.
Print Assumptions C14_refuted_root.

Theorem C14_refuted_path : exists n x, 0 < n /\ n <= 2147483648 /\ x < 4294967296 /\ direct_path n x = Panic.
Proof. exact tm_out_example. Qed.
Print Assumptions C14_refuted_path.
