(** Arithmetic specification of the array layout of RFC 9420, Appendix C: the node at level [k] (leaves
    are level 0) and position [j] from the left. *)
From Coq Require Export NArith List Lia.
Local Open Scope N_scope.

Definition node_at (k j : N) : N := j * 2 ^ (k + 1) + 2 ^ k - 1.

(** [x] is a node of the complete tree of depth [d] (with 2^d leaves). *)
Definition in_tree (d x : N) : Prop := x < 2 ^ (d + 1) - 1.

(** Leaf [i] is below (or is) the node at level [k], position [j]. *)
Definition covers (k j i : N) : Prop := j * 2 ^ k <= i < (j + 1) * 2 ^ k.

(** Depth of the smallest complete tree with at least [n >= 1] leaves ([depth_bounds] in TreeMathProofs.v). *)
Definition depth (n : N) : N := N.log2 (2 * n - 1).
