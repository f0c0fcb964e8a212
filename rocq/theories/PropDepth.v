(** Property C117: how deep calls nest. The functions that note it, and [deepest], are in SpecDepth.v. *)
From Verif Require Import DepthFacts.
From Verif Require Import SpecDepth ExProvider Examples.
Local Open Scope N_scope.

(** They do what the functions of the model do, however deep they may go ([fuel]). *)
Theorem C117_same : forall fuel x, x < 2 ^ 32 -> (33 <= fuel)%nat -> (forall t, fst (d_resolve_f fuel t x) = resolve t x) /\
  (forall P cs t excl, fst (d_tree_hash_f fuel P cs t x excl) = tree_hash P cs t x excl) /\
  (forall P cs t, fst (d_derive_children fuel P cs t x) = derive_children 33 P cs t x).
Proof. exact c117_same. Qed.
Print Assumptions C117_same.

(** For every tree, whatever is in it and whatever its length, and every node: no more calls are open than the node has levels below it, and one. *)
Theorem C117_levels : forall fuel x, (forall t, deepest (d_resolve_f fuel t x) <= N.log2 (x + 1) + 1) /\
  (forall P cs t excl, deepest (d_tree_hash_f fuel P cs t x excl) <= N.log2 (x + 1) + 1) /\
  (forall P cs t, deepest (d_derive_children fuel P cs t x) <= N.log2 (x + 1) + 1).
Proof. exact c117_depth. Qed.
Print Assumptions C117_levels.

(** So never more than 33, for any index that a u32 holds. *)
Theorem C117_stack : forall fuel x, x < 2 ^ 32 -> (forall t, deepest (d_resolve_f fuel t x) <= 33) /\
  (forall P cs t excl, deepest (d_tree_hash_f fuel P cs t x excl) <= 33) /\ (forall P cs t, deepest (d_derive_children fuel P cs t x) <= 33).
Proof. exact c117_stack. Qed.
Print Assumptions C117_stack.

(** From the root of a tree with [n] leaves: the logarithm of their number, and two. *)
Theorem C117_group : forall n r fuel, 0 < n -> n <= 2147483648 -> root n = Ok r ->
  (forall t, deepest (d_resolve_f fuel t r) <= N.log2 n + 2) /\ (forall P cs t, deepest (d_tree_hash_f fuel P cs t r []) <= N.log2 n + 2) /\
  (forall P cs t, deepest (d_derive_children fuel P cs t r) <= N.log2 n + 2).
Proof. exact c117_group. Qed.
Print Assumptions C117_group.

(** In a tree of four leaves three calls are open at most, however many are allowed; in one of two leaves, two. *)
Example C117_example : root 4 = Ok 3 /\ d_resolve_f 100 (repeat None 7) 3 = (Ok [], 3) /\ d_resolve_f 100 (repeat None 3) 1 = (Ok [], 2) /\
  (exists h, d_tree_hash_f 100 toy Suite1 (repeat None 7) 3 [] = (Ok h, 3)) /\
  (exists st, d_derive_children 100 toy Suite1 (sset (repeat None 7) 3 [x01]) 3 = (Ok st, 3)).
Proof.
  split; [reflexivity|]. split; [vm_compute; reflexivity|]. split; [vm_compute; reflexivity|]. split; eexists; vm_compute; reflexivity.
Qed.
