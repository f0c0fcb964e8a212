(** Property C126: which operations on a tree can be made in either order. *)
From Verif Require Import SpecTree SpecRatchet Examples TreeFacts HashFacts CommuteFacts.
Local Open Scope N_scope.

(* ------------------------------------------------------------------------------------------- *)
(** * C126 *)

(** An update of one member and the removal of another (also of a place that is blank or not in the tree). *)
Theorem C126_update_remove : forall t d i j l, good t d -> i <> j -> ~ blank_at t i ->
  (let* t1 := tree_update t i l in tree_remove t1 j) = (let* t1 := tree_remove t j in tree_update t1 i l).
Proof. exact update_remove. Qed.
Print Assumptions C126_update_remove.

(** An update of a member and an add. *)
Theorem C126_update_add : forall t d i l n, shaped t d -> tlen t < 4294967295 -> has_room t -> i < 2 ^ d -> ~ blank_at t i ->
  (let* t1 := tree_update t i l in tree_add t1 n) = (let* t1 := tree_add t n in tree_update t1 i l).
Proof. exact update_add. Qed.
Print Assumptions C126_update_add.

(** The removals of two members. *)
Theorem C126_remove_remove : forall t d i j, good t d -> i <> j -> ~ blank_at t i -> ~ blank_at t j ->
  (let* t1 := tree_remove t i in tree_remove t1 j) = (let* t1 := tree_remove t j in tree_remove t1 i).
Proof. exact remove_remove. Qed.
Print Assumptions C126_remove_remove.

(** An add and the removal of a member: exactly if a place before that member is free, and the removal leaves room for the add. *)
Theorem C126_add_remove : forall t d j l t1, good t d -> has_room t -> tlen t < 1073741824 -> ~ blank_at t j -> tree_remove t j = Ok t1 ->
  ((let* a := tree_add t l in tree_remove a j) = tree_add t1 l <-> (exists p, p < j /\ blank_at t p) /\ has_room t1).
Proof. exact add_remove. Qed.
Print Assumptions C126_add_remove.

(** The order matters for an add and a removal, already with three members and no free place before the removed one; *)
Theorem C126_refuted_add_remove : exists t d j l t1 t2 u1 u2, good t d /\ ~ blank_at t j /\ tree_add t l = Ok t1 /\ tree_remove t1 j = Ok t2 /\
  tree_remove t j = Ok u1 /\ tree_add u1 l = Ok u2 /\ t2 <> u2 /\ leaf_at t2 3 = Some l /\ leaf_at u2 0 = Some l.
Proof. exact ex_add_remove. Qed.
Print Assumptions C126_refuted_add_remove.
(** with a free place before it, if the removal leaves no room: then the add after it gets no leaf position at all; *)
Theorem C126_refuted_no_room : exists t d j l t1 t2 u1 u2, good t d /\ ~ blank_at t j /\ (exists p, p < j /\ blank_at t p) /\ tree_add t l = Ok t1 /\ tree_remove t1 j = Ok t2 /\
  tree_remove t j = Ok u1 /\ tree_add u1 l = Ok u2 /\ leaf_at t2 1 = Some l /\ forall i, leaf_at u2 i <> Some l.
Proof. exact ex_no_room. Qed.
Print Assumptions C126_refuted_no_room.
(** and for a path and an update of another member: after the update the same path is rejected. *)
Theorem C126_refuted_path : exists P cs t d i u t1 t2 j l v, good t d /\ i <> j /\ merge_update_path P cs t i u = (t1, Ok tt) /\ tree_update t1 j l = Ok t2 /\
  tree_update t j l = Ok v /\ forall v', merge_update_path P cs v i u <> (v', Ok tt).
Proof. exact ex_path_update. Qed.
Print Assumptions C126_refuted_path.

Example C126_example : good ex_three 2 /\ has_room ex_three /\ ~ blank_at ex_three 0 /\ ~ blank_at ex_three 2 /\
  (exists t1 t2, tree_update ex_three 0 (ex_leaf x09) = Ok t1 /\ tree_remove t1 2 = Ok t2 /\ tlen t2 = 4) /\
  (exists t1 t2, tree_update ex_three 0 (ex_leaf x09) = Ok t1 /\ tree_add t1 (ex_leaf x04) = Ok t2 /\ leaf_at t2 3 = Some (ex_leaf x04)).
Proof. exact ex_commute. Qed.
(** Five members, of whom the second was removed: an add and the removal of the last, which cuts the tree, can be made in either order. *)
Example C126_add_remove_example : exists t t1, good t 3 /\ has_room t /\ tlen t = 15 /\ ~ blank_at t 4 /\ blank_at t 1 /\ tree_remove t 4 = Ok t1 /\ tlen t1 = 8 /\ has_room t1.
Proof. exact ex_gap. Qed.
