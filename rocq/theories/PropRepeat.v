(** Property C125: repeating a call on a tree, and calls that supersede others (SpecRepeat.v). *)
From Verif Require Import SpecRepeat RepeatFacts RosterFacts TreeFacts HashFacts.
Local Open Scope N_scope.

(* ------------------------------------------------------------------------------------------- *)
(** * C125 *)

(** An update, and a path, accepted or rejected, can be repeated: the outcome is the same and the tree stays as it is. *)
Theorem C125_repeated : forall P cs t d op ok t1 i, shaped t d -> performed P cs t op ok t1 -> about op i -> performed P cs t1 op ok t1.
Proof. exact repeated. Qed.
Print Assumptions C125_repeated.

(** They leave no trace in what comes later for the same member: an update, a removal, or an accepted path gives the tree that it would have
    given without them. After a rejected path the next path has the same outcome in every case, although the rejected one changed the tree (C27). *)
Theorem C125_superseded : forall P cs t d op ok t1 i, shaped t d -> performed P cs t op ok t1 -> about op i ->
  (forall l, tree_update t1 i l = tree_update t i l) /\
  tree_remove t1 i = tree_remove t i /\
  (forall u t', merge_update_path P cs t1 i u = (t', Ok tt) <-> merge_update_path P cs t i u = (t', Ok tt)) /\
  (ok = false -> forall u, merge_update_path P cs t1 i u = merge_update_path P cs t i u).
Proof. exact superseded. Qed.
Print Assumptions C125_superseded.

(** Updates of different members can be made in either order. *)
Theorem C125_commute : forall t d i j l l', shaped t d -> i <> j ->
  (let* t1 := tree_update t i l in tree_update t1 j l') = (let* t1 := tree_update t j l' in tree_update t1 i l).
Proof. exact updates_commute. Qed.
Print Assumptions C125_commute.

(** A removal can be repeated if its place is still there; if the tree was cut, the second call panics. *)
Theorem C125_removed_twice : forall t d i t', shaped t d -> tree_remove t i = Ok t' -> tree_remove t' i = if i <? num_leaves t' then Ok t' else Panic.
Proof. exact removed_twice. Qed.
Print Assumptions C125_removed_twice.
Theorem C125_refuted_remove : exists t d i t', good t d /\ tree_remove t i = Ok t' /\ tree_remove t' i = Panic.
Proof. exact (ex_intro _ ex_three (ex_intro _ 2 (ex_intro _ 2 (ex_intro _ ex_cut (conj ex_three_good (conj eq_refl eq_refl)))))). Qed.
Print Assumptions C125_refuted_remove.
(** An add that is repeated puts the member at a second leaf. *)
Theorem C125_refuted_add : exists t d l t1 t2 i j, good t d /\ tree_add t l = Ok t1 /\ tree_add t1 l = Ok t2 /\ i <> j /\ leaf_at t2 i = Some l /\ leaf_at t2 j = Some l.
Proof. exact added_twice. Qed.
Print Assumptions C125_refuted_add.

(** A path from member 2 of three is rejected, after it has changed the root. *)
Example C125_example : exists t1, shaped ex_merged3 2 /\ performed toy Suite1 ex_merged3 (OMerge 2 ex_bad_path) false t1 /\ t1 <> ex_merged3 /\
  performed toy Suite1 ex_three (OMerge 0 ex_path3) true ex_merged3 /\ about (OMerge 2 ex_bad_path) 2.
Proof. exact ex_repeat. Qed.
Example C125_removed_example : exists t', shaped ex_three 2 /\ tree_remove ex_three 1 = Ok t' /\ tree_remove t' 1 = Ok t'.
Proof. exact ex_remove_again. Qed.

(* ------------------------------------------------------------------------------------------- *)
(** * C27, what a rejected path means for others *)

(** A tree that everyone would accept is one whose parent hashes are wrong after a path was rejected. By [C125_superseded] the sender's
    next accepted path or update puts that right. *)
Theorem C27_refuted_spoils : exists P cs t d i u t' e, good t d /\ verify_parent_hashes P cs t = Ok true /\ merge_update_path P cs t i u = (t', Err e) /\
  verify_parent_hashes P cs t' = Ok false.
Proof. exact rejected_spoils. Qed.
Print Assumptions C27_refuted_spoils.
