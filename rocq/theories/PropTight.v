(** Property C124: a tree is no larger than its last member needs (SpecTight.v). *)
From Verif Require Import SpecTight TightFacts RosterFacts TreeFacts HashFacts.
Local Open Scope N_scope.

(* ------------------------------------------------------------------------------------------- *)
(** * C124 *)

(** The tree of a new group is as small as can be, and stays so over any history: it has 2^s leaf places, where s is the number of binary
    digits of the last member's index, and it is empty when nobody is left. *)
Theorem C124_new : forall l, shaped [Some (Leaf l)] 0 /\ tight [Some (Leaf l)] 0.
Proof. exact single_tight. Qed.
Print Assumptions C124_new.
Theorem C124_history : forall P cs t d h t', shaped t d -> tight t d -> history_of P cs t h t' -> t' = [] \/ exists d', shaped t' d' /\ tight t' d'.
Proof. exact history_tight. Qed.
Print Assumptions C124_history.
Theorem C124_size : forall P cs t d h t', shaped t d -> tight t d -> history_of P cs t h t' ->
  (no_members t' /\ t' = []) \/ exists m, last_member t' m /\ num_leaves t' = 2 ^ N.size m.
Proof. exact history_size. Qed.
Print Assumptions C124_size.
(** No complete tree that has a place for every member is smaller. *)
Theorem C124_smallest : forall t d e, shaped t d -> tight t d -> (forall m l, leaf_at t m = Some l -> m < 2 ^ e) -> d <= e.
Proof. exact tight_smallest. Qed.
Print Assumptions C124_smallest.

(** So parties with the same members have trees of the same size, and still do after the same operations. *)
Theorem C124_same : forall t d t' e, shaped t d -> tight t d -> shaped t' e -> tight t' e -> (forall i, leaf_at t' i = None <-> leaf_at t i = None) ->
  d = e /\ num_leaves t' = num_leaves t.
Proof. exact tight_unique. Qed.
Print Assumptions C124_same.
Theorem C124_agree : forall P cs P' cs' t d t' e h a b, shaped t d -> tight t d -> shaped t' e -> tight t' e -> (forall i, leaf_at t' i = leaf_at t i) ->
  history_of P cs t h a -> history_of P' cs' t' h b -> num_leaves b = num_leaves a.
Proof. exact sizes_agree. Qed.
Print Assumptions C124_agree.

(** A tree that was received and passed the check can be larger than that: nobody is in its right half. *)
Theorem C124_refuted_received : exists P bs t ctx now, de_ratchet_tree bs = Ok (t, []) /\ verify_integrity P t ctx now = Ok tt /\ shaped t 1 /\ ~ tight t 1.
Proof. exact received_loose. Qed.
Print Assumptions C124_refuted_received.
(** The first removal puts that right. *)
Theorem C124_removed : forall P cs t d h t', shaped t d -> history_of P cs t h t' -> (exists i, In (ORemove i, true) h) ->
  t' = [] \/ exists d', shaped t' d' /\ tight t' d'.
Proof. exact history_removed. Qed.
Print Assumptions C124_removed.

(** The history of C123's example, and then the removal of member 2: members 0 and 1 remain, in a tree of two places. *)
Example C124_example : exists t', (shaped ex_one 0 /\ tight ex_one 0) /\ history_of toy Suite1 ex_one (ex_roster_ops ++ [(ORemove 2, true)]) t' /\
  last_member t' 1 /\ num_leaves t' = 2.
Proof. exact ex_tight. Qed.

(* ------------------------------------------------------------------------------------------- *)
(** * C16, over histories *)

(** What C16's lost members mean for a group: once a removal has cut its tree to depth [d], the tree never has more than 2^d leaf places
    again, whatever is done to it, and nobody added to it when these are taken gets a leaf. *)
Theorem C16_stuck : forall P cs t d h t', shaped t d -> cut_size t d -> history_of P cs t h t' ->
  num_leaves t' <= 2 ^ d /\ (forall i l, leaf_at t' i = Some l -> i < 2 ^ d) /\
  forall l t'', tree_add t' l = Ok t'' -> (forall i, i < 2 ^ d -> leaf_at t' i <> None) -> tlen t' < 1073741824 -> forall i, leaf_at t'' i = leaf_at t' i.
Proof. exact history_stuck. Qed.
Print Assumptions C16_stuck.

(** Members 0 and 1 of three remain, in a tree that was cut: a third cannot be added any more. *)
Example C16_stuck_example : shaped ex_cut 1 /\ cut_size ex_cut 1 /\ history_of toy Suite1 ex_cut [] ex_cut /\
  (forall i, i < 2 ^ 1 -> leaf_at ex_cut i <> None) /\ exists t'', tree_add ex_cut (ex_leaf x09) = Ok t''.
Proof. exact ex_cut_shaped. Qed.
