(** Property C69: applying an accepted list of proposals to a tree (SpecApply.v). *)
From Verif Require Import ApplyFacts ApplyExact.
From Verif Require Import WireWF SpecApply Examples TreeFacts.
Local Open Scope N_scope.

(* ------------------------------------------------------------------------------------------- *)
(** * C69 *)

(** A list that passes the list check and names members only is applied, and changes exactly what it says, if there
    is room for the new members. *)
Theorem C69_applied : forall t d ps senders committer, shaped t d -> psks_wf ps -> verify_proposal_list ps senders committer = Ok tt ->
  names_members t ps senders committer -> 2 ^ d + N.of_nat (length (adds_of ps)) <= 1073741824 -> room_for t d ps ->
  exists t' d', tree_apply t ps senders = Ok t' /\ shaped t' d' /\ (good t d -> good t' d') /\ applied t ps senders t'.
Proof. exact c69. Qed.
Print Assumptions C69_applied.

(** Without room it is not: the result, if any, does not have every new member in place. *)
Theorem C69_exact : forall t d ps senders committer, shaped t d -> psks_wf ps -> verify_proposal_list ps senders committer = Ok tt ->
  names_members t ps senders committer -> 2 ^ d + N.of_nat (length (adds_of ps)) <= 1073741824 ->
  ((exists t', tree_apply t ps senders = Ok t' /\ applied t ps senders t') <-> room_for t d ps).
Proof. exact c69_exact. Qed.
Print Assumptions C69_exact.

(** Updates and removals alone always have room. *)
Theorem C69_no_adds : forall t d ps senders committer, shaped t d -> psks_wf ps -> verify_proposal_list ps senders committer = Ok tt ->
  names_members t ps senders committer -> d <= 30 -> adds_of ps = [] ->
  exists t' d', tree_apply t ps senders = Ok t' /\ shaped t' d' /\ (good t d -> good t' d') /\ applied t ps senders t'.
Proof. exact c69_no_adds. Qed.
Print Assumptions C69_no_adds.

(** Member 0 of the two commits the removal of member 1 and a new member: the list is accepted and applied without
    an error, and the new member is at no leaf. *)
Theorem C69_refuted_lost : exists t d ps senders committer t' l, good t d /\ psks_wf ps /\ verify_proposal_list ps senders committer = Ok tt /\
  names_members t ps senders committer /\ adds_of ps = [l] /\ tree_apply t ps senders = Ok t' /\ forall i, leaf_at t' i <> Some l.
Proof. exact c69_lost. Qed.
Print Assumptions C69_refuted_lost.

(** The list check does not look at the tree: a list that removes a leaf outside the tree passes it, and applying it panics. *)
Theorem C69_refuted_panic : exists t d ps senders committer, good t d /\ psks_wf ps /\ verify_proposal_list ps senders committer = Ok tt /\
  ~ blank_at t committer /\ tree_apply t ps senders = Panic.
Proof. exact c69_panic. Qed.
Print Assumptions C69_refuted_panic.

(** A list with an update sent from a leaf that holds nobody passes too, and applying it makes a member there. *)
Theorem C69_refuted_ghost : exists t d ps senders committer t' x l, good t d /\ psks_wf ps /\ verify_proposal_list ps senders committer = Ok tt /\
  ~ blank_at t committer /\ adds_of ps = [] /\ blank_at t x /\ tree_apply t ps senders = Ok t' /\ leaf_at t' x = Some l.
Proof. exact c69_ghost. Qed.
Print Assumptions C69_refuted_ghost.

(** In [ex_tree], with members 0, 1 and 2: 0 commits an update of 2, the removal of 1 and two new members, who get
    positions 1 and 3. *)
Example C69_example : good ex_tree 2 /\ psks_wf ex_list /\ verify_proposal_list ex_list [2; 0; 0; 0] 0 = Ok tt /\
  names_members ex_tree ex_list [2; 0; 0; 0] 0 /\ 2 ^ 2 + N.of_nat (length (adds_of ex_list)) <= 1073741824 /\ room_for ex_tree 2 ex_list /\
  exists t', tree_apply ex_tree ex_list [2; 0; 0; 0] = Ok t' /\
    map (leaf_at t') [0; 1; 2; 3; 4] = [leaf_at ex_tree 0; Some (ex_new x07); Some (ex_leaf x09); Some (ex_new x08); None].
Proof. exact ex_list_ok. Qed.
