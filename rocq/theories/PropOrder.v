(** Property C110: the order of the proposals in a commit. The specification is that of C48, C69 and SpecRatchet.v. *)
From Verif Require Import OrderFacts.
From Verif Require Import SpecApply SpecProposals ApplyFacts Examples.
From Coq Require Import Permutation.
Local Open Scope N_scope.

(* ------------------------------------------------------------------------------------------- *)
(** * C110 *)

(** Two lists of the same proposals with the same senders, in which the new members come in the same order, have the same outcome, node by node. *)
Theorem C110_same : forall t d ps senders committer ps' senders', good t d -> psks_wf ps -> verify_proposal_list ps senders committer = Ok tt ->
  names_members t ps senders committer -> length ps' = length senders' -> Permutation (combine ps senders) (combine ps' senders') -> adds_of ps = adds_of ps' ->
  tree_apply t ps senders = tree_apply t ps' senders'.
Proof. exact order_same. Qed.
Print Assumptions C110_same.

(** In whatever order the new members come, the two trees differ in nothing but which of them is where. *)
Theorem C110_places : forall t d ps senders committer ps' senders' t1, good t d -> psks_wf ps -> verify_proposal_list ps senders committer = Ok tt ->
  names_members t ps senders committer -> length ps' = length senders' -> Permutation (combine ps senders) (combine ps' senders') ->
  tree_apply t ps senders = Ok t1 -> exists t2, tree_apply t ps' senders' = Ok t2 /\ tlen t1 = tlen t2 /\
    forall x, tget t1 x = tget t2 x \/ exists l l', tget t1 x = Some (Leaf l) /\ tget t2 x = Some (Leaf l') /\ In l (adds_of ps) /\ In l' (adds_of ps).
Proof. exact order_any. Qed.
Print Assumptions C110_places.

(** That much does depend on the order. *)
Theorem C110_differ : exists t d ps ps' senders committer t1 t2, good t d /\ psks_wf ps /\ verify_proposal_list ps senders committer = Ok tt /\
  names_members t ps senders committer /\ Permutation (combine ps senders) (combine ps' senders) /\
  tree_apply t ps senders = Ok t1 /\ tree_apply t ps' senders = Ok t2 /\ t1 <> t2.
Proof. exact order_differ. Qed.
Print Assumptions C110_differ.

(** In [ex_tree], with members 0, 1 and 2: the list of C69's example in another order. *)
Example C110_example : good ex_tree 2 /\ psks_wf ex_list /\ verify_proposal_list ex_list [2; 0; 0; 0] 0 = Ok tt /\ names_members ex_tree ex_list [2; 0; 0; 0] 0 /\
  Permutation (combine ex_list [2; 0; 0; 0]) (combine ex_turned [0; 0; 0; 2]) /\ ex_list <> ex_turned /\ adds_of ex_list = adds_of ex_turned /\
  exists t', tree_apply ex_tree ex_list [2; 0; 0; 0] = Ok t' /\ tree_apply ex_tree ex_turned [0; 0; 0; 2] = Ok t' /\ tlen t' = 7.
Proof. exact order_example. Qed.
