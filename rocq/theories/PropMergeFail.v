(** Property C27, what a rejected update path leaves behind. *)
From Verif Require Import MergeFail.
From Verif Require Import SpecRatchet Examples ExProvider HashFacts TreeFacts.
Local Open Scope N_scope.

(* ------------------------------------------------------------------------------------------- *)
(** * C27 *)

(** After a rejected update path, nothing off the sender's direct path is changed, the sender's leaf included. If the path had the wrong
    number of nodes, the direct path is blank. If it had the right number, the new keys are in the tree, all the same as if the path
    had been accepted, and the rest of the direct path is blank. *)
Theorem C27_exact : forall P cs t d i u t' r fp, shaped t d -> i < 2 ^ d -> filtered_direct_path t (2 * i) = Ok fp ->
  merge_update_path P cs t i u = (t', r) -> r <> Ok tt ->
  tlen t' = tlen t /\ (forall x, ~ on_path d i x -> tget t' x = tget t x) /\
  if Nat.eqb (length fp) (length (up_nodes u)) then
    (forall x, on_path d i x -> ~ In x fp -> tget t' x = None) /\
    (forall m x n, nth_error fp m = Some x -> nth_error (up_nodes u) m = Some n -> exists h, tget t' x = Some (Parent (MkParentNode (upn_encryption_key n) h [])))
  else r = Err UpdatePathAndFilteredDirectPathHasDifferentNode /\ forall x, on_path d i x -> tget t' x = None.
Proof. exact c27_exact. Qed.
Print Assumptions C27_exact.

(** So a rejected path, with keys other than those at its places, leaves the tree unchanged exactly if the sender's direct path was blank
    before and the path has the wrong number of nodes or should have none. *)
Theorem C27_unchanged : forall P cs t d i u t' r fp, shaped t d -> i < 2 ^ d -> filtered_direct_path t (2 * i) = Ok fp ->
  merge_update_path P cs t i u = (t', r) -> r <> Ok tt ->
  (forall m x n p, nth_error fp m = Some x -> nth_error (up_nodes u) m = Some n -> tget t x = Some (Parent p) -> pn_encryption_key p <> upn_encryption_key n) ->
  (t' = t <-> (length fp <> length (up_nodes u) \/ fp = []) /\ forall x, on_path d i x -> tget t x = None).
Proof. exact c27_unchanged. Qed.
Print Assumptions C27_unchanged.

(** Member 2 of three sends a path whose leaf has the wrong parent hash. It is rejected; its key is at the root. *)
Example C27_exact_example : exists t', shaped ex_merged3 2 /\ filtered_direct_path ex_merged3 (2 * 2) = Ok [3] /\
  merge_update_path toy Suite1 ex_merged3 2 (MkUpdatePath (ex_leaf_commit x05 []) [MkUpdatePathNode [x99] []]) = (t', Err ParentHashMismatchForUpdatePathLeafNode) /\
  tget t' 3 = Some (Parent (MkParentNode [x99] [] [])) /\ tget ex_merged3 3 = Some (Parent (MkParentNode [x88] [] [])).
Proof. exact c27_exact_example. Qed.
