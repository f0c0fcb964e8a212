(** Property C70: parent hashes over the life of a tree (SpecHashes.v). *)
From Verif Require Import HashFacts.
From Verif Require Import WireWF SpecHashes Examples TreeFacts KeyPackage.
Local Open Scope N_scope.

(* ------------------------------------------------------------------------------------------- *)
(** * C70 *)

(** If the parent hashes of a well-formed tree verify, they verify after every history of additions, updates, removals
    and merged paths. [fair_step] leaves out what no member can rule out: a path node whose hash happens to be carried
    on its other side, and trees too large to hash. *)
Theorem C70_history : forall P cs t d t', good t d -> verify_parent_hashes P cs t = Ok true -> fair_history P cs t t' ->
  verify_parent_hashes P cs t' = Ok true.
Proof. exact c70. Qed.
Print Assumptions C70_history.

(** Every tree without parent nodes is a start. *)
Theorem C70_start : forall P cs t d, good t d -> (forall x p, tget t x <> Some (Parent p)) -> verify_parent_hashes P cs t = Ok true.
Proof. exact c70_leaves. Qed.
Print Assumptions C70_start.

(** What [fair_step] asks of a new leaf is checked when a key package is verified. *)
Theorem C70_packages : forall P kp ctx, key_package_verify P kp ctx = Ok tt ->
  forall h, lp_source (ln_payload (kp_leaf (kp_payload kp))) <> LSCommit h.
Proof. exact verified_source. Qed.
Print Assumptions C70_packages.

(** Three members; member 0 merges a path with two nodes, then a fourth comes in and is unmerged at the root. *)
Example C70_example : good ex_three 2 /\ (forall x p, tget ex_three x <> Some (Parent p)) /\ fair_history toy Suite1 ex_three ex_joined3 /\
  tget ex_joined3 3 = Some (Parent (MkParentNode [x88] [] [3])) /\ verify_parent_hashes toy Suite1 ex_joined3 = Ok true.
Proof. split; [exact ex_three_good|]. split; [exact ex_three_leaves|]. split; [exact ex_joined3_history|]. split; vm_compute; reflexivity. Qed.
