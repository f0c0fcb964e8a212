(** Property C108: what following a commit costs. The counting functions are in SpecWork.v and SpecCost.v. *)
From Verif Require Import WorkFacts.
From Verif Require Import SpecWork ExProvider ExPassive ExCommit ExStays ApplyFacts.
Local Open Scope N_scope.

(* ------------------------------------------------------------------------------------------- *)
(** * C108 *)

(** The counting functions do what the counted ones do. *)
Theorem C108_same : (forall t ps senders, fst (c_tree_apply t ps senders) = tree_apply t ps senders) /\
  (forall P cs t sender path, (let z := c_merge_update_path P cs t sender path in (fst z, fst (snd z))) = merge_update_path P cs t sender path) /\
  (forall P cs n s, fst (c_new_secret_tree P cs n s) = new_secret_tree P cs n s).
Proof. exact (conj same_apply (conj same_merge same_secrets)). Qed.
Print Assumptions C108_same.

(** Merging an update path into a tree of 2^d leaves, whatever the path, whoever is named as its sender and whatever the outcome: fewer digests
    than the tree has nodes, no signature checks, and at most 34 visits more than it has nodes. *)
Theorem C108_merge : forall P cs t sender path d, full_size t d \/ cut_size t d -> d <= 30 ->
  let c := snd (snd (c_merge_update_path P cs t sender path)) in hashes c <= 2 ^ (d + 1) - 2 /\ checks c = 0 /\ visits c <= 2 ^ (d + 1) + 33.
Proof. exact c108_merge. Qed.
Print Assumptions C108_merge.

(** Carrying out any list of proposals on any tree, whatever the outcome: for each proposal at most four times the nodes of the tree and
    the proposals of the list together, and 35. *)
Theorem C108_apply : forall t ps senders,
  let n := N.of_nat (length ps) in visits (snd (c_tree_apply t ps senders)) <= n * (4 * (tlen t + n) + 35).
Proof. exact c108_apply. Qed.
Print Assumptions C108_apply.

(** No bound in proportion to the number of proposals holds: every added member is put after all before it have been looked at again. Adding
    n members to a tree of 2^d leaves of which the first m are taken takes (m + d+2) + (m+1 + d+2) + ... + (m+n-1 + d+2) visits. *)
Theorem C108_adds : forall ks t d m, full_size t d \/ cut_size t d -> d <= 30 -> m + N.of_nat (length ks) <= 2 ^ d ->
  (forall j, j < m -> ~ blank_at t j) -> (forall j, m <= j -> j < 2 ^ d -> blank_at t j) -> forall senders,
  let n := N.of_nat (length ks) in 2 * visits (snd (c_tree_apply t (map (fun k => PAdd (MkAdd k)) ks) senders)) = n * (2 * m + n - 1) + 2 * n * (d + 2).
Proof. exact c108_adds. Qed.
Print Assumptions C108_adds.

(** A secret tree for 2^d leaves takes two expansions for every node above the leaves, and no more. *)
Theorem C108_secrets : forall P cs d s st, d <= 31 -> new_secret_tree P cs (2 ^ d) s = Ok st -> c_new_secret_tree P cs (2 ^ d) s = (Ok st, Cost (2 ^ (d + 1) - 2) 0 0).
Proof. exact c108_secrets. Qed.
Print Assumptions C108_secrets.

(** A tree of two members takes a path with two digests (of at most 2) and 5 visits; two members join a tree of four leaves. *)
Example C108_example : full_size pj_tree 1 /\ snd (c_merge_update_path toy Suite1 pj_tree 0 es_path) = (Ok tt, Cost 2 0 5) /\
  (let t := [Some (Leaf (ex_leaf x09)); None; None; None; None; None; None] in full_size t 2 /\ ~ blank_at t 0 /\ blank_at t 1 /\ blank_at t 2 /\ blank_at t 3 /\
    visits (snd (c_tree_apply t [PAdd (MkAdd (ex_kp x07)); PAdd (MkAdd (ex_kp x08))] [0; 0])) = 11) /\
  exists st, new_secret_tree toy Suite1 4 [x01] = Ok st /\ c_new_secret_tree toy Suite1 4 [x01] = (Ok st, Cost 6 0 0).
Proof. split; [reflexivity|]. split; [vm_compute; reflexivity|]. split; [repeat split; try reflexivity; vm_compute; discriminate|]. eexists. split; vm_compute; reflexivity. Qed.
