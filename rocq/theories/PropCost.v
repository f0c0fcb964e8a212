(** Property C103: what checking a received tree costs. The counting functions are in SpecCost.v. *)
From Verif Require Import CostFacts ScanFacts.
From Verif Require Import SpecCost SpecScan Verified ExProvider.
Local Open Scope N_scope.

(* ------------------------------------------------------------------------------------------- *)
(** * C103 *)

(** The counting check is the check. *)
Theorem C103_same : forall P t ctx now, fst (c_verify_integrity P t ctx now) = verify_integrity P t ctx now.
Proof. exact c103_same. Qed.
Print Assumptions C103_same.

(** Whatever is in a tree of 2^d leaves, and whatever the outcome: at most (d+1) digests per node, one signature per leaf, and d visited
    nodes per node besides 34 for every entry of a list of unmerged leaves. *)
Theorem C103_bound : forall P t ctx now d, full_size t d -> d <= 31 ->
  let c := snd (c_verify_integrity P t ctx now) in
  hashes c <= (d + 1) * 2 ^ (d + 1) /\ checks c <= 2 ^ d /\ visits c <= d * 2 ^ (d + 1) + 34 * unmerged_entries t.
Proof. exact c103_bound. Qed.
Print Assumptions C103_bound.

(** So it is at most a fixed multiple of the number of bytes the tree was received in. *)
Theorem C103_received : forall P bs t rest ctx now, de_ratchet_tree bs = Ok (t, rest) ->
  let c := snd (c_verify_integrity P t ctx now) in let n := N.of_nat (length bs) in hashes c <= 64 * n /\ checks c <= n /\ visits c <= 130 * n.
Proof. exact c103_received. Qed.
Print Assumptions C103_received.

(** The tree hash takes exactly one digest per node. *)
Theorem C103_hash : forall P cs t d h, full_size t d -> d <= 31 -> root_tree_hash P cs t = Ok h ->
  fst (c_root_tree_hash P cs t) = Ok h /\ hashes (snd (c_root_tree_hash P cs t)) = tlen t.
Proof. exact c103_hash. Qed.
Print Assumptions C103_hash.

(** The recursive functions nest no deeper than the level of the node they are called for, so at most 31 deep. *)
Theorem C103_depth : forall P cs t k j excl, k <= 31 ->
  tree_hash P cs t (node_at k j) excl = tree_hash_f (N.to_nat k) P cs t (node_at k j) excl /\ resolve t (node_at k j) = resolve_f (N.to_nat k) t (node_at k j).
Proof. exact c103_depth. Qed.
Print Assumptions C103_depth.

(** A tree of two members and a parent is accepted with 7 digests (of at most 8), 2 signatures and 2 visited nodes. *)
Example C103_example : full_size ex_verified 1 /\ c_verify_integrity toy ex_verified (ex_context ex_verified) (fun _ => 5000%Z) = (Ok tt, Cost 7 2 2).
Proof. exact c103_example. Qed.

(** Looking for unmerged leaves in the lists of the nodes between: the counting check is the check. *)
Theorem C103_scans_same : forall P t ctx now, fst (s_verify_integrity P t ctx now) = verify_integrity P t ctx now.
Proof. exact scans_same. Qed.
Print Assumptions C103_scans_same.

(** The comparisons it makes are at most 34 times the number of entries times the length of the longest list, so at most the square of the
    number of bytes received, times a constant. *)
Theorem C103_scans : forall P t ctx now,
  snd (s_verify_integrity P t ctx now) <= 34 * unmerged_entries t * longest_unmerged t /\
  forall bs rest, de_ratchet_tree bs = Ok (t, rest) -> snd (s_verify_integrity P t ctx now) <= 136 * N.of_nat (length bs) * N.of_nat (length bs).
Proof. exact (fun P t ctx now => conj (scans_bound P t ctx now) (fun bs rest => scans_received P bs t rest ctx now)). Qed.
Print Assumptions C103_scans.

(** No bound in proportion to the size holds for these comparisons: trees of four leaves with 2u+1 entries take u(u+1) of them. *)
Theorem C103_scans_reached : forall P ctx now l0 k1 h1 k3 h3 o2 o4 o6 u,
  let t := [Some (Leaf l0); Some (Parent (MkParentNode k1 h1 (repeat 1 u ++ [0])%list)); option_map Leaf o2;
            Some (Parent (MkParentNode k3 h3 (repeat 0 u))); option_map Leaf o4; None; option_map Leaf o6] in
  verify_integrity P t ctx now = Ok tt ->
  unmerged_entries t = 2 * N.of_nat u + 1 /\ snd (s_verify_integrity P t ctx now) = N.of_nat u * (N.of_nat u + 1).
Proof. exact (fun P ctx now l0 k1 h1 k3 h3 o2 o4 o6 u E => conj (crowded_entries l0 k1 h1 k3 h3 o2 o4 o6 u) (crowded_cost l0 k1 h1 k3 h3 o2 o4 o6 u P ctx now E)). Qed.
Print Assumptions C103_scans_reached.

(** Such a tree is received and accepted. *)
Example C103_scans_example : let t := crowded ex_crowd_leaf [x77] ex_crowd_h1 [x78] [] None None None 3 in
  verify_integrity toy t (ex_context t) (fun _ => 5000%Z) = Ok tt /\ exists b, se_ratchet_tree t = Ok b /\ de_ratchet_tree b = Ok (t, []).
Proof. exact scans_example. Qed.
