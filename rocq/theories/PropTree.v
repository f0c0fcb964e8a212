(** Properties C14-C22 and C25-C30: the ratchet tree. The vocabulary is in SpecTree.v and SpecRatchet.v. [ex_one],
    [ex_two], [ex_three], [ex_cut] and [ex_tree] are example trees; [toy] is an example provider. *)
From Verif Require Import TreeFacts.
From Coq Require Import Permutation.
Local Open Scope N_scope.

(* ------------------------------------------------------------------------------------------- *)
(** * C14: leaf indices outside the tree *)

Theorem C14_get_leaf_outside : forall t d i, tsized t d -> tlen t < 4294967296 -> 2 ^ d <= i ->
  get_leaf t i = if i <? 2147483648 then Ok None else Panic.
Proof. exact c14_get. Qed.
Print Assumptions C14_get_leaf_outside.

Theorem C14_refuted_update : forall t d i l, tsized t d -> tlen t < 4294967296 -> 2 ^ d <= i -> tree_update t i l = Panic.
Proof. exact c14_update. Qed.
Print Assumptions C14_refuted_update.

Theorem C14_refuted_remove : forall t d i, tsized t d -> tlen t < 4294967296 -> 2 ^ d <= i -> tree_remove t i = Panic.
Proof. exact c14_remove. Qed.
Print Assumptions C14_refuted_remove.

Theorem C14_refuted_merge : forall P cs t d i u, tsized t d -> tlen t < 4294967296 -> 2 ^ d <= i ->
  merge_update_path P cs t i u = (t, Panic).
Proof. exact c14_merge. Qed.
Print Assumptions C14_refuted_merge.

(** On the empty tree, every index is outside. *)
Theorem C14_refuted_empty : forall P cs i l u,
  tree_update [] i l = Panic /\ tree_remove [] i = Panic /\ merge_update_path P cs [] i u = ([], Panic).
Proof. exact (fun P cs i l u => conj (update_empty i l) (conj (remove_empty i) (merge_empty P cs i u))). Qed.
Print Assumptions C14_refuted_empty.

Example C14_tree_example : tsized ex_three 2 /\ tlen ex_three < 4294967296 /\ tree_remove ex_three 4 = Panic.
Proof. repeat split. left. reflexivity. Qed.

(* ------------------------------------------------------------------------------------------- *)
(** * C15 *)

Theorem C15_add : forall t d l, full_size t d -> d <= 30 ->
  exists t' d' i, tree_add t l = Ok t' /\ full_size t' d' /\
    (forall j, j < i -> ~ blank_at t j) /\
    ((d' = d /\ i < 2 ^ d /\ blank_at t i) \/ (d' = d + 1 /\ i = 2 ^ d)) /\
    added t t' d' i l.
Proof. exact c15. Qed.
Print Assumptions C15_add.

(** In [ex_tree], leaf 3 is the leftmost blank leaf and the node above leaves 0 and 1 is the only parent. *)
Example C15_example : full_size ex_tree 2 /\ (exists t', tree_add ex_tree (ex_leaf x09) = Ok t' /\ get_leaf t' 3 = Ok (Some (ex_leaf x09))) /\
  full_size ex_two 1 /\ (exists t', tree_add ex_two (ex_leaf x09) = Ok t' /\ full_size t' 2 /\ get_leaf t' 2 = Ok (Some (ex_leaf x09))).
Proof. repeat split; eexists; repeat split. Qed.

(* ------------------------------------------------------------------------------------------- *)
(** * C16 *)

(** From a one-member tree, removing the member leads to a tree that [add] panics on. *)
Theorem C16_refuted_empty : exists P cs t t' l, good t 0 /\ tree_history P cs t t' /\ tree_add t' l = Panic.
Proof. exact (ex_intro _ toy (ex_intro _ Suite1 (ex_intro _ ex_one (ex_intro _ [] (ex_intro _ (ex_leaf x02) (conj (good_single (ex_leaf x01)) (conj ex_empty_history eq_refl))))))). Qed.
Print Assumptions C16_refuted_empty.

(** From a one-member tree, two adds and a remove lead to a tree that [add] changes at an interior position only:
    the new member is at no leaf index. *)
Theorem C16_refuted_lost : exists P cs t t' t'' l, good t 0 /\ tree_history P cs t t' /\ tree_add t' l = Ok t'' /\
  forall i, get_leaf t'' i <> Ok (Some l).
Proof. exact c16_lost. Qed.
Print Assumptions C16_refuted_lost.

(** Which of the two happens depends on [has_room] exactly, for every tree a history can reach. *)
Theorem C16_add_after_history : forall P cs t0 d0 t l, shaped t0 d0 -> tree_history P cs t0 t -> tlen t < 1073741824 ->
  (t = [] /\ tree_add t l = Panic) \/
  (has_room t /\ exists t' d' i, tree_add t l = Ok t' /\ shaped t' d' /\ (good t0 d0 -> good t' d') /\ added t t' d' i l) \/
  (~ has_room t /\ exists t', tree_add t l = Ok t' /\ (forall j, tget t' (2 * j) = tget t (2 * j)) /\ tget t' (tlen t + 1) = Some (Leaf l)).
Proof. exact c16_history. Qed.
Print Assumptions C16_add_after_history.

Example C16_example : tree_history toy Suite1 ex_one ex_three /\ has_room ex_three /\ good ex_one 0 /\ tree_history toy Suite1 ex_one ex_cut.
Proof. exact (conj ex_three_history (conj (ex_intro _ 2 (or_introl eq_refl)) (conj (good_single (ex_leaf x01)) ex_cut_history))). Qed.

(* ------------------------------------------------------------------------------------------- *)
(** * C17 *)

Theorem C17_update : forall t d i l, tsized t d -> tlen t < 4294967296 -> i < 2 ^ d ->
  exists t', tree_update t i l = Ok t' /\ tlen t' = tlen t /\ get_leaf t' i = Ok (Some l) /\
    (forall x, on_path d i x -> tget t' x = None) /\
    (forall x, x <> 2 * i -> ~ on_path d i x -> tget t' x = tget t x).
Proof. exact c17. Qed.
Print Assumptions C17_update.

Example C17_example : tsized ex_tree 2 /\ tget ex_tree 1 <> None /\ exists t', tree_update ex_tree 1 (ex_leaf x09) = Ok t' /\ tget t' 1 = None.
Proof. split; [left; reflexivity|]. split; [discriminate|]. eexists. split; reflexivity. Qed.

(* ------------------------------------------------------------------------------------------- *)
(** * C18 *)

(** The three cases at the end: nobody is left; the array is cut to the half (of half ...) that holds every remaining
    member, and no smaller one would, since member [m] is in the upper half of it; or nothing can be cut off. *)
Theorem C18_remove : forall t d i, tsized t d -> tlen t < 4294967296 -> i < 2 ^ d ->
  exists t', tree_remove t i = Ok t' /\ blank_at t' i /\
    (forall x, on_path d i x -> tget t' x = None) /\
    (forall j, j <> i -> leaf_at t' j = leaf_at t j) /\
    (forall x, x < tlen t' -> x <> 2 * i -> ~ on_path d i x -> tget t' x = tget t x) /\
    ( (t' = [] /\ forall j, j < 2 ^ d -> j <> i -> blank_at t j)
      \/ (exists e m, e < d /\ cut_size t' e /\ (forall j, j < 2 ^ d -> j <> i -> ~ blank_at t j -> j < 2 ^ e) /\
                      m <> i /\ ~ blank_at t m /\ (e = 0 \/ 2 ^ e <= 2 * m))
      \/ (tlen t' = tlen t /\ exists m, m <> i /\ ~ blank_at t m /\ 2 ^ d <= 2 * m) ).
Proof. exact c18. Qed.
Print Assumptions C18_remove.

Example C18_example : tsized ex_three 2 /\ tree_remove ex_three 2 = Ok ex_cut /\ cut_size ex_cut 1 /\
  exists t', tree_remove ex_three 0 = Ok t' /\ tlen t' = 7.
Proof. split; [left; reflexivity|]. split; [reflexivity|]. split; [reflexivity|]. eexists. split; reflexivity. Qed.

(* ------------------------------------------------------------------------------------------- *)
(** * C19 *)

Theorem C19_refuted : exists t d i t', full_size t d /\ good t d /\ tree_remove t i = Ok t' /\ forall k, tlen t' <> 2 ^ k - 1.
Proof. exact c19_refuted. Qed.
Print Assumptions C19_refuted.

(** [add] and [remove]: C15, C18. The other operations keep the length, also when they fail. *)
Theorem C19_length_kept : forall P cs t d, tsized t d -> tlen t < 4294967296 -> small_unmerged t ->
  (forall i l t', tree_update t i l = Ok t' -> tlen t' = tlen t) /\
  (forall i u t' r, merge_update_path P cs t i u = (t', r) -> tlen t' = tlen t).
Proof. exact c19_length. Qed.
Print Assumptions C19_length_kept.

(** After every history the length is 0, 2^(d+1)-1 or 2^(d+1). *)
Theorem C19_length_of_history : forall P cs t d t', shaped t d -> tree_history P cs t t' -> t' = [] \/ exists d', tsized t' d'.
Proof. exact c19_history. Qed.
Print Assumptions C19_length_of_history.

Example C19_example : good ex_tree 2 /\ tree_history toy Suite1 ex_one ex_cut /\ tlen ex_cut = 4.
Proof. exact (conj ex_tree_good (conj ex_cut_history eq_refl)). Qed.

(* ------------------------------------------------------------------------------------------- *)
(** * C20 *)

Theorem C20_removes : forall t d l s, shaped t d -> NoDup l -> (forall i, In i l -> ~ blank_at t i) ->
  exists t', tree_apply t (map (fun i => PRemove (MkRemove i)) l) s = Ok t' /\
    forall j, leaf_at t' j = if in_dec N.eq_dec j l then None else leaf_at t j.
Proof. exact c20. Qed.
Print Assumptions C20_removes.

Theorem C20_any_order : forall t d l l' s, good t d -> NoDup l -> (forall i, In i l -> ~ blank_at t i) -> Permutation l l' ->
  tree_apply t (map (fun i => PRemove (MkRemove i)) l) s = tree_apply t (map (fun i => PRemove (MkRemove i)) l') s.
Proof. exact c20_perm. Qed.
Print Assumptions C20_any_order.

Example C20_example : good ex_tree 2 /\ ~ blank_at ex_tree 2 /\ ~ blank_at ex_tree 1 /\
  exists t', tree_apply ex_tree (map (fun i => PRemove (MkRemove i)) [2; 1]) [] = Ok t' /\ leaf_at t' 0 = Some (ex_leaf x01) /\ tlen t' = 2.
Proof. split; [exact ex_tree_good|]. split; [discriminate|]. split; [discriminate|]. eexists. repeat split; reflexivity. Qed.

(* ------------------------------------------------------------------------------------------- *)
(** * C21 *)

(** [resolution] is the definition of RFC 9420 section 4.1.1 (SpecRatchet.v). A member below the node is in the
    resolution itself or below a node of it at which it is not unmerged. *)
Theorem C21_resolution : forall t d k j, good t d -> k <= d -> j < 2 ^ (d - k) ->
  exists r, resolve t (node_at k j) = Ok r /\ r = resolution t (N.to_nat k) j /\ NoDup r /\
    (forall x, In x r -> tget t x <> None) /\
    (forall i, covers k j i -> ~ blank_at t i ->
       In (2 * i) r \/ exists k' j' p, In (node_at k' j') r /\ tget t (node_at k' j') = Some (Parent p) /\ covers k' j' i /\ ~ In i (pn_unmerged p)).
Proof. exact c21. Qed.
Print Assumptions C21_resolution.

(** The first part on every tree whose unmerged leaves are below 2^31, well-formed or not. *)
Theorem C21_resolution_any_tree : forall t k j, small_unmerged t -> k <= 31 -> resolve t (node_at k j) = Ok (resolution t (N.to_nat k) j).
Proof. exact resolve_ok. Qed.
Print Assumptions C21_resolution_any_tree.

Example C21_example : good ex_tree 2 /\ resolve ex_tree 3 = Ok [1; 2; 4].
Proof. exact (conj ex_tree_good eq_refl). Qed.

(* ------------------------------------------------------------------------------------------- *)
(** * C22 *)

Theorem C22_unmerged : forall P cs t d t', good t d -> tree_history P cs t t' -> unmerged_ok t'.
Proof. exact c22. Qed.
Print Assumptions C22_unmerged.

(** More: every history of a well-formed tree leads to a well-formed one, or to the empty tree. *)
Theorem C22_well_formed : forall P cs t d t', good t d -> tree_history P cs t t' -> t' = [] \/ exists d', good t' d'.
Proof. exact history_good. Qed.
Print Assumptions C22_well_formed.

(** A one-member tree is well-formed, and [ex_tree] has an unmerged leaf and blank nodes. *)
Example C22_example : good ex_one 0 /\ good ex_tree 2 /\ tree_history toy Suite1 ex_two ex_merged.
Proof. exact (conj (good_single (ex_leaf x01)) (conj ex_tree_good ex_merged_history)). Qed.

(* ------------------------------------------------------------------------------------------- *)
(** * C25, C26 *)

(** [merged] is the effect of an update path (SpecRatchet.v); the merge succeeds exactly when it can be had. *)
Theorem C25_merge : forall P cs t d i u t', shaped t d -> i < 2 ^ d ->
  merge_update_path P cs t i u = (t', Ok tt) <-> merged P cs t d i u t'.
Proof. exact c25. Qed.
Print Assumptions C25_merge.

Theorem C26_parent_hashes : forall P cs t d i u t', shaped t d -> merge_update_path P cs t i u = (t', Ok tt) ->
  exists fp ph, filtered_direct_path t (2 * i) = Ok fp /\ leaf_at t' i = Some (up_leaf u) /\
    lp_source (ln_payload (up_leaf u)) = LSCommit ph /\ hash_chain P cs t' i ph fp.
Proof. exact c26. Qed.
Print Assumptions C26_parent_hashes.

Example C25_example : good ex_two 1 /\ merge_update_path toy Suite1 ex_two 0 ex_path = (ex_merged, Ok tt).
Proof. exact (conj ex_two_good ex_merge). Qed.

(* ------------------------------------------------------------------------------------------- *)
(** * C27, C28 *)

Theorem C27_refuted : exists P cs t i u t' e, good t 2 /\ i < 2 ^ 2 /\ merge_update_path P cs t i u = (t', Err e) /\ t' <> t.
Proof. exact c27_refuted. Qed.
Print Assumptions C27_refuted.

(** What a failed merge can change: nodes of the sender's direct path only. *)
Theorem C27_failed_merge_partial : forall P cs t d i u t' r, shaped t d -> merge_update_path P cs t i u = (t', r) -> r <> Ok tt ->
  tlen t' = tlen t /\ forall x, ~ on_path d i x -> tget t' x = tget t x.
Proof. exact c27. Qed.
Print Assumptions C27_failed_merge_partial.

Theorem C28_refuted : forall P cs t d i u, good t d -> i < 2 ^ d -> (forall j, j <> i -> blank_at t j) ->
  exists t', merge_update_path P cs t i u =
    (t', Err (if Nat.eqb (length (up_nodes u)) 0 then ParentHashMismatchForUpdatePathLeafNode
              else UpdatePathAndFilteredDirectPathHasDifferentNode)).
Proof. exact merge_alone. Qed.
Print Assumptions C28_refuted.

Example C28_example : good ex_one 0 /\ (forall j, j <> 0 -> blank_at ex_one j).
Proof. exact (conj (good_single (ex_leaf x01)) (fun j H => ex_one_blank j H)). Qed.

(* ------------------------------------------------------------------------------------------- *)
(** * C29 *)

(** [s] gives the sender of each proposal. *)
Theorem C29_by_kind : forall t ps s, (length ps <= length s)%nat ->
  tree_apply t ps s = (let* t := do_updates t (updates_of (combine ps s)) in let* t := do_removes t (removes_of ps) in do_adds t (adds_of ps)).
Proof. exact apply_by_kind. Qed.
Print Assumptions C29_by_kind.

Theorem C29_same_kinds : forall t ps s ps' s', (length ps <= length s)%nat -> (length ps' <= length s')%nat ->
  updates_of (combine ps s) = updates_of (combine ps' s') -> removes_of ps = removes_of ps' -> adds_of ps = adds_of ps' ->
  tree_apply t ps s = tree_apply t ps' s'.
Proof. exact apply_same_kinds. Qed.
Print Assumptions C29_same_kinds.

Example C29_example : tree_apply ex_three [PAdd (MkAdd (ex_kp x41)); PPreSharedKey (MkPskProposal ex_psk); PRemove (MkRemove 1)] [0; 0; 0]
  = Ok [Some (Leaf (ex_leaf x01)); None; Some (Leaf (ex_leaf x41)); None; Some (Leaf (ex_leaf x03)); None; None].
Proof. reflexivity. Qed.

(* ------------------------------------------------------------------------------------------- *)
(** * C30 *)

Theorem C30_filtered_path : forall t d x, shaped t d -> in_tree d x ->
  exists path co rs, direct_path (2 ^ d) x = Ok path /\ copath (2 ^ d) x = Ok co /\ Forall2 (fun s r => resolve t s = Ok r) co rs /\
    filtered_direct_path t x = Ok (map fst (filter (fun pr : N * list N => negb (Nat.eqb (length (snd pr)) 0)) (combine path rs))).
Proof. exact c30. Qed.
Print Assumptions C30_filtered_path.

Example C30_example : good ex_tree 2 /\ direct_path 4 4 = Ok [5; 3] /\ copath 4 4 = Ok [6; 1] /\ filtered_direct_path ex_tree 4 = Ok [3].
Proof. exact (conj ex_tree_good (conj eq_refl (conj eq_refl eq_refl))). Qed.
