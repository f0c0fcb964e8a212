(** Refinement of the bit-level tree arithmetic to the arithmetic specification. *)
From Verif Require Export TreeMath SpecTree CodecLib.
From Coq Require Import ZifyBool ZifyNat ZifyN.
Local Open Scope N_scope.
Arguments N.testbit : simpl never.
Arguments N.log2 : simpl never.
Arguments N.shiftl : simpl never.
Arguments N.shiftr : simpl never.
Arguments N.land : simpl never.
Arguments N.lor : simpl never.
Arguments N.lxor : simpl never.
Arguments N.ltb : simpl never.
Arguments N.leb : simpl never.
Arguments N.eqb : simpl never.

Lemma pow2_pos k : 0 < 2 ^ k.
Proof. apply N.neq_0_lt_0, N.pow_nonzero. lia. Qed.
Lemma pow2_S k : 2 ^ (k + 1) = 2 * 2 ^ k.
Proof. rewrite N.pow_add_r. change (2 ^ 1) with 2. lia. Qed.
Lemma pow2_mono a b : a <= b -> 2 ^ a <= 2 ^ b.
Proof. intros. apply N.pow_le_mono_r; lia. Qed.
Lemma pow2_lt a b : a < b -> 2 ^ a < 2 ^ b.
Proof. intros. apply N.pow_lt_mono_r; lia. Qed.
Lemma pow2_lt_inv a b : 2 ^ a < 2 ^ b -> a < b.
Proof. intros. apply (N.pow_lt_mono_r_iff 2); lia. Qed.
Lemma pow2_le_inv a b : 2 ^ a <= 2 ^ b -> a <= b.
Proof. intros. apply (N.pow_le_mono_r_iff 2); lia. Qed.

(** ** Layout *)

Lemma node_at_S k j : node_at k j + 1 = (2 * j + 1) * 2 ^ k.
Proof. unfold node_at. pose proof (pow2_pos k). rewrite pow2_S. nia. Qed.

Lemma node_at_leaf j : node_at 0 j = 2 * j.
Proof. unfold node_at. cbn. lia. Qed.

Lemma node_decomp x : exists k j, x = node_at k j.
Proof.
  assert (H : forall y, 0 < y -> exists k j, y = (2 * j + 1) * 2 ^ k).
  { intros y. induction y as [y IH] using (well_founded_induction N.lt_wf_0). intros Hy.
    destruct (N.even y) eqn:E.
    - apply N.even_spec in E as [z E]. destruct (IH z) as (k & j & Hz); [lia|lia|].
      exists (k + 1), j. rewrite pow2_S. lia.
    - rewrite <- N.negb_odd in E. apply Bool.negb_false_iff, N.odd_spec in E as [z E]. exists 0, z. cbn. lia. }
  destruct (H (x + 1)) as (k & j & E); [lia|]. exists k, j. pose proof (node_at_S k j). lia.
Qed.

Lemma odd_pow_inj j k j' k' : (2 * j + 1) * 2 ^ k = (2 * j' + 1) * 2 ^ k' -> k = k' /\ j = j'.
Proof.
  revert j k j' k'.
  assert (G : forall j k j' k', k <= k' -> (2 * j + 1) * 2 ^ k = (2 * j' + 1) * 2 ^ k' -> k = k' /\ j = j').
  { intros j k j' k' L E. replace k' with (k + (k' - k)) in E |- * by lia. set (e := k' - k) in *. clearbody e.
    rewrite N.pow_add_r in E. pose proof (pow2_pos k) as P. pose proof (pow2_pos e) as Q.
    assert (E' : 2 * j + 1 = (2 * j' + 1) * 2 ^ e) by nia.
    destruct (N.eq_dec e 0) as [->|Ne]; [cbn in E'; lia|].
    exfalso. replace e with ((e - 1) + 1) in E' by lia. rewrite pow2_S in E'. lia. }
  intros j k j' k' E. destruct (N.le_ge_cases k k') as [L|L]; [apply G; auto|].
  symmetry in E. apply G in E as [-> ->]; auto.
Qed.
Lemma node_at_inj k j k' j' : node_at k j = node_at k' j' -> k = k' /\ j = j'.
Proof. intros E. apply odd_pow_inj. rewrite <- !node_at_S. lia. Qed.

Lemma in_tree_iff d k j : in_tree d (node_at k j) <-> k <= d /\ j < 2 ^ (d - k).
Proof.
  unfold in_tree. pose proof (node_at_S k j) as S. pose proof (pow2_pos k) as P. pose proof (pow2_pos (d + 1)) as Q.
  split.
  - intros H. assert (K : (2 * j + 1) * 2 ^ k < 2 ^ (d + 1)) by lia.
    assert (L : k < d + 1). { apply pow2_lt_inv. nia. }
    split; [lia|]. replace (d + 1) with (k + (d - k) + 1) in K by lia.
    rewrite pow2_S, N.pow_add_r in K. nia.
  - intros [L H]. assert (K : (2 * j + 1) * 2 ^ k < 2 ^ (d + 1)); [|lia].
    replace (d + 1) with (k + (d - k) + 1) by lia. rewrite pow2_S, N.pow_add_r. nia.
Qed.

Lemma node_at_root d : node_at d 0 = 2 ^ d - 1.
Proof. unfold node_at. lia. Qed.

Lemma testbit_node k j i :
  N.testbit (node_at k j) i = if i <? k then true else if i =? k then false else N.testbit j (i - k - 1).
Proof.
  assert (E : node_at k j = N.lor (N.shiftl j (k + 1)) (N.ones k)).
  { rewrite lor_add_pow.
    - unfold node_at. rewrite N.ones_equiv. pose proof (pow2_pos k). lia.
    - rewrite N.ones_equiv, pow2_S. pose proof (pow2_pos k). lia. }
  rewrite E, N.lor_spec. destruct (N.ltb_spec i k).
  - rewrite N.ones_spec_low by lia. apply Bool.orb_true_r.
  - rewrite N.ones_spec_high by lia. rewrite Bool.orb_false_r. destruct (N.eqb_spec i k).
    + rewrite N.shiftl_spec_low by lia. reflexivity.
    + rewrite N.shiftl_spec_high' by lia. f_equal. lia.
Qed.

(** ** level *)

Lemma land1_testbit x : N.land x 1 = N.b2n (N.testbit x 0).
Proof. change 1 with (N.ones 1). rewrite N.land_ones, N.bit0_odd. change (2 ^ 1) with 2. rewrite <- N.bit0_mod, N.bit0_odd. reflexivity. Qed.
Lemma land_shift_testbit x i : N.land (N.shiftr x i) 1 = N.b2n (N.testbit x i).
Proof. rewrite land1_testbit, N.shiftr_spec by lia. f_equal. Qed.

Lemma level_loop_ok fuel : forall k j i, k < 32 -> i <= k -> k - i <= N.of_nat fuel ->
  level_loop fuel (node_at k j) i = Ok k.
Proof.
  induction fuel as [|fuel IH]; intros k j i Hk Hi Hf; cbn [level_loop]; unfold shr32;
    (destruct (N.leb_spec 32 i); [lia|]); cbn [bind];
    rewrite land_shift_testbit, testbit_node.
  - assert (i = k) by lia. subst. destruct (N.ltb_spec k k); [lia|]. rewrite N.eqb_refl. reflexivity.
  - destruct (N.ltb_spec i k).
    + cbn [N.b2n]. change (1 =? 1) with true. cbn iota. unfold add32, u32_max.
      destruct (N.leb_spec (i + 1) 4294967295); [|lia]. cbn [bind]. apply IH; lia.
    + assert (i = k) by lia. subst. rewrite N.eqb_refl. reflexivity.
Qed.
Lemma level_node k j : k < 32 -> level (node_at k j) = Ok k.
Proof.
  intros Hk. unfold level. rewrite land1_testbit, testbit_node. destruct (N.ltb_spec 0 k).
  - cbn [N.b2n]. change (1 =? 0) with false. cbn iota. apply level_loop_ok; lia.
  - assert (k = 0) by lia. subst. reflexivity.
Qed.
Lemma level_loop_panic fuel : forall k j i, 32 <= k -> i <= 32 -> 32 - i <= N.of_nat fuel ->
  level_loop fuel (node_at k j) i = Panic.
Proof.
  induction fuel as [|fuel IH]; intros k j i Hk Hi Hf; cbn [level_loop]; unfold shr32.
  - destruct (N.leb_spec 32 i); [|lia]. reflexivity.
  - destruct (N.leb_spec 32 i); [reflexivity|]. cbn [bind]. rewrite land_shift_testbit, testbit_node.
    destruct (N.ltb_spec i k); [|lia]. cbn [N.b2n]. change (1 =? 1) with true. cbn iota. unfold add32, u32_max.
    destruct (N.leb_spec (i + 1) 4294967295); [|lia]. cbn [bind]. apply IH; lia.
Qed.
Lemma level_panics k j : 32 <= k -> level (node_at k j) = Panic.
Proof.
  intros Hk. unfold level. rewrite land1_testbit, testbit_node. destruct (N.ltb_spec 0 k); [|lia].
  cbn [N.b2n]. change (1 =? 0) with false. cbn iota. apply level_loop_panic; lia.
Qed.

Lemma u32_level k j : node_at k j < 4294967295 -> k < 32.
Proof.
  intros H. pose proof (node_at_S k j) as S. pose proof (pow2_pos k). change 4294967295 with (2 ^ 32 - 1) in H.
  apply pow2_lt_inv. nia.
Qed.

(** ** children, parent *)

Lemma bits_below n b i : n < 2 ^ b -> b <= i -> N.testbit n i = false.
Proof.
  intros H L. destruct (N.eq_dec n 0) as [->|N0]; [apply N.bits_0|].
  apply N.bits_above_log2. apply N.log2_lt_pow2; [lia|]. eapply N.lt_le_trans; [exact H|]. apply pow2_mono, L.
Qed.
Lemma testbit_shift1 s i : N.testbit (N.shiftl 1 s) i = (i =? s).
Proof. rewrite N.shiftl_1_l. apply N.pow2_bits_eqb || (rewrite N.pow2_bits_eqb; apply N.eqb_sym). Qed.

Lemma shl32_small a s : s < 32 -> N.shiftl a s < 4294967296 -> shl32 a s = Ok (N.shiftl a s).
Proof. intros Hs H. unfold shl32. destruct (N.leb_spec 32 s); [lia|]. rewrite N.mod_small by exact H. reflexivity. Qed.

Lemma left_node k j : k < 31 -> left (node_at (k + 1) j) = Ok (Some (node_at k (2 * j))).
Proof.
  intros Hk. unfold left. rewrite level_node by lia. cbn [bind]. destruct (N.eqb_spec (k + 1) 0); [lia|].
  unfold sub32. destruct (N.ltb_spec (k + 1) 1); [lia|]. cbn [bind]. replace (k + 1 - 1) with k by lia.
  rewrite shl32_small; [|lia|].
  - cbn [bind]. do 2 f_equal. apply N.bits_inj. intros i. rewrite N.lxor_spec, testbit_shift1, !testbit_node.
    destruct (N.ltb_spec i (k + 1)), (N.ltb_spec i k), (N.eqb_spec i k), (N.eqb_spec i (k + 1)); try lia; try reflexivity.
    + subst. replace (k + 1 - k - 1) with 0 by lia. rewrite N.testbit_even_0. reflexivity.
    + rewrite Bool.xorb_false_r. replace (i - k - 1) with (N.succ (i - (k + 1) - 1)) by lia.
      rewrite N.testbit_even_succ by lia. reflexivity.
  - rewrite N.shiftl_1_l. change 4294967296 with (2 ^ 32). apply pow2_lt. lia.
Qed.
Lemma testbit_3 i : N.testbit 3 i = (i <? 2).
Proof.
  destruct (N.ltb_spec i 2).
  - assert (i = 0 \/ i = 1) as [->| ->] by lia; reflexivity.
  - apply (bits_below 3 2); [reflexivity|exact H].
Qed.
Lemma right_node k j : k < 31 -> right (node_at (k + 1) j) = Ok (Some (node_at k (2 * j + 1))).
Proof.
  intros Hk. unfold right. rewrite level_node by lia. cbn [bind]. destruct (N.eqb_spec (k + 1) 0); [lia|].
  unfold sub32. destruct (N.ltb_spec (k + 1) 1); [lia|]. cbn [bind]. replace (k + 1 - 1) with k by lia.
  rewrite shl32_small; [|lia|].
  - cbn [bind]. do 2 f_equal. apply N.bits_inj. intros i. rewrite N.lxor_spec, !testbit_node.
    destruct (N.ltb_spec i k).
    + rewrite N.shiftl_spec_low by lia. destruct (N.ltb_spec i (k + 1)); [reflexivity|lia].
    + rewrite N.shiftl_spec_high', testbit_3 by lia.
      destruct (N.ltb_spec i (k + 1)), (N.eqb_spec i (k + 1)), (N.eqb_spec i k), (N.ltb_spec (i - k) 2);
        try lia; try reflexivity.
      * subst. replace (k + 1 - k - 1) with 0 by lia. rewrite N.testbit_odd_0. reflexivity.
      * rewrite Bool.xorb_false_r. replace (i - k - 1) with (N.succ (i - (k + 1) - 1)) by lia.
        rewrite N.testbit_odd_succ by lia. reflexivity.
  - rewrite N.shiftl_mul_pow2. assert (2 ^ k <= 2 ^ 30) by (apply pow2_mono; lia). change (2 ^ 30) with 1073741824 in *. lia.
Qed.
Lemma left_leaf j : left (node_at 0 j) = Ok None.
Proof. unfold left. rewrite level_node by lia. reflexivity. Qed.
Lemma right_leaf j : right (node_at 0 j) = Ok None.
Proof. unfold right. rewrite level_node by lia. reflexivity. Qed.
Lemma children_leaf j : children (node_at 0 j) = Ok None.
Proof. unfold children. rewrite left_leaf. reflexivity. Qed.
Lemma children_node k j : k < 31 -> children (node_at (k + 1) j) = Ok (Some (node_at k (2 * j), node_at k (2 * j + 1))).
Proof. intros H. unfold children. rewrite left_node, right_node by exact H. reflexivity. Qed.

(** ** root *)

Lemma width_ok n : 0 < n -> n <= 2147483648 -> width n = Ok (2 * n - 1).
Proof.
  intros H L. unfold width. destruct (N.eqb_spec n 0); [lia|]. unfold sub32, mul32, add32, u32_max.
  destruct (N.ltb_spec n 1); [lia|]. cbn [bind]. destruct (N.leb_spec (2 * (n - 1)) 4294967295); [|lia]. cbn [bind].
  destruct (N.leb_spec (2 * (n - 1) + 1) 4294967295); [|lia]. f_equal. lia.
Qed.
Lemma depth_pow2 d : depth (2 ^ d) = d.
Proof.
  unfold depth. pose proof (pow2_pos d). rewrite (N.log2_unique _ d); [reflexivity|lia|].
  rewrite N.pow_succ_r'. lia.
Qed.
Lemma depth_lt n : 0 < n -> n <= 2147483648 -> depth n <= 31.
Proof.
  intros H L. unfold depth. assert (N.log2 (2 * n - 1) < 32); [|lia].
  apply N.log2_lt_pow2; [lia|]. change (2 ^ 32) with 4294967296. lia.
Qed.
(** The smallest complete tree with at least [n] leaves. *)
Lemma depth_bounds n : 0 < n -> n <= 2 ^ depth n /\ 2 ^ depth n <= 2 * n - 1.
Proof.
  intros H. unfold depth. destruct (N.log2_spec (2 * n - 1)) as [A B]; [lia|]. rewrite N.pow_succ_r' in B. lia.
Qed.
Lemma root_ok n : 0 < n -> n <= 2147483648 -> root n = Ok (2 ^ depth n - 1).
Proof.
  intros H L. unfold root. rewrite width_ok by assumption. cbn [bind]. unfold ilog2.
  destruct (N.eqb_spec (2 * n - 1) 0); [lia|]. cbn [bind]. pose proof (depth_lt n H L) as D. fold (depth n).
  rewrite shl32_small; [|lia|].
  - cbn [bind]. unfold sub32. rewrite N.shiftl_1_l. pose proof (pow2_pos (depth n)).
    destruct (N.ltb_spec (2 ^ depth n) 1); [lia|]. reflexivity.
  - rewrite N.shiftl_1_l. change 4294967296 with (2 ^ 32). apply pow2_lt. lia.
Qed.
Lemma root_0 : root 0 = Panic. Proof. reflexivity. Qed.

(** ** parent *)

Definition step_up k j := node_at (k + 1) (j / 2).
Lemma parent_root n : 0 < n -> n <= 2147483648 -> parent n (node_at (depth n) 0) = Ok None.
Proof. intros H L. unfold parent. rewrite root_ok by assumption. cbn [bind]. rewrite node_at_root, N.eqb_refl. reflexivity. Qed.

Lemma parent_node_gen n k j : 0 < n -> n <= 2147483648 -> k < 31 -> ~ (k = depth n /\ j = 0) ->
  parent n (node_at k j) = Ok (Some (step_up k j)).
Proof.
  intros Hn Ln Hk Hr. unfold parent. rewrite root_ok by assumption. cbn [bind]. rewrite <- node_at_root.
  destruct (N.eqb_spec (node_at k j) (node_at (depth n) 0)) as [E|_].
  { apply node_at_inj in E. contradiction. }
  rewrite level_node by lia. cbn [bind]. unfold add32, u32_max. destruct (N.leb_spec (k + 1) 4294967295); [|lia].
  cbn [bind]. unfold shr32. destruct (N.leb_spec 32 (k + 1)); [lia|]. cbn [bind].
  rewrite land_shift_testbit, testbit_node. destruct (N.ltb_spec (k + 1) k); [lia|].
  destruct (N.eqb_spec (k + 1) k); [lia|]. replace (k + 1 - k - 1) with 0 by lia.
  rewrite shl32_small; [cbn [bind]|lia|rewrite N.shiftl_1_l; change 4294967296 with (2 ^ 32); apply pow2_lt; lia].
  rewrite shl32_small; [cbn [bind]|lia|].
  - do 2 f_equal. unfold step_up. apply N.bits_inj. intros i.
    rewrite N.lxor_spec, N.lor_spec, testbit_shift1, !testbit_node.
    assert (B : N.testbit (N.shiftl (N.b2n (N.testbit j 0)) (k + 1)) i = (i =? k + 1) && N.testbit j 0).
    { destruct (N.testbit j 0); cbn [N.b2n].
      - rewrite testbit_shift1, Bool.andb_true_r. reflexivity.
      - rewrite N.shiftl_0_l, N.bits_0, Bool.andb_false_r. reflexivity. }
    rewrite B.
    destruct (N.ltb_spec i k), (N.eqb_spec i k), (N.eqb_spec i (k + 1)), (N.ltb_spec i (k + 1)); try lia; try reflexivity.
    + subst. replace (k + 1 - k - 1) with 0 by lia. destruct (N.testbit j 0); reflexivity.
    + cbn [andb orb]. rewrite Bool.xorb_false_r, Bool.orb_false_r. rewrite <- N.div2_div, N.div2_spec, N.shiftr_spec by lia.
      f_equal. lia.
  - destruct (N.testbit j 0); cbn [N.b2n]; [rewrite N.shiftl_1_l; change 4294967296 with (2 ^ 32); apply pow2_lt; lia|].
    rewrite N.shiftl_0_l. lia.
Qed.

(** Climbing from the node at level 31 (only node 2^31-1) or from 2^32-1 overflows. *)
Lemma parent_top n j : 0 < n -> n <= 2147483648 -> ~ (31 = depth n /\ j = 0) -> parent n (node_at 31 j) = Panic.
Proof.
  intros Hn Ln Hr. unfold parent. rewrite root_ok by assumption. cbn [bind]. rewrite <- node_at_root.
  destruct (N.eqb_spec (node_at 31 j) (node_at (depth n) 0)) as [E|_].
  { apply node_at_inj in E. exfalso. apply Hr. exact E. }
  rewrite level_node by lia. reflexivity.
Qed.
Lemma parent_max n k j : 0 < n -> n <= 2147483648 -> 32 <= k -> parent n (node_at k j) = Panic.
Proof.
  intros Hn Ln Hk. unfold parent. rewrite root_ok by assumption. cbn [bind]. rewrite <- node_at_root.
  pose proof (depth_lt n Hn Ln).
  destruct (N.eqb_spec (node_at k j) (node_at (depth n) 0)) as [E|_].
  { apply node_at_inj in E. lia. }
  rewrite level_panics by lia. reflexivity.
Qed.

(** In the tree. *)
Lemma parent_in n k j : 0 < n -> n <= 2147483648 -> k < depth n ->
  parent n (node_at k j) = Ok (Some (step_up k j)).
Proof. intros Hn Ln Hk. pose proof (depth_lt n Hn Ln). apply parent_node_gen; auto; lia. Qed.

Lemma step_up_in d k j : k < d -> j < 2 ^ (d - k) -> k + 1 <= d /\ j / 2 < 2 ^ (d - (k + 1)).
Proof.
  intros Hk Hj. split; [lia|]. replace (d - k) with (d - (k + 1) + 1) in Hj by lia. rewrite pow2_S in Hj.
  apply N.div_lt_upper_bound; lia.
Qed.

Lemma sibling_in n k j : 0 < n -> n <= 2147483648 -> k < depth n ->
  sibling n (node_at k j) = Ok (Some (node_at k (if N.even j then j + 1 else j - 1))).
Proof.
  intros Hn Ln Hk. pose proof (depth_lt n Hn Ln). unfold sibling. rewrite parent_in by assumption. cbn [bind].
  unfold step_up. pose proof (node_at_S k j) as S. pose proof (node_at_S (k + 1) (j / 2)) as S'. rewrite pow2_S in S'.
  pose proof (pow2_pos k) as P. destruct (N.even j) eqn:E.
  - apply N.even_spec in E as [i ->]. replace (2 * i / 2) with i in * by (rewrite N.mul_comm, N.div_mul; lia).
    destruct (N.ltb_spec (node_at k (2 * i)) (node_at (k + 1) i)); [|nia]. rewrite right_node by lia. reflexivity.
  - rewrite <- N.negb_odd in E. apply Bool.negb_false_iff, N.odd_spec in E as [i ->].
    replace ((2 * i + 1) / 2) with i in * by (rewrite (N.mul_comm 2 i), N.div_add_l; cbn; lia).
    destruct (N.ltb_spec (node_at k (2 * i + 1)) (node_at (k + 1) i)); [nia|]. rewrite left_node by lia. do 2 f_equal. f_equal. lia.
Qed.

(** ** Direct path *)

Fixpoint path_up (m : nat) (k j : N) : list N :=
  match m with O => [] | S m => node_at (k + 1) (j / 2) :: path_up m (k + 1) (j / 2) end.

Lemma climb_in n fuel : forall k j, 0 < n -> n <= 2147483648 -> k <= depth n -> j < 2 ^ (depth n - k) ->
  depth n - k <= N.of_nat fuel -> climb fuel n (node_at k j) = Ok (path_up (N.to_nat (depth n - k)) k j).
Proof.
  induction fuel as [|fuel IH]; intros k j Hn Ln Hk Hj Hf; cbn [climb].
  - assert (E : k = depth n) by lia. rewrite E in Hj |- *. rewrite N.sub_diag in *. change (2 ^ 0) with 1 in Hj.
    assert (j = 0) by lia. subst j. rewrite parent_root by assumption. reflexivity.
  - destruct (N.eq_dec k (depth n)) as [E|E].
    + rewrite E in Hj |- *. rewrite N.sub_diag in *. change (2 ^ 0) with 1 in Hj.
      assert (j = 0) by lia. subst j. rewrite parent_root by assumption. reflexivity.
    + rewrite parent_in by (assumption || lia). cbn [bind]. unfold step_up.
      destruct (step_up_in (depth n) k j) as [A B]; [lia|exact Hj|]. rewrite IH by (assumption || lia). cbn [bind].
      replace (N.to_nat (depth n - k)) with (S (N.to_nat (depth n - (k + 1)))) by lia. reflexivity.
Qed.
Lemma direct_path_in n k j : 0 < n -> n <= 2147483648 -> in_tree (depth n) (node_at k j) ->
  direct_path n (node_at k j) = Ok (path_up (N.to_nat (depth n - k)) k j).
Proof.
  intros Hn Ln Hi. apply in_tree_iff in Hi as [Hk Hj]. unfold direct_path. apply climb_in; auto.
  pose proof (depth_lt n Hn Ln). lia.
Qed.

Lemma climb_out n fuel : forall k j, 0 < n -> n <= 2147483648 -> ~ in_tree (depth n) (node_at k j) ->
  32 - k <= N.of_nat fuel -> climb fuel n (node_at k j) = Panic.
Proof.
  induction fuel as [|fuel IH]; intros k j Hn Ln Ho Hf; cbn [climb].
  - rewrite parent_max by (assumption || lia). reflexivity.
  - assert (Hr : ~ (k = depth n /\ j = 0)).
    { intros [E E']. apply Ho. apply in_tree_iff. rewrite E, N.sub_diag, E'. cbn. lia. }
    destruct (N.lt_ge_cases k 31) as [L|L].
    + rewrite parent_node_gen by assumption. cbn [bind]. unfold step_up. rewrite IH; [reflexivity|auto|auto| |lia].
      intros K. apply Ho. apply in_tree_iff in K as [K1 K2]. apply in_tree_iff. split; [lia|].
      replace (depth n - k) with (depth n - (k + 1) + 1) by lia. rewrite pow2_S.
      assert (D := N.div_mod j 2 ltac:(lia)). pose proof (N.mod_lt j 2 ltac:(lia)). lia.
    + destruct (N.eq_dec k 31) as [->|E].
      * rewrite parent_top; [reflexivity|auto|auto|]. intros [E E']. apply Hr. auto.
      * rewrite parent_max by (assumption || lia). reflexivity.
Qed.
Lemma direct_path_out n x : 0 < n -> n <= 2147483648 -> ~ in_tree (depth n) x -> direct_path n x = Panic.
Proof.
  intros Hn Ln Ho. destruct (node_decomp x) as (k & j & ->). unfold direct_path. apply climb_out; auto. lia.
Qed.

Lemma path_up_length m : forall k j, length (path_up m k j) = m.
Proof. induction m as [|m IH]; intros k j; cbn; auto. Qed.
Lemma path_up_nth m : forall k j i, (i < m)%nat ->
  nth_error (path_up m k j) i = Some (node_at (k + 1 + N.of_nat i) (j / 2 ^ (1 + N.of_nat i))).
Proof.
  induction m as [|m IH]; intros k j i Hi; [lia|]. destruct i as [|i]; cbn [path_up nth_error].
  - change (1 + N.of_nat 0) with 1. change (2 ^ 1) with 2. do 2 f_equal. lia.
  - rewrite IH by lia. do 2 f_equal; [lia|]. rewrite N.div_div by (try apply N.pow_nonzero; lia).
    f_equal. replace (1 + N.of_nat (S i)) with (1 + N.of_nat i + 1) by lia. rewrite pow2_S. lia.
Qed.
Lemma path_up_in m k j x : In x (path_up m k j) <-> exists i, 1 <= i <= N.of_nat m /\ x = node_at (k + i) (j / 2 ^ i).
Proof.
  split.
  - intros H. apply In_nth_error in H as [i H]. assert (L : (i < m)%nat).
    { rewrite <- (path_up_length m k j). apply nth_error_Some. congruence. }
    rewrite path_up_nth in H by exact L. injection H as <-. exists (1 + N.of_nat i). split; [lia|]. f_equal; lia.
  - intros (i & Hi & ->). apply (nth_error_In _ (N.to_nat (i - 1))). rewrite path_up_nth by lia. f_equal. f_equal; [lia|].
    f_equal. f_equal. lia.
Qed.

Lemma covers_div k j i : covers k j i <-> i / 2 ^ k = j.
Proof.
  unfold covers. pose proof (pow2_pos k) as P. split.
  - intros [A B]. symmetry. apply (N.div_unique i (2 ^ k) j (i - j * 2 ^ k)); lia.
  - intros <-. pose proof (N.div_mod i (2 ^ k) ltac:(lia)). pose proof (N.mod_lt i (2 ^ k) ltac:(lia)). nia.
Qed.

(** ** The statements of PropTreeMath.v *)

Lemma pow2_bound d : d <= 31 -> 0 < 2 ^ d /\ 2 ^ d <= 2147483648.
Proof. intros H. split; [apply pow2_pos|]. change 2147483648 with (2 ^ 31). apply pow2_mono, H. Qed.

Ltac d31 := match goal with H : ?d <= 31 |- _ => destruct (pow2_bound d H); pose proof (depth_pow2 d) end.

Lemma tm_root d : d <= 31 -> root (2 ^ d) = Ok (2 ^ d - 1) /\ parent (2 ^ d) (2 ^ d - 1) = Ok None.
Proof.
  intros H. d31. split.
  - rewrite root_ok, depth_pow2 by assumption. reflexivity.
  - rewrite <- (node_at_root d). rewrite <- (depth_pow2 d) at 2. apply parent_root; assumption.
Qed.

Lemma tm_children d x : d <= 31 -> in_tree d x -> N.odd x = true ->
  exists l r k, children x = Ok (Some (l, r)) /\ left x = Ok (Some l) /\ right x = Ok (Some r) /\
    l < x /\ x < r /\ in_tree d l /\ in_tree d r /\
    parent (2 ^ d) l = Ok (Some x) /\ parent (2 ^ d) r = Ok (Some x) /\
    level x = Ok (k + 1) /\ level l = Ok k /\ level r = Ok k.
Proof.
  intros H Hx Ho. d31. destruct (node_decomp x) as (k & j & ->). apply in_tree_iff in Hx as [Hk Hj].
  assert (k <> 0). { intros ->. rewrite node_at_leaf, N.odd_mul in Ho. discriminate. }
  replace k with (k - 1 + 1) in * by lia. set (e := k - 1) in *. clearbody e.
  exists (node_at e (2 * j)), (node_at e (2 * j + 1)), e.
  rewrite children_node, left_node, right_node, !level_node by lia.
  pose proof (node_at_S (e + 1) j) as S. pose proof (node_at_S e (2 * j)) as S1. pose proof (node_at_S e (2 * j + 1)) as S2.
  rewrite pow2_S in S. pose proof (pow2_pos e).
  assert (J : 2 ^ (d - e) = 2 * 2 ^ (d - (e + 1))). { rewrite <- pow2_S. f_equal. lia. }
  rewrite !parent_in by (assumption || lia). unfold step_up.
  replace (2 * j / 2) with j by (rewrite N.mul_comm, N.div_mul; lia).
  replace ((2 * j + 1) / 2) with j by (rewrite (N.mul_comm 2 j), N.div_add_l; cbn; lia).
  repeat match goal with |- _ /\ _ => split end; try reflexivity; try nia.
  - apply in_tree_iff. lia.
  - apply in_tree_iff. lia.
Qed.
Lemma tm_leaf x : x <= 4294967294 -> N.even x = true -> children x = Ok None /\ left x = Ok None /\ right x = Ok None /\ level x = Ok 0.
Proof.
  intros _ H. apply N.even_spec in H as [j ->]. rewrite <- node_at_leaf.
  rewrite children_leaf, left_leaf, right_leaf, level_node by lia. auto.
Qed.
Lemma tm_parent d x : d <= 31 -> in_tree d x -> x <> 2 ^ d - 1 ->
  exists p k, parent (2 ^ d) x = Ok (Some p) /\ in_tree d p /\ level x = Ok k /\ level p = Ok (k + 1) /\
    ((x < p /\ left p = Ok (Some x)) \/ (p < x /\ right p = Ok (Some x))).
Proof.
  intros H Hx Hr. d31. destruct (node_decomp x) as (k & j & ->). apply in_tree_iff in Hx as [Hk Hj].
  assert (L : k < d).
  { destruct (N.eq_dec k d) as [E|E]; [|lia]. exfalso. subst. rewrite N.sub_diag in Hj. change (2 ^ 0) with 1 in Hj.
    apply Hr. replace j with 0 by lia. apply node_at_root. }
  exists (node_at (k + 1) (j / 2)), k. rewrite parent_in by (assumption || lia).
  destruct (step_up_in d k j L Hj). rewrite !level_node by lia.
  repeat match goal with |- _ /\ _ => split end; try reflexivity.
  - apply in_tree_iff. auto.
  - rewrite left_node, right_node by lia.
    pose proof (node_at_S (k + 1) (j / 2)) as S. pose proof (node_at_S k j) as S1. rewrite pow2_S in S. pose proof (pow2_pos k).
    pose proof (N.div_mod j 2 ltac:(lia)) as D. pose proof (N.mod_lt j 2 ltac:(lia)) as M.
    destruct (N.eq_dec (j mod 2) 0) as [E|E].
    + left. split; [nia|]. do 3 f_equal. lia.
    + right. split; [nia|]. do 3 f_equal. lia.
Qed.
Lemma tm_layout k j d : k <= d -> d <= 31 -> j < 2 ^ (d - k) ->
  level (node_at k j) = Ok k /\
  (k < d -> parent (2 ^ d) (node_at k j) = Ok (Some (node_at (k + 1) (j / 2)))) /\
  (0 < k -> left (node_at k j) = Ok (Some (node_at (k - 1) (2 * j))) /\
            right (node_at k j) = Ok (Some (node_at (k - 1) (2 * j + 1)))).
Proof.
  intros Hk H Hj. d31. split; [apply level_node; lia|]. split.
  - intros L. rewrite parent_in by (assumption || lia). reflexivity.
  - intros L. replace k with (k - 1 + 1) at 1 3 by lia. rewrite left_node, right_node by lia. auto.
Qed.
Lemma tm_onto d x : in_tree d x -> exists k j, x = node_at k j /\ k <= d /\ j < 2 ^ (d - k).
Proof. intros H. destruct (node_decomp x) as (k & j & ->). apply in_tree_iff in H. eauto. Qed.
Lemma tm_any_size n d : 0 < n -> n <= 2 ^ d -> 2 ^ d < 2 * n -> d <= 31 ->
  root n = Ok (2 ^ d - 1) /\ forall x, parent n x = parent (2 ^ d) x /\ direct_path n x = direct_path (2 ^ d) x.
Proof.
  intros Hn H1 H2 H. d31. assert (D : depth n = d).
  { unfold depth. apply N.log2_unique; [lia|]. rewrite N.pow_succ_r'. lia. }
  assert (R : root n = root (2 ^ d)). { rewrite !root_ok by lia. rewrite D, depth_pow2. reflexivity. }
  assert (P : forall x, parent n x = parent (2 ^ d) x). { intros x. unfold parent. rewrite R. reflexivity. }
  split; [rewrite R; apply tm_root; assumption|]. intros x. split; [apply P|]. unfold direct_path.
  generalize 33%nat as fuel. intros fuel. revert x. induction fuel as [|fuel IH]; intros x; cbn [climb]; rewrite P.
  - reflexivity.
  - destruct (parent (2 ^ d) x) as [[p|]| | |]; cbn [bind]; auto. rewrite IH. reflexivity.
Qed.
Lemma tm_any_size_copath n d : 0 < n -> n <= 2 ^ d -> 2 ^ d < 2 * n -> d <= 31 ->
  forall x, sibling n x = sibling (2 ^ d) x /\ copath n x = copath (2 ^ d) x.
Proof.
  intros Hn H1 H2 H. destruct (tm_any_size n d Hn H1 H2 H) as [_ T].
  assert (S : forall x, sibling n x = sibling (2 ^ d) x). { intros x. unfold sibling. rewrite (proj1 (T x)). reflexivity. }
  assert (L : forall l, siblings n l = siblings (2 ^ d) l).
  { induction l as [|y l IH]; cbn; [reflexivity|]. rewrite S. destruct (sibling (2 ^ d) y) as [[s|]| | |]; cbn; auto. rewrite IH. reflexivity. }
  intros x. split; [apply S|]. unfold copath. rewrite (proj2 (T x)). destruct (direct_path (2 ^ d) x) as [[|y l]| | |]; cbn [bind]; auto.
Qed.
(** NumLeaves::new inverts NumLeaves::width. *)
Lemma tm_width n : n <= 2147483648 -> exists w, width n = Ok w /\ num_leaves_of_width w = n.
Proof.
  intros H. destruct (N.eq_dec n 0) as [->|E]; [exists 0; split; reflexivity|].
  exists (2 * n - 1). split; [apply width_ok; lia|]. unfold num_leaves_of_width.
  destruct (N.eqb_spec (2 * n - 1) 0); [lia|]. replace (2 * n - 1 - 1) with ((n - 1) * 2) by lia.
  rewrite N.div_mul by lia. lia.
Qed.

(** [path] is the chain of parents of [x]. *)
Fixpoint chain (n x : N) (path : list N) : Prop :=
  match path with
  | [] => parent n x = Ok None
  | p :: r => parent n x = Ok (Some p) /\ chain n p r
  end.
Lemma path_up_chain n m : forall k j, 0 < n -> n <= 2147483648 -> k <= depth n -> j < 2 ^ (depth n - k) ->
  m = N.to_nat (depth n - k) -> chain n (node_at k j) (path_up m k j).
Proof.
  induction m as [|m IH]; intros k j Hn Ln Hk Hj E; cbn.
  - assert (k = depth n) by lia. subst k. rewrite N.sub_diag in Hj. change (2 ^ 0) with 1 in Hj.
    replace j with 0 by lia. apply parent_root; assumption.
  - split; [apply parent_in; assumption || lia|]. destruct (step_up_in (depth n) k j); [lia|assumption|].
    apply IH; auto. lia.
Qed.
Lemma path_up_last m k j : last (path_up m k j) (node_at k j) = node_at (k + N.of_nat m) (j / 2 ^ N.of_nat m).
Proof.
  destruct m as [|m]; [cbn; rewrite N.add_0_r, N.div_1_r; reflexivity|].
  assert (E := path_up_nth (S m) k j m ltac:(lia)).
  assert (L : path_up (S m) k j <> []) by discriminate.
  apply exists_last in L as (l & a & L). rewrite L in E |- *.
  assert (length l = m). { apply (f_equal (@length N)) in L. rewrite path_up_length, app_length in L. cbn in L. lia. }
  rewrite last_last. rewrite nth_error_app2 in E by lia. replace (m - length l)%nat with O in E by lia.
  cbn in E. injection E as ->. f_equal; [lia|]. do 2 f_equal. lia.
Qed.

Lemma tm_direct_path d x : d <= 31 -> in_tree d x ->
  exists path k, direct_path (2 ^ d) x = Ok path /\ level x = Ok k /\ chain (2 ^ d) x path /\
    length path = N.to_nat (d - k) /\ last path x = 2 ^ d - 1 /\ Forall (in_tree d) path.
Proof.
  intros H Hx. d31. destruct (node_decomp x) as (k & j & ->). pose proof Hx as Hx'. apply in_tree_iff in Hx' as [Hk Hj].
  exists (path_up (N.to_nat (d - k)) k j), k. rewrite <- H2 in Hx at 1.
  rewrite direct_path_in, H2 by assumption. rewrite level_node by lia. rewrite path_up_length.
  repeat match goal with |- _ /\ _ => split end; try reflexivity.
  - apply path_up_chain; rewrite ?H2; auto.
  - rewrite path_up_last, N2Nat.id. replace (k + (d - k)) with d by lia. rewrite N.div_small by exact Hj. apply node_at_root.
  - apply Forall_forall. intros y Hy. apply path_up_in in Hy as (i & Hi & ->). apply in_tree_iff. split; [lia|].
    apply N.div_lt_upper_bound; [apply N.pow_nonzero; lia|]. rewrite <- N.pow_add_r. replace (i + (d - (k + i))) with (d - k) by lia.
    exact Hj.
Qed.
Lemma tm_path_nth d k j : d <= 31 -> k <= d -> j < 2 ^ (d - k) -> exists path,
  direct_path (2 ^ d) (node_at k j) = Ok path /\
  forall i, nth_error path (N.to_nat i) = if i <? d - k then Some (node_at (k + i + 1) (j / 2 ^ (i + 1))) else None.
Proof.
  intros H Hk Hj. d31. exists (path_up (N.to_nat (d - k)) k j).
  rewrite direct_path_in; [|auto|auto|rewrite H2; apply in_tree_iff; auto]. rewrite H2. split; [reflexivity|].
  intros i. destruct (N.ltb_spec i (d - k)).
  - rewrite path_up_nth by lia. f_equal. f_equal; [lia|]. do 2 f_equal. lia.
  - apply nth_error_None. rewrite path_up_length. lia.
Qed.
Lemma tm_covers d i k j : d <= 31 -> i < 2 ^ d -> 0 < k -> k <= d -> exists path, direct_path (2 ^ d) (2 * i) = Ok path /\
  (In (node_at k j) path <-> covers k j i).
Proof.
  intros H Hi Hk Hd. d31. rewrite <- node_at_leaf. exists (path_up (N.to_nat d) 0 i).
  rewrite direct_path_in; [|auto|auto|rewrite H2; apply in_tree_iff; rewrite N.sub_0_r; split; [lia|exact Hi]].
  rewrite H2, N.sub_0_r. split; [reflexivity|]. rewrite path_up_in, covers_div. split.
  - intros (m & Hm & E). apply node_at_inj in E as [-> ->]. f_equal.
  - intros <-. exists k. split; [lia|]. f_equal.
Qed.

Lemma tm_sibling d x : d <= 31 -> in_tree d x -> x <> 2 ^ d - 1 ->
  exists s p, sibling (2 ^ d) x = Ok (Some s) /\ parent (2 ^ d) x = Ok (Some p) /\ parent (2 ^ d) s = Ok (Some p) /\
    s <> x /\ in_tree d s /\ sibling (2 ^ d) s = Ok (Some x) /\ children p = Ok (Some (N.min x s, N.max x s)).
Proof.
  intros H Hx Hr. d31. destruct (node_decomp x) as (k & j & ->). apply in_tree_iff in Hx as [Hk Hj].
  assert (L : k < d).
  { destruct (N.eq_dec k d) as [E|E]; [|lia]. exfalso. subst. rewrite N.sub_diag in Hj. change (2 ^ 0) with 1 in Hj.
    apply Hr. replace j with 0 by lia. apply node_at_root. }
  pose proof (pow2_pos k) as P.
  assert (J : 2 ^ (d - k) = 2 * 2 ^ (d - (k + 1))). { rewrite <- pow2_S. f_equal. lia. }
  exists (node_at k (if N.even j then j + 1 else j - 1)), (node_at (k + 1) (j / 2)).
  rewrite !sibling_in, !parent_in by (assumption || lia). rewrite children_node by lia. unfold step_up.
  destruct (N.even j) eqn:E.
  - apply N.even_spec in E as [i ->]. replace (2 * i / 2) with i in * by (rewrite N.mul_comm, N.div_mul; lia).
    replace ((2 * i + 1) / 2) with i in * by (rewrite (N.mul_comm 2 i), N.div_add_l; cbn; lia).
    replace (N.even (2 * i + 1)) with false by (rewrite N.add_1_r, N.even_succ, N.odd_mul; reflexivity).
    pose proof (node_at_S k (2 * i)). pose proof (node_at_S k (2 * i + 1)).
    repeat match goal with |- _ /\ _ => split end; try reflexivity.
    + intros E. apply node_at_inj in E. lia.
    + apply in_tree_iff. split; [lia|]. lia.
    + do 2 f_equal. f_equal. lia.
    + do 3 f_equal; nia.
  - rewrite <- N.negb_odd in E. apply Bool.negb_false_iff, N.odd_spec in E as [i ->].
    replace (2 * i + 1 - 1) with (2 * i) in * by lia.
    replace ((2 * i + 1) / 2) with i in * by (rewrite (N.mul_comm 2 i), N.div_add_l; cbn; lia).
    replace (2 * i / 2) with i in * by (rewrite N.mul_comm, N.div_mul; lia).
    replace (N.even (2 * i)) with true by (rewrite N.even_mul; reflexivity).
    pose proof (node_at_S k (2 * i)). pose proof (node_at_S k (2 * i + 1)).
    repeat match goal with |- _ /\ _ => split end; try reflexivity.
    + intros E. apply node_at_inj in E. lia.
    + apply in_tree_iff. split; [lia|]. lia.
    + do 3 f_equal; nia.
Qed.

Lemma removelast_cons_path m : forall k j x, removelast (x :: path_up (S m) k j) = x :: path_up m k j.
Proof.
  induction m as [|m IH]; intros k j x; [reflexivity|].
  change (path_up (S (S m)) k j) with (node_at (k + 1) (j / 2) :: path_up (S m) (k + 1) (j / 2)).
  change (removelast (x :: ?a :: ?l)) with (x :: removelast (a :: l)). rewrite IH. reflexivity.
Qed.
Lemma Forall2_len {A B} (R : A -> B -> Prop) l l' : Forall2 R l l' -> length l = length l'.
Proof. induction 1; cbn; congruence. Qed.
Lemma Forall2_nth {A B} (R : A -> B -> Prop) l l' : Forall2 R l l' ->
  forall i a b, nth_error l i = Some a -> nth_error l' i = Some b -> R a b.
Proof.
  induction 1 as [|x y l l' H F IH]; intros [|i] a b Ha Hb; try discriminate; [|eauto]. cbn in *. congruence.
Qed.
Lemma siblings_path n m : forall k j, 0 < n -> n <= 2147483648 -> k + N.of_nat m < depth n ->
  exists l, siblings n (node_at k j :: path_up m k j) = Ok l /\
    Forall2 (fun x s => sibling n x = Ok (Some s)) (node_at k j :: path_up m k j) l.
Proof.
  induction m as [|m IH]; intros k j Hn Ln Hm.
  - cbn [path_up siblings]. rewrite sibling_in by (assumption || lia). cbn [bind].
    eexists. split; [reflexivity|]. constructor; [|constructor]. apply sibling_in; assumption || lia.
  - destruct (IH (k + 1) (j / 2) Hn Ln ltac:(lia)) as (l & E & F).
    cbn [path_up]. remember (node_at (k + 1) (j / 2) :: path_up m (k + 1) (j / 2)) as q eqn:Eq.
    cbn [siblings]. rewrite sibling_in by (assumption || lia). cbn [bind]. rewrite E. cbn [bind].
    eexists. split; [reflexivity|]. constructor; [|exact F]. apply sibling_in; assumption || lia.
Qed.
Lemma tm_copath d x : d <= 31 -> in_tree d x ->
  exists path co, direct_path (2 ^ d) x = Ok path /\ copath (2 ^ d) x = Ok co /\ length co = length path /\
    forall i p s, nth_error path i = Some p -> nth_error co i = Some s ->
      exists y, nth_error (x :: path) i = Some y /\ parent (2 ^ d) y = Ok (Some p) /\ sibling (2 ^ d) y = Ok (Some s) /\
        ~ In s (x :: path).
Proof.
  intros H Hx. d31. destruct (tm_onto d x Hx) as (k & j & -> & Hk & Hj).
  exists (path_up (N.to_nat (d - k)) k j).
  assert (E := direct_path_in (2 ^ d) k j H0 H1 ltac:(rewrite H2; exact Hx)). rewrite H2 in E.
  unfold copath. rewrite E. cbn [bind].
  destruct (N.to_nat (d - k)) as [|m] eqn:Em.
  - exists []. cbn. repeat split; auto. intros i p s Hp. destruct i; discriminate.
  - destruct (siblings_path (2 ^ d) m k j H0 H1 ltac:(lia)) as (l & El & F).
    exists l. change (path_up (S m) k j) with (node_at (k + 1) (j / 2) :: path_up m (k + 1) (j / 2)) at 2.
    cbv iota beta. rewrite removelast_cons_path, El.
    assert (Len : length l = S m). { rewrite <- (Forall2_len _ _ _ F). cbn. rewrite path_up_length. reflexivity. }
    split; [reflexivity|]. split; [reflexivity|]. rewrite path_up_length. split; [exact Len|].
    intros i p s Hp Hs. assert (Hi : (i < S m)%nat). { rewrite <- Len. apply nth_error_Some. congruence. }
    assert (Y : nth_error (node_at k j :: path_up m k j) i = Some (node_at (k + N.of_nat i) (j / 2 ^ N.of_nat i)) /\
                nth_error (node_at k j :: path_up (S m) k j) i = Some (node_at (k + N.of_nat i) (j / 2 ^ N.of_nat i))).
    { destruct i as [|i]; cbn [nth_error].
      - rewrite N.add_0_r, N.div_1_r. auto.
      - rewrite !path_up_nth by lia. replace (1 + N.of_nat i) with (N.of_nat (S i)) by lia.
        replace (k + 1 + N.of_nat i) with (k + N.of_nat (S i)) by lia. auto. }
    destruct Y as [Y Y']. eexists. split; [exact Y'|]. rewrite path_up_nth in Hp by lia. injection Hp as <-.
    assert (Sib : sibling (2 ^ d) (node_at (k + N.of_nat i) (j / 2 ^ N.of_nat i)) = Ok (Some s)).
    { exact (Forall2_nth _ _ _ F _ _ _ Y Hs). }
    split; [|split; [exact Sib|]].
    + rewrite parent_in by (assumption || lia). unfold step_up. do 2 f_equal. f_equal; [lia|].
      rewrite N.div_div by (try apply N.pow_nonzero; lia). f_equal. rewrite N.mul_comm, <- N.pow_succ_r'. f_equal. lia.
    + rewrite sibling_in in Sib by (assumption || lia). injection Sib as <-. intros [K|K].
      * apply node_at_inj in K as [K1 K2]. assert (i = O) by lia. subst i. cbn in K2. rewrite N.div_1_r in K2.
        destruct (N.even j) eqn:Ev; [lia|]. destruct (N.eq_dec j 0) as [->|]; [discriminate|lia].
      * apply path_up_in in K as (i' & Hi' & K). apply node_at_inj in K as [K1 K2].
        assert (i' = N.of_nat i) by lia. subst i'. set (q := j / 2 ^ N.of_nat i) in *.
        destruct (N.even q) eqn:Ev; [lia|]. destruct (N.eq_dec q 0) as [->|]; [discriminate|lia].
Qed.

Lemma tm_out n x : 0 < n -> n <= 2147483648 -> (forall d, n <= 2 ^ d -> 2 ^ d < 2 * n -> ~ in_tree d x) ->
  direct_path n x = Panic.
Proof.
  intros Hn Ln H. apply direct_path_out; auto. pose proof (depth_bounds n Hn). apply H; lia.
Qed.
Lemma tm_in_or_out n x : 0 < n -> n <= 2147483648 ->
  (in_tree (depth n) x /\ exists l, direct_path n x = Ok l) \/ (~ in_tree (depth n) x /\ direct_path n x = Panic).
Proof.
  intros Hn Ln. destruct (N.lt_ge_cases x (2 ^ (depth n + 1) - 1)) as [L|L].
  - left. split; [exact L|]. destruct (node_decomp x) as (k & j & ->). eexists. apply direct_path_in; auto.
  - assert (O : ~ in_tree (depth n) x) by (unfold in_tree; lia). right. split; [exact O|]. apply direct_path_out; auto.
Qed.
Lemma tm_out_example : exists n x, 0 < n /\ n <= 2147483648 /\ x < 4294967296 /\ direct_path n x = Panic.
Proof. exists 4, 8. repeat split. lia. Qed.
