(** What the release profile does where the dev profile panics (Profile.v). *)
From Verif Require Import TreeMathProofs TreeOps TreeInv SpecRatchet SpecTree Proposals SpecCalm TreeMore SpecProfile Profile ProfileFacts.
Local Open Scope N_scope.

(** * Leaf indices *)

Lemma r_node_index i : node_index_w release i = Ok (2 * (i mod 2147483648)).
Proof. unfold node_index_w. cbn [release ar_mul]. f_equal. change 4294967296 with (2 * 2147483648). rewrite N.mul_mod_distr_l by lia. reflexivity. Qed.
Lemma half_index i : node_index (i mod 2147483648) = Ok (2 * (i mod 2147483648)).
Proof. apply (node_index_ok 31); [lia|]. change (2 ^ 31) with 2147483648. apply N.mod_lt. lia. Qed.
Lemma r_alias i : node_index_w release i = node_index_w release (i mod 2147483648).
Proof. rewrite !r_node_index, N.mod_mod by lia. reflexivity. Qed.

Lemma r_get_leaf t i : get_leaf_w release t i = get_leaf t (i mod 2147483648).
Proof. unfold get_leaf_w, get_leaf. rewrite r_node_index, half_index. reflexivity. Qed.
Lemma r_update_alias t i l : tree_update_w release t i l = tree_update_w release t (i mod 2147483648) l.
Proof. unfold tree_update_w. rewrite r_alias. reflexivity. Qed.
Lemma r_remove_alias t i : tree_remove_w release t i = tree_remove_w release t (i mod 2147483648).
Proof. unfold tree_remove_w. rewrite r_alias. reflexivity. Qed.
Lemma r_merge_alias P cs t i u : merge_update_path_w release P cs t i u = merge_update_path_w release P cs t (i mod 2147483648) u.
Proof. unfold merge_update_path_w. rewrite r_alias. reflexivity. Qed.

(** * The climb from a node outside the tree never ends *)

Lemma ones_testbit s : s < 32 -> N.testbit 4294967295 s = true.
Proof. intros H. change 4294967295 with (N.ones 32). apply N.ones_spec_low. exact H. Qed.
Lemma r_level_loop_max fuel : forall lvl, level_loop_w release fuel 4294967295 lvl = Hang.
Proof.
  induction fuel as [|fuel IH]; intros lvl; cbn [level_loop_w release ar_shr ar_add bind]; rewrite land_shift_testbit, ones_testbit by (apply N.mod_lt; lia);
    change (N.b2n true =? 1) with true; cbn iota; [reflexivity|apply IH].
Qed.
Lemma r_root n : 0 < n -> n <= 2147483648 -> root_w release n = Ok (node_at (depth n) 0).
Proof. intros H L. destruct (up_root n) as [E| <-]; rewrite dev_root in *; rewrite root_ok, <- node_at_root in * by assumption; [discriminate|reflexivity]. Qed.
Lemma not_root n k j : ~ in_tree (depth n) (node_at k j) -> node_at k j <> node_at (depth n) 0.
Proof. intros H E. apply H. rewrite E. apply in_tree_iff. rewrite N.sub_diag. cbn. lia. Qed.

Lemma r_climb_out n fuel : 0 < n -> n <= 2147483648 -> forall x, x < 4294967296 -> ~ in_tree (depth n) x -> climb_w release fuel n x = Hang.
Proof.
  intros Hn Ln. induction fuel as [|fuel IH]; intros x Hx Ho; cbn [climb_w].
  all: assert (P : parent_w release n x = Hang \/ exists y, parent_w release n x = Ok (Some y) /\ y < 4294967296 /\ ~ in_tree (depth n) y).
  1, 3: destruct (N.eq_dec x 4294967295) as [->|Ne].
  1, 3: left; unfold parent_w; rewrite r_root by assumption; cbn [bind]; destruct (N.eqb_spec 4294967295 (node_at (depth n) 0)) as [E|_];
    [exfalso; apply Ho; rewrite E; apply in_tree_iff; rewrite N.sub_diag; cbn; lia|];
    unfold level_w; change (N.land 4294967295 1 =? 0) with false; cbn iota; rewrite r_level_loop_max; reflexivity.
  1, 2: right; assert (I : in_tree 31 x) by (unfold in_tree; change (2 ^ (31 + 1)) with 4294967296; lia);
    destruct (node_decomp x) as (k & j & ->); apply in_tree_iff in I as [Hk Hj];
    assert (Hr : ~ (k = depth n /\ j = 0)) by (intros [E E']; apply (not_root n k j Ho); rewrite E, E'; reflexivity);
    destruct (N.eq_dec k 31) as [->|Nk].
  1, 3: change (2 ^ (31 - 31)) with 1 in Hj; assert (j = 0) by lia; subst j; exists 4294967294;
    assert (D : depth n <= 30) by (pose proof (depth_lt n Hn Ln); lia);
    (split; [|split; [lia|unfold in_tree; assert (2 ^ (depth n + 1) <= 2 ^ 31) by (apply pow2_mono; lia); change (2 ^ 31) with 2147483648 in *; lia]]);
    unfold parent_w; rewrite r_root by assumption; cbn [bind];
    (destruct (N.eqb_spec (node_at 31 0) (node_at (depth n) 0)) as [E|_]; [apply node_at_inj in E; lia|]);
    change (node_at 31 0) with 2147483647; reflexivity.
  1, 2: exists (step_up k j); destruct (step_up_in 31 k j) as [A B]; [lia|exact Hj|]; split;
    [destruct (up_parent n (node_at k j)) as [E| <-]; rewrite dev_parent in *; rewrite parent_node_gen in * by (assumption || lia); [discriminate|reflexivity]|split;
    [assert (I : in_tree 31 (step_up k j)) by (apply in_tree_iff; split; assumption); unfold in_tree in I; change (2 ^ (31 + 1)) with 4294967296 in I; lia|]];
    intros K; apply Ho; apply in_tree_iff in K as [K1 K2]; apply in_tree_iff; split; [lia|];
    replace (depth n - k) with (depth n - (k + 1) + 1) by lia; rewrite pow2_S;
    assert (D := N.div_mod j 2 ltac:(lia)); pose proof (N.mod_lt j 2 ltac:(lia)); lia.
  - destruct P as [->|(y & -> & _)]; reflexivity.
  - destruct P as [->|(y & -> & Hy & Oy)]; [reflexivity|]. cbn [bind]. rewrite (IH y Hy Oy). reflexivity.
Qed.

(** * The tree operations *)

Lemma shaped_n t d : shaped t d -> 0 < num_leaves t /\ num_leaves t <= 2147483648 /\ depth (num_leaves t) = d.
Proof.
  intros G. pose proof (shaped_usized t d G) as U. rewrite (usized_leaves t d U), depth_pow2. pose proof (usized_31 t d U).
  split; [apply pow2_pos|split; [|reflexivity]]. change 2147483648 with (2 ^ 31). apply pow2_mono. assumption.
Qed.
Lemma r_leaf_out t d i fuel : shaped t d -> 2 ^ d <= i mod 2147483648 -> climb_w release fuel (num_leaves t) (2 * (i mod 2147483648)) = Hang.
Proof.
  intros G H. destruct (shaped_n t d G) as (A & B & C). apply r_climb_out; [exact A|exact B| |rewrite C; apply leaf_out; exact H].
  pose proof (N.mod_lt i 2147483648 ltac:(lia)). lia.
Qed.
Lemma same_up {X} (m m' : res X) : up m m' -> returns m -> m' = m.
Proof. intros [->| ->] R; [destruct R as [[? E]|[? E]]; discriminate|reflexivity]. Qed.
Lemma same_up2 {X Y} (m m' : X * res Y) : up2 m m' -> returns (snd m) -> m' = m.
Proof. intros [E| ->] R; [rewrite E in R; destruct R as [[? K]|[? K]]; discriminate|reflexivity]. Qed.

Lemma c84_remove t d i : shaped t d ->
  (i mod 2147483648 < 2 ^ d -> exists t', tree_remove_w release t i = Ok t' /\ tree_remove t (i mod 2147483648) = Ok t') /\
  (2 ^ d <= i mod 2147483648 -> tree_remove_w release t i = Hang).
Proof.
  intros G. split; intros H.
  - destruct (remove_cases t d _ (shaped_usized t d G) H) as (t' & E & _). exists t'. split; [|exact E]. rewrite r_remove_alias.
    rewrite <- E. rewrite <- dev_tree_remove. apply same_up; [apply up_tree_remove|]. rewrite dev_tree_remove, E. left. eauto.
  - unfold tree_remove_w. rewrite r_node_index. cbn [bind]. rewrite (r_leaf_out t d i 33 G H). reflexivity.
Qed.
Lemma c84_update t d i l : shaped t d ->
  (i mod 2147483648 < 2 ^ d -> exists t', tree_update_w release t i l = Ok t' /\ tree_update t (i mod 2147483648) l = Ok t') /\
  (2 ^ d <= i mod 2147483648 -> tree_update_w release t i l = Hang).
Proof.
  intros G. split; intros H.
  - destruct (update_ok t d _ l (shaped_usized t d G) H) as (t' & E & _). exists t'. split; [|exact E]. rewrite r_update_alias.
    rewrite <- E. rewrite <- dev_tree_update. apply same_up; [apply up_tree_update|]. rewrite dev_tree_update, E. left. eauto.
  - unfold tree_update_w. rewrite r_node_index. cbn [bind].
    assert (Ln : num_leaves (tset t (2 * (i mod 2147483648)) (Some (Leaf l))) = num_leaves t) by (unfold num_leaves, tlen32; rewrite tlen_tset; reflexivity).
    rewrite Ln, (r_leaf_out t d i 33 G H). reflexivity.
Qed.
Lemma c84_merge P cs t d i u : shaped t d ->
  (returns (snd (merge_update_path P cs t (i mod 2147483648) u)) ->
   merge_update_path_w release P cs t i u = merge_update_path P cs t (i mod 2147483648) u) /\
  (2 ^ d <= i mod 2147483648 -> merge_update_path_w release P cs t i u = (t, Hang)).
Proof.
  intros G. split; intros H.
  - rewrite r_merge_alias, <- dev_merge_update_path. apply same_up2; [apply up_merge_update_path|]. rewrite dev_merge_update_path. exact H.
  - unfold merge_update_path_w. rewrite r_node_index. cbn [tbind]. unfold direct_path_w. rewrite (r_leaf_out t d i 33 G H). reflexivity.
Qed.

Lemma c84_level x fuel lvl : (x < 4294967295 -> level_w release x = level x) /\ level_loop_w release fuel 4294967295 lvl = Hang.
Proof.
  split; [|apply r_level_loop_max]. intros H. rewrite <- dev_level. destruct (node_decomp x) as (k & j & ->).
  apply same_up; [apply up_level|]. rewrite dev_level, level_node by (apply (u32_level k j); exact H). left. eauto.
Qed.

Lemma c84_next P cs r r' : derive_next_w release P cs r = Ok r' <->
  exists k s, p_hpke P cs = Ok k /\ derive_tree_secret P cs (rt_secret r) (str "secret") (rt_generation r) (k_extract_size k mod 65536) = Ok s /\
    r' = MkRatchet s ((rt_generation r + 1) mod 4294967296).
Proof.
  unfold derive_next_w. cbn [release ar_add]. split.
  - destruct (p_hpke P cs) as [k| | |]; try discriminate. cbn [bind]. destruct (derive_tree_secret _ _ _ _ _ _) as [s| | |] eqn:D; try discriminate.
    cbn [bind]. intros E. injection E as <-. exists k, s. auto.
  - intros (k & s & -> & E & ->). cbn [bind]. rewrite E. reflexivity.
Qed.

Lemma c84_committer t d c : shaped t d -> c < 2 ^ d ->
  let ps := [PRemove (MkRemove (2147483648 + c))] in
  verify_proposal_list ps [c] c = Ok tt /\ exists t', tree_apply_w release t ps [c] = Ok t' /\ blank_at t' c.
Proof.
  intros G H ps. split.
  - unfold ps, verify_proposal_list. cbn [length Nat.eqb negb combine proposal_loop rem_removed mem existsb].
    destruct (N.eqb_spec (2147483648 + c) c); [lia|reflexivity].
  - assert (U := shaped_usized t d G). assert (L : c < 2147483648).
    { pose proof (pow2_mono d 31 (usized_31 t d U)). change (2 ^ 31) with 2147483648 in *. lia. }
    assert (M : (2147483648 + c) mod 2147483648 = c).
    { replace (2147483648 + c) with (c + 1 * 2147483648) by lia. rewrite N.mod_add, N.mod_small by lia. reflexivity. }
    destruct (proj1 (c84_remove t d (2147483648 + c) G)) as (t' & E & E'); [rewrite M; exact H|]. rewrite M in E'.
    exists t'. split.
    + unfold tree_apply_w, ps. cbn [apply_updates_w apply_removes_w apply_adds_w bind rem_removed]. rewrite E. reflexivity.
    + destruct (remove_cases t d c U H) as (t2 & E2 & J & _). rewrite E' in E2. injection E2 as <-.
      unfold blank_at. rewrite J. destruct (N.eq_dec c c); [reflexivity|congruence].
Qed.

Lemma c84_endless t d c i : shaped t d -> c < 2 ^ d -> 2 ^ d <= i -> i < 2147483648 ->
  let ps := [PRemove (MkRemove i)] in
  verify_proposal_list ps [c] c = Ok tt /\ tree_apply_w release t ps [c] = Hang /\
  forall rounds, climb_w release rounds (num_leaves t) (2 * i) = Hang.
Proof.
  intros G H L L' ps. assert (M : i mod 2147483648 = i) by (apply N.mod_small; exact L'). split; [|split].
  - unfold ps, verify_proposal_list. cbn [length Nat.eqb negb combine proposal_loop rem_removed mem existsb].
    destruct (N.eqb_spec i c); [lia|reflexivity].
  - unfold tree_apply_w, ps. cbn [apply_updates_w apply_removes_w bind rem_removed]. rewrite (proj2 (c84_remove t d i G)) by (rewrite M; exact L). reflexivity.
  - intros rounds. rewrite <- M at 1. apply (r_leaf_out t d); [exact G|rewrite M; exact L].
Qed.

Lemma same_dev {X} (m n m' : res X) : n = m -> up n m' -> same m m'.
Proof. intros <- U R. apply same_up; assumption. Qed.
Lemma same_dev2 {X Y} (m n m' : X * res Y) : n = m -> up2 n m' -> same2 m m'.
Proof. intros <- U R. apply same_up2; assumption. Qed.

Lemma c84_math n x i : same (width n) (width_w release n) /\ same (root n) (root_w release n) /\ same (level x) (level_w release x) /\
  same (node_index i) (node_index_w release i) /\ same (left x) (left_w release x) /\ same (right x) (right_w release x) /\
  same (children x) (children_w release x) /\ same (parent n x) (parent_w release n x) /\ same (sibling n x) (sibling_w release n x) /\
  same (direct_path n x) (direct_path_w release n x) /\ same (copath n x) (copath_w release n x).
Proof.
  split; [eapply same_dev; [rewrite <- dev_width; reflexivity|apply up_width]|].
  split; [eapply same_dev; [rewrite <- dev_root; reflexivity|apply up_root]|].
  split; [eapply same_dev; [rewrite <- dev_level; reflexivity|apply up_level]|].
  split; [eapply same_dev; [rewrite <- dev_node_index; reflexivity|apply up_node_index]|].
  split; [eapply same_dev; [rewrite <- dev_left; reflexivity|apply up_left]|].
  split; [eapply same_dev; [rewrite <- dev_right; reflexivity|apply up_right]|].
  split; [eapply same_dev; [rewrite <- dev_children; reflexivity|apply up_children]|].
  split; [eapply same_dev; [rewrite <- dev_parent; reflexivity|apply up_parent]|].
  split; [eapply same_dev; [rewrite <- dev_sibling; reflexivity|apply up_sibling]|].
  split; [eapply same_dev; [rewrite <- dev_direct_path; reflexivity|apply up_direct_path]|].
  eapply same_dev; [rewrite <- dev_copath; reflexivity|apply up_copath].
Qed.

Lemma c84_read P cs t x i l ctx now : same (get_leaf t i) (get_leaf_w release t i) /\ same (resolve t x) (resolve_w release t x) /\
  same (filtered_direct_path t x) (filtered_direct_path_w release t x) /\
  same (supported_creds t) (supported_creds_w release t) /\ same (keys t) (keys_w release t) /\
  same (find_leaf t l) (find_leaf_w release t l) /\ same (root_tree_hash P cs t) (root_tree_hash_w release P cs t) /\
  same (verify_parent_hashes P cs t) (verify_parent_hashes_w release P cs t) /\
  same (verify_integrity P t ctx now) (verify_integrity_w release P t ctx now).
Proof.
  split; [eapply same_dev; [rewrite <- dev_get_leaf; reflexivity|apply up_get_leaf]|].
  split; [eapply same_dev; [rewrite <- dev_resolve; reflexivity|apply up_resolve]|].
  split; [eapply same_dev; [rewrite <- dev_filtered_direct_path; reflexivity|apply up_filtered_direct_path]|].
  split; [eapply same_dev; [rewrite <- dev_supported_creds; reflexivity|apply up_supported_creds]|].
  split; [eapply same_dev; [rewrite <- dev_keys; reflexivity|apply up_keys]|].
  split; [eapply same_dev; [rewrite <- dev_find_leaf; reflexivity|apply up_find_leaf]|].
  split; [eapply same_dev; [rewrite <- dev_root_tree_hash; reflexivity|apply up_root_tree_hash]|].
  split; [eapply same_dev; [rewrite <- dev_verify_parent_hashes; reflexivity|apply up_verify_parent_hashes]|].
  eapply same_dev; [rewrite <- dev_verify_integrity; reflexivity|apply up_verify_integrity].
Qed.

Lemma c84_write P cs t i l u ps senders : same (tree_add t l) (tree_add_w release t l) /\ same (tree_update t i l) (tree_update_w release t i l) /\
  same (tree_remove t i) (tree_remove_w release t i) /\ same2 (merge_update_path P cs t i u) (merge_update_path_w release P cs t i u) /\
  same (tree_apply t ps senders) (tree_apply_w release t ps senders).
Proof.
  split; [eapply same_dev; [rewrite <- dev_tree_add; reflexivity|apply up_tree_add]|].
  split; [eapply same_dev; [rewrite <- dev_tree_update; reflexivity|apply up_tree_update]|].
  split; [eapply same_dev; [rewrite <- dev_tree_remove; reflexivity|apply up_tree_remove]|].
  split; [eapply same_dev2; [rewrite <- dev_merge_update_path; reflexivity|apply up_merge_update_path]|].
  eapply same_dev; [rewrite <- dev_tree_apply; reflexivity|apply up_tree_apply].
Qed.

Lemma c84_secrets P cs n s r : same (new_secret_tree P cs n s) (new_secret_tree_w release P cs n s) /\
  same (derive_next P cs r) (derive_next_w release P cs r).
Proof.
  split; [eapply same_dev; [rewrite <- dev_new_secret_tree; reflexivity|apply up_new_secret_tree]|].
  eapply same_dev; [rewrite <- dev_derive_next; reflexivity|apply up_derive_next].
Qed.

Lemma c84_dev : tree_apply_w dev = tree_apply /\ merge_update_path_w dev = merge_update_path /\ verify_integrity_w dev = verify_integrity /\
  copath_w dev = copath /\ new_secret_tree_w dev = new_secret_tree /\ derive_next_w dev = derive_next.
Proof. exact (conj dev_tree_apply (conj dev_merge_update_path (conj dev_verify_integrity (conj dev_copath (conj dev_new_secret_tree dev_derive_next))))). Qed.

Lemma c84_arithmetic a b : a < 4294967296 -> b < 4294967296 ->
  let x := Z.of_N a in let y := Z.of_N b in
  (checked (x + y) (ar_add dev a b) /\ checked (x - y) (ar_sub dev a b) /\ checked (x * y) (ar_mul dev a b) /\
   ar_shl dev a b = (if b <? 32 then Ok (Z.to_N ((x * 2 ^ y) mod 2 ^ 32)) else Panic) /\ ar_shr dev a b = (if b <? 32 then Ok (Z.to_N (x / 2 ^ y)) else Panic)) /\
  (wrapped (x + y) (ar_add release a b) /\ wrapped (x - y) (ar_sub release a b) /\ wrapped (x * y) (ar_mul release a b) /\
   wrapped (x * 2 ^ (y mod 32)) (ar_shl release a b) /\ wrapped (x / 2 ^ (y mod 32)) (ar_shr release a b)).
Proof.
  intros A B x y. unfold checked, wrapped, dev, release, add32, sub32, mul32, shl32, shr32, u32_max; cbn [ar_add ar_sub ar_mul ar_shl ar_shr].
  change (2 ^ 32)%Z with 4294967296%Z.
  assert (Q : forall n, (0 <=? Z.of_N n)%Z = true) by (intros; apply Z.leb_le; lia).
  assert (SL : forall s, Z.to_N ((x * 2 ^ Z.of_N s) mod 4294967296) = N.shiftl a s mod 4294967296).
  { intros s. unfold x. rewrite N.shiftl_mul_pow2. change 2%Z with (Z.of_N 2). rewrite <- N2Z.inj_pow, <- N2Z.inj_mul. change 4294967296%Z with (Z.of_N 4294967296). rewrite <- N2Z.inj_mod, N2Z.id. reflexivity. }
  assert (SR : forall s, Z.to_N (x / 2 ^ Z.of_N s) = N.shiftr a s).
  { intros s. unfold x. rewrite N.shiftr_div_pow2. change 2%Z with (Z.of_N 2). rewrite <- N2Z.inj_pow, <- N2Z.inj_div, N2Z.id. reflexivity. }
  assert (YM : (y mod 32)%Z = Z.of_N (b mod 32)) by (unfold y; rewrite N2Z.inj_mod; reflexivity).
  split; repeat split.
  - unfold x, y. rewrite <- N2Z.inj_add, Q, N2Z.id. cbn [andb]. destruct (Z.ltb_spec (Z.of_N (a + b)) 4294967296), (N.leb_spec (a + b) 4294967295); try reflexivity; lia.
  - unfold x, y. destruct (N.ltb_spec a b), (Z.leb_spec 0 (Z.of_N a - Z.of_N b)), (Z.ltb_spec (Z.of_N a - Z.of_N b) 4294967296); cbn [andb]; try lia; try reflexivity. f_equal. lia.
  - unfold x, y. rewrite <- N2Z.inj_mul, Q, N2Z.id. cbn [andb]. destruct (Z.ltb_spec (Z.of_N (a * b)) 4294967296), (N.leb_spec (a * b) 4294967295); try reflexivity; lia.
  - destruct (N.leb_spec 32 b), (N.ltb_spec b 32); try lia; [reflexivity|]. unfold y. rewrite SL. reflexivity.
  - destruct (N.leb_spec 32 b), (N.ltb_spec b 32); try lia; [reflexivity|]. unfold y. rewrite SR. reflexivity.
  - unfold x, y. rewrite <- N2Z.inj_add. change 4294967296%Z with (Z.of_N 4294967296). rewrite <- N2Z.inj_mod, N2Z.id. reflexivity.
  - unfold x, y. f_equal. destruct (N.leb_spec b a).
    + rewrite Z.mod_small by lia. lia.
    + rewrite <- (Z.mod_add _ 1) by lia. rewrite Z.mod_small by lia. lia.
  - unfold x, y. rewrite <- N2Z.inj_mul. change 4294967296%Z with (Z.of_N 4294967296). rewrite <- N2Z.inj_mod, N2Z.id. reflexivity.
  - rewrite YM, SL. reflexivity.
  - rewrite YM. rewrite Z.mod_small; [rewrite SR; reflexivity|]. split; [apply Z.div_pos; [unfold x; lia|apply Z.pow_pos_nonneg; lia]|].
    apply Z.div_lt_upper_bound; [apply Z.pow_pos_nonneg; lia|]. assert (1 <= 2 ^ Z.of_N (b mod 32))%Z by (apply Z.lt_pred_le; apply Z.pow_pos_nonneg; lia). unfold x. nia.
Qed.
