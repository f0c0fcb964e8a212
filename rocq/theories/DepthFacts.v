(** Proofs for C117. *)
From Verif Require Import SpecDepth SpecTree TreeMathProofs CostFacts CalmFacts SpecProvider.
From Coq Require Import Lia.
Local Open Scope N_scope.

Lemma fst_entering {A} (m : nested A) : fst (entering m) = fst m. Proof. reflexivity. Qed.
Lemma fst_nbind {A B} (m : nested A) (k : A -> nested B) : fst (nbind m k) = bind (fst m) (fun a => fst (k a)).
Proof. unfold nbind. destruct (fst m); reflexivity. Qed.
Lemma n_bind {A B} (m : nested A) (k : A -> nested B) d : snd m <= d -> (forall a, fst m = Ok a -> snd (k a) <= d) -> snd (nbind m k) <= d.
Proof. intros H K. unfold nbind. destruct (fst m) eqn:E; cbn [snd]; try exact H. specialize (K a eq_refl). lia. Qed.
Lemma n_flat {A} (m : res A) d : snd (flat m) <= d. Proof. cbn. lia. Qed.
Lemma n_enter {A} (m : nested A) d : snd m <= d -> snd (entering m) <= 1 + d. Proof. cbn. lia. Qed.

Lemma d_same_resolve t : forall fuel x, fst (d_resolve_f fuel t x) = resolve_f fuel t x.
Proof.
  induction fuel as [|fuel IH]; intros x; cbn [d_resolve_f resolve_f]; rewrite fst_entering; destruct (tget t x) as [[l|p]|]; try reflexivity; rewrite fst_nbind; apply bind_ext; intros [[l r]|]; try reflexivity.
  rewrite fst_nbind, IH. apply bind_ext. intros a. rewrite fst_nbind, IH. apply bind_ext. reflexivity.
Qed.
Lemma d_same_hash P cs t excl : forall fuel x, fst (d_tree_hash_f fuel P cs t x excl) = tree_hash_f fuel P cs t x excl.
Proof.
  induction fuel as [|fuel IH]; intros x; cbn [d_tree_hash_f tree_hash_f]; rewrite fst_entering, fst_nbind; f_equal; destruct (leaf_index x); try reflexivity; rewrite fst_nbind; apply bind_ext; intros [[l r]|]; try reflexivity.
  rewrite fst_nbind, IH. apply bind_ext. intros lh. rewrite fst_nbind, IH. apply bind_ext. reflexivity.
Qed.
Lemma d_same_derive P cs : forall fuel t x, fst (d_derive_children fuel P cs t x) = derive_children fuel P cs t x.
Proof.
  induction fuel as [|fuel IH]; intros t x; cbn [d_derive_children derive_children]; rewrite fst_entering, fst_nbind; apply bind_ext; intros [[l r]|]; try reflexivity.
  destruct (sget t x) as [s|]; [|reflexivity]. rewrite fst_nbind. cbn [flat fst]. destruct (p_hpke P cs) as [k| | |]; cbn [bind]; try reflexivity.
  destruct (expand_with_label P cs s (str "tree") (str "left") _) as [ls| | |]; cbn [bind]; try reflexivity.
  destruct (expand_with_label P cs s (str "tree") (str "right") _) as [rs| | |]; cbn [bind]; try reflexivity.
  rewrite fst_nbind, IH. apply bind_ext. intros t'. apply IH.
Qed.
Lemma child_cases k j c : children (node_at (N.of_nat k) j) = Ok (Some c) -> exists k', k = S k' /\ c = (node_at (N.of_nat k') (2 * j), node_at (N.of_nat k') (2 * j + 1)).
Proof.
  intros H. destruct k as [|k]; [rewrite TreeMathProofs.children_leaf in H; discriminate H|]. exists k. split; [reflexivity|].
  replace (N.of_nat (S k)) with (N.of_nat k + 1) in H by lia. destruct (N.lt_ge_cases (N.of_nat k) 31) as [L|L].
  - rewrite children_node in H by exact L. injection H as <-. reflexivity.
  - assert (E : children (node_at (N.of_nat k + 1) j) = Panic); [|congruence]. unfold children. assert (L2 : left (node_at (N.of_nat k + 1) j) = Panic); [|rewrite L2; reflexivity].
    unfold left. rewrite level_panics by lia. reflexivity.
Qed.
Lemma deep_resolve t : forall k fuel j, snd (d_resolve_f fuel t (node_at (N.of_nat k) j)) <= N.of_nat k + 1.
Proof.
  induction k as [|k IH]; intros fuel j.
  - destruct fuel; cbn [d_resolve_f]; rewrite N.add_comm; apply n_enter; (destruct (tget t _) as [[]|]; try apply n_flat); apply n_bind; try apply n_flat; intros c E; cbn [flat fst] in E;
      (destruct c as [c|]; [apply child_cases in E as (k' & E & _); discriminate E|apply n_flat]).
  - destruct fuel as [|fuel]; cbn [d_resolve_f]; rewrite N.add_comm; apply n_enter; (destruct (tget t _) as [[]|]; try apply n_flat); apply n_bind; try apply n_flat; intros c E; cbn [flat fst] in E;
      (destruct c as [c|]; [apply child_cases in E as (k' & E & ->); injection E as <-|apply n_flat]); [apply n_flat|].
    specialize (IH fuel). pose proof (IH (2 * j)). pose proof (IH (2 * j + 1)). replace (N.of_nat (S k)) with (N.of_nat k + 1) by lia.
    apply n_bind; [assumption|intros a _]. apply n_bind; [assumption|intros; apply n_flat].
Qed.
Lemma deep_hash P cs t excl : forall k fuel j, snd (d_tree_hash_f fuel P cs t (node_at (N.of_nat k) j) excl) <= N.of_nat k + 1.
Proof.
  induction k as [|k IH]; intros fuel j.
  - destruct fuel; cbn [d_tree_hash_f]; rewrite N.add_comm; apply n_enter; (apply n_bind; [|intros; apply n_flat]); (destruct (leaf_index _); [apply n_flat|]); apply n_bind; try apply n_flat; intros c E; cbn [flat fst] in E;
      (destruct c as [c|]; [apply child_cases in E as (k' & E & _); discriminate E|apply n_flat]).
  - destruct fuel as [|fuel]; cbn [d_tree_hash_f]; rewrite N.add_comm; apply n_enter; (apply n_bind; [|intros; apply n_flat]); (destruct (leaf_index _); [apply n_flat|]); apply n_bind; try apply n_flat; intros c E; cbn [flat fst] in E;
      (destruct c as [c|]; [apply child_cases in E as (k' & E & ->); injection E as <-|apply n_flat]); [apply n_flat|].
    specialize (IH fuel). pose proof (IH (2 * j)). pose proof (IH (2 * j + 1)). replace (N.of_nat (S k)) with (N.of_nat k + 1) by lia.
    apply n_bind; [assumption|intros a _]. apply n_bind; [assumption|intros; apply n_flat].
Qed.
Lemma deep_derive P cs : forall k fuel t j, snd (d_derive_children fuel P cs t (node_at (N.of_nat k) j)) <= N.of_nat k + 1.
Proof.
  induction k as [|k IH]; intros fuel t j.
  - destruct fuel; cbn [d_derive_children]; rewrite N.add_comm; apply n_enter; apply n_bind; try apply n_flat; intros c E; cbn [flat fst] in E;
      (destruct c as [c|]; [apply child_cases in E as (k' & E & _); discriminate E|apply n_flat]).
  - destruct fuel as [|fuel]; cbn [d_derive_children]; rewrite N.add_comm; apply n_enter; apply n_bind; try apply n_flat; intros c E; cbn [flat fst] in E;
      (destruct c as [c|]; [apply child_cases in E as (k' & E & ->); injection E as <-|apply n_flat]); [apply n_flat|].
    destruct (sget t _) as [s|]; [|apply n_flat]. apply n_bind; [apply n_flat|]. intros [ls rs] _. cbv zeta beta iota. replace (N.of_nat (S k)) with (N.of_nat k + 1) by lia.
    apply n_bind; [apply IH|intros t' _; apply IH].
Qed.
Lemma n_ext {A B} (m : nested A) (f g : A -> nested B) : (forall a, fst m = Ok a -> f a = g a) -> nbind m f = nbind m g.
Proof. intros H. unfold nbind. destruct (fst m) eqn:E; try reflexivity. rewrite (H a eq_refl). reflexivity. Qed.
Lemma enough_resolve t : forall k f f' j, (k <= f)%nat -> (k <= f')%nat -> d_resolve_f f t (node_at (N.of_nat k) j) = d_resolve_f f' t (node_at (N.of_nat k) j).
Proof.
  induction k as [|k IH]; intros f f' j L L'.
  - destruct f, f'; cbn [d_resolve_f]; f_equal; (destruct (tget t _) as [[]|]; try reflexivity); apply n_ext; intros c E; cbn [flat fst] in E;
      (destruct c as [c|]; [apply child_cases in E as (k' & E & _); discriminate E|reflexivity]).
  - destruct f as [|f]; [lia|]. destruct f' as [|f']; [lia|]. cbn [d_resolve_f]; f_equal; (destruct (tget t _) as [[]|]; try reflexivity); apply n_ext; intros c E; cbn [flat fst] in E;
      (destruct c as [c|]; [apply child_cases in E as (k' & E & ->); injection E as <-|reflexivity]).
    rewrite (IH f f' (2 * j)) by lia. apply n_ext. intros a _. rewrite (IH f f' (2 * j + 1)) by lia. reflexivity.
Qed.
Lemma enough_hash P cs t excl : forall k f f' j, (k <= f)%nat -> (k <= f')%nat -> d_tree_hash_f f P cs t (node_at (N.of_nat k) j) excl = d_tree_hash_f f' P cs t (node_at (N.of_nat k) j) excl.
Proof.
  induction k as [|k IH]; intros f f' j L L'.
  - destruct f, f'; cbn [d_tree_hash_f]; do 2 f_equal; (destruct (leaf_index _); [reflexivity|]); apply n_ext; intros c E; cbn [flat fst] in E;
      (destruct c as [c|]; [apply child_cases in E as (k' & E & _); discriminate E|reflexivity]).
  - destruct f as [|f]; [lia|]. destruct f' as [|f']; [lia|]. cbn [d_tree_hash_f]; do 2 f_equal; (destruct (leaf_index _); [reflexivity|]); apply n_ext; intros c E; cbn [flat fst] in E;
      (destruct c as [c|]; [apply child_cases in E as (k' & E & ->); injection E as <-|reflexivity]).
    rewrite (IH f f' (2 * j)) by lia. apply n_ext. intros a _. rewrite (IH f f' (2 * j + 1)) by lia. reflexivity.
Qed.
Lemma enough_derive P cs : forall k f f' t j, (k <= f)%nat -> (k <= f')%nat -> d_derive_children f P cs t (node_at (N.of_nat k) j) = d_derive_children f' P cs t (node_at (N.of_nat k) j).
Proof.
  induction k as [|k IH]; intros f f' t j L L'.
  - destruct f, f'; cbn [d_derive_children]; f_equal; apply n_ext; intros c E; cbn [flat fst] in E;
      (destruct c as [c|]; [apply child_cases in E as (k' & E & _); discriminate E|reflexivity]).
  - destruct f as [|f]; [lia|]. destruct f' as [|f']; [lia|]. cbn [d_derive_children]; f_equal; apply n_ext; intros c E; cbn [flat fst] in E;
      (destruct c as [c|]; [apply child_cases in E as (k' & E & ->); injection E as <-|reflexivity]).
    destruct (sget t _) as [s|]; [|reflexivity]. apply n_ext. intros [ls rs] _. cbv zeta beta iota. rewrite (IH f f' _ (2 * j)) by lia. apply n_ext. intros t' _. apply IH; lia.
Qed.
Lemma high k j : k <= N.log2 (node_at k j + 1).
Proof.
  rewrite node_at_S. apply N.log2_le_pow2; [|]; pose proof (N.pow_nonzero 2 k); nia.
Qed.
Lemma some_node x : exists k j, x = node_at (N.of_nat k) j /\ N.of_nat k <= N.log2 (x + 1).
Proof.
  destruct (node_decomp x) as (k & j & E). exists (N.to_nat k), j. rewrite N2Nat.id. split; [exact E|]. rewrite E. apply high.
Qed.
Lemma c117_depth fuel x : (forall t, deepest (d_resolve_f fuel t x) <= N.log2 (x + 1) + 1) /\
  (forall P cs t excl, deepest (d_tree_hash_f fuel P cs t x excl) <= N.log2 (x + 1) + 1) /\
  (forall P cs t, deepest (d_derive_children fuel P cs t x) <= N.log2 (x + 1) + 1).
Proof.
  destruct (some_node x) as (k & j & -> & L). unfold deepest. split; [|split]; intros.
  - pose proof (deep_resolve t k fuel j). lia.
  - pose proof (deep_hash P cs t excl k fuel j). lia.
  - pose proof (deep_derive P cs k fuel t j). lia.
Qed.
Lemma log_32 x : x < 2 ^ 32 -> N.log2 (x + 1) <= 32.
Proof. intros H. change 32 with (N.log2 (2 ^ 32)). apply N.log2_le_mono. lia. Qed.
Lemma c117_same fuel x : x < 2 ^ 32 -> (33 <= fuel)%nat -> (forall t, fst (d_resolve_f fuel t x) = resolve t x) /\
  (forall P cs t excl, fst (d_tree_hash_f fuel P cs t x excl) = tree_hash P cs t x excl) /\
  (forall P cs t, fst (d_derive_children fuel P cs t x) = derive_children 33 P cs t x).
Proof.
  intros B F. destruct (some_node x) as (k & j & E & L). pose proof (log_32 x B) as M. assert (K : (k <= 33)%nat) by lia. rewrite E. split; [|split]; intros.
  - rewrite (enough_resolve t k fuel 33 j) by lia. apply d_same_resolve.
  - rewrite (enough_hash P cs t excl k fuel 33 j) by lia. apply d_same_hash.
  - rewrite (enough_derive P cs k fuel 33 t j) by lia. apply d_same_derive.
Qed.
Lemma c117_stack fuel x : x < 2 ^ 32 -> (forall t, deepest (d_resolve_f fuel t x) <= 33) /\
  (forall P cs t excl, deepest (d_tree_hash_f fuel P cs t x excl) <= 33) /\ (forall P cs t, deepest (d_derive_children fuel P cs t x) <= 33).
Proof.
  intros B. pose proof (log_32 x B). destruct (c117_depth fuel x) as (R & H1 & D). split; [|split]; intros.
  - specialize (R t). lia.
  - specialize (H1 P cs t excl). lia.
  - specialize (D P cs t). lia.
Qed.
Lemma c117_group n r fuel : 0 < n -> n <= 2147483648 -> root n = Ok r ->
  (forall t, deepest (d_resolve_f fuel t r) <= N.log2 n + 2) /\ (forall P cs t, deepest (d_tree_hash_f fuel P cs t r []) <= N.log2 n + 2) /\
  (forall P cs t, deepest (d_derive_children fuel P cs t r) <= N.log2 n + 2).
Proof.
  intros Z L R. rewrite root_ok in R by assumption. injection R as <-.
  assert (E : N.log2 (2 ^ depth n - 1 + 1) = depth n) by (pose proof (N.pow_nonzero 2 (depth n)); replace (2 ^ depth n - 1 + 1) with (2 ^ depth n) by lia; apply N.log2_pow2; lia).
  assert (D : depth n <= N.log2 n + 1) by (unfold depth; rewrite N.add_1_r, <- N.log2_double by exact Z; apply N.log2_le_mono; lia).
  destruct (c117_depth fuel (2 ^ depth n - 1)) as (A & B & C). rewrite E in *. split; [|split]; intros.
  - specialize (A t). lia.
  - specialize (B P cs t []). lia.
  - specialize (C P cs t). lia.
Qed.
