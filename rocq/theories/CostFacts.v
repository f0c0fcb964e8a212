(** Proofs about what checking a tree costs. *)
From Verif Require Import CodecLib TreeMathProofs TreeOps TreePaths TreeHash TreeFacts Verified CalmTree SizeFacts ReceivedFacts SpecSize ExProvider SpecCost.
From Coq Require Import ZifyBool ZifyNat ZifyN.
Local Open Scope N_scope.

(** ** The counting functions do the same *)

Local Opaque tree_hash_f resolve_f c_tree_hash_f c_resolve_f check_unmerged_climb c_check_unmerged_climb.

Lemma fst_cbind {A B} (m : costly A) (k : A -> costly B) : fst (cbind m k) = let* a := fst m in fst (k a).
Proof. unfold cbind. destruct (fst m); reflexivity. Qed.
Lemma fst_pay {A} c (m : costly A) : fst (pay c m) = fst m.
Proof. reflexivity. Qed.
Lemma fst_or_false {A} (m : costly A) k : fst (c_ok_or_false m k) = ok_or_false (fst m) (fun a => fst (k a)).
Proof. unfold c_ok_or_false. destruct (fst m); reflexivity. Qed.
Lemma bind_ext {A B} (m : res A) (f g : A -> res B) : (forall a, f a = g a) -> (let* a := m in f a) = (let* a := m in g a).
Proof. intros H. destruct m; cbn; auto. Qed.
Lemma or_false_ext {A} (m : res A) f g : (forall a, f a = g a) -> ok_or_false m f = ok_or_false m g.
Proof. intros H. destruct m; cbn; auto. Qed.

Lemma same_hash P cs t excl : forall fuel x, fst (c_tree_hash_f fuel P cs t x excl) = tree_hash_f fuel P cs t x excl.
Proof.
  induction fuel as [|fuel IH]; intros x; cbn [c_tree_hash_f tree_hash_f]; rewrite fst_cbind; f_equal; destruct (leaf_index x); try reflexivity; rewrite fst_cbind; apply bind_ext; intros [[l r]|]; try reflexivity.
  rewrite fst_cbind, IH. apply bind_ext. intros lh. rewrite fst_cbind, IH. apply bind_ext. reflexivity.
Qed.
Lemma same_resolve t : forall fuel x, fst (c_resolve_f fuel t x) = resolve_f fuel t x.
Proof.
  induction fuel as [|fuel IH]; intros x; cbn [c_resolve_f resolve_f]; rewrite fst_pay; destruct (tget t x) as [[l|p]|]; try reflexivity; rewrite fst_cbind; apply bind_ext; intros [[l r]|]; try reflexivity.
  rewrite fst_cbind, IH. apply bind_ext. intros a. rewrite fst_cbind, IH. apply bind_ext. reflexivity.
Qed.
Lemma same_check P cs t x nd : fst (c_check_parent_hash P cs t x nd) = check_parent_hash P cs t x nd.
Proof.
  unfold c_check_parent_hash, check_parent_hash, tree_hash, resolve. generalize 33%nat as f. intros f. destruct nd as [nd|]; [|reflexivity]. rewrite fst_cbind. apply bind_ext. intros [[l r]|]; [|reflexivity]. destruct nd as [lf|p]; [reflexivity|].
  rewrite fst_or_false, same_hash. apply or_false_ext. intros lh. rewrite fst_or_false, same_hash. apply or_false_ext. intros rh. rewrite fst_or_false. apply or_false_ext. intros lph. rewrite fst_or_false. apply or_false_ext. intros rph.
  rewrite fst_cbind, same_resolve. apply bind_ext. intros a. rewrite fst_cbind, same_resolve. reflexivity.
Qed.
Lemma same_verify P cs t : forall l i, fst (c_verify_parent_hashes_from P cs t i l) = verify_parent_hashes_from P cs t i l.
Proof.
  induction l as [|nd l IH]; intros i; cbn [c_verify_parent_hashes_from verify_parent_hashes_from]; [reflexivity|]. rewrite fst_cbind, same_check. apply bind_ext. intros [|]; [apply IH|reflexivity].
Qed.
Lemma same_leaves P cs gid creds now : forall ls sks eks, fst (c_verify_leaves P cs gid creds now sks eks ls) = verify_leaves P cs gid creds now sks eks ls.
Proof. induction ls as [|[li l] ls IH]; intros sks eks; cbn [c_verify_leaves verify_leaves]; [reflexivity|]. rewrite fst_cbind. apply bind_ext. intros u. apply IH. Qed.
Lemma same_climb t n p li : forall fuel x, fst (c_check_unmerged_climb fuel t n p li x) = check_unmerged_climb fuel t n p li x.
Proof.
  induction fuel as [|fuel IH]; intros x; cbn [c_check_unmerged_climb check_unmerged_climb]; rewrite fst_cbind; apply bind_ext; intros [y|]; try reflexivity; (destruct (y =? p); [reflexivity|]); rewrite fst_cbind; apply bind_ext; intros u; [reflexivity|apply IH].
Qed.
Lemma same_unmerged t n p : forall l, fst (c_check_unmerged t n p l) = check_unmerged t n p l.
Proof. induction l as [|li l IH]; cbn [c_check_unmerged check_unmerged]; [reflexivity|]. rewrite fst_cbind. apply bind_ext. intros x. rewrite fst_cbind, same_climb. apply bind_ext. intros u. apply IH. Qed.
Lemma same_parents t n : forall l i eks, fst (c_check_parents t n i eks l) = check_parents t n i eks l.
Proof.
  induction l as [|[[lf|p]|] l IH]; intros i eks; cbn [c_check_parents check_parents]; [reflexivity|apply IH| |apply IH]. rewrite fst_cbind, same_unmerged. apply bind_ext. intros u. destruct (mem _ _ _); [reflexivity|apply IH].
Qed.
Lemma c103_same P t ctx now : fst (c_verify_integrity P t ctx now) = verify_integrity P t ctx now.
Proof.
  unfold c_verify_integrity, verify_integrity. rewrite fst_cbind. unfold c_root_tree_hash, root_tree_hash. rewrite fst_cbind. unfold tree_hash. rewrite (bind_ext _ (fun a => fst (c_tree_hash_f 33 P (gc_suite ctx) t a [])) (fun a => tree_hash_f 33 P (gc_suite ctx) t a [])) by (intros; apply same_hash).
  apply bind_ext. intros h. destruct (negb _); [reflexivity|]. rewrite fst_cbind, same_verify. apply bind_ext. intros b. destruct (negb b); [reflexivity|]. rewrite fst_cbind. apply bind_ext. intros creds. rewrite fst_cbind. apply bind_ext. intros ls.
  rewrite fst_cbind, same_leaves. apply bind_ext. intros [a eks]. apply same_parents.
Qed.

(** ** Bounds *)

Definition below (c : cost) (h s v : N) : Prop := hashes c <= h /\ checks c <= s /\ visits c <= v.
Lemma below_nothing h s v : below nothing h s v. Proof. unfold below; cbn; lia. Qed.
Lemma below_le c h s v h' s' v' : below c h s v -> h <= h' -> s <= s' -> v <= v' -> below c h' s' v'. Proof. unfold below. lia. Qed.
Lemma below_cbind {A B} (m : costly A) (k : A -> costly B) h s v h' s' v' : below (snd m) h s v -> (forall a, fst m = Ok a -> below (snd (k a)) h' s' v') ->
  below (snd (cbind m k)) (h + h') (s + s') (v + v').
Proof. intros H K. unfold cbind. destruct (fst m) as [a| | |]; cbn [snd]; [specialize (K a eq_refl); revert H K; unfold below, plus; cbn; lia|eapply below_le; [exact H|lia..]..]. Qed.
Lemma below_free {A B} (m : res A) (k : A -> costly B) h s v : (forall a, m = Ok a -> below (snd (k a)) h s v) -> below (snd (cbind (free m) k)) h s v.
Proof. intros K. apply (below_cbind (free m) k 0 0 0 h s v (below_nothing 0 0 0) K). Qed.
Lemma below_pay {A} c (m : costly A) h s v h' s' v' : below c h s v -> below (snd m) h' s' v' -> below (snd (pay c m)) (h + h') (s + s') (v + v').
Proof. unfold below, pay, plus. cbn. lia. Qed.
Lemma below_or_false {A} (m : costly A) k h s v h' s' v' : below (snd m) h s v -> (forall a, fst m = Ok a -> below (snd (k a)) h' s' v') ->
  below (snd (c_ok_or_false m k)) (h + h') (s + s') (v + v').
Proof. intros H K. unfold c_ok_or_false. destruct (fst m) as [a| | |]; cbn [snd]; [specialize (K a eq_refl); revert H K; unfold below, plus; cbn; lia|eapply below_le; [exact H|lia..]..]. Qed.

Lemma cost_hash P cs t excl : forall k fuel j, (k <= 31)%nat -> below (snd (c_tree_hash_f fuel P cs t (node_at (N.of_nat k) j) excl)) (2 ^ (N.of_nat k + 1) - 1) 0 0.
Proof.
  assert (LAST : forall input, below (snd (pay one_hash (free (let* h := p_hash P cs in Ok (h_digest h input))))) 1 0 0) by (intros; unfold below; cbn; lia).
  induction k as [|k IH]; intros fuel j L.
  - destruct fuel; cbn [c_tree_hash_f]; rewrite leaf_index_node; change (N.of_nat 0 =? 0) with true; cbv iota; (eapply below_le; [apply below_free; intros; apply LAST|..]); cbn; lia.
  - pose proof (pow2_S (N.of_nat (S k))) as Q. replace (N.of_nat (S k)) with (N.of_nat k + 1) in * by lia. pose proof (pow2_S (N.of_nat k)). pose proof (pow2_pos (N.of_nat k)).
    destruct fuel as [|fuel]; cbn [c_tree_hash_f]; rewrite leaf_index_node; (destruct (N.eqb_spec (N.of_nat k + 1) 0); [lia|]); rewrite children_node by lia.
    + eapply below_le; [apply (below_cbind _ _ 0 0 0 1 0 0); [apply below_free; intros; injection H1 as <-; apply below_nothing|intros; apply LAST]|lia..].
    + eapply below_le; [apply (below_cbind _ _ (2 ^ (N.of_nat k + 1) - 1 + (2 ^ (N.of_nat k + 1) - 1 + 0)) (0 + (0 + 0)) (0 + (0 + 0)) 1 0 0); [|intros; apply LAST]|lia..].
      apply below_free. intros c E. injection E as <-. apply below_cbind; [apply IH; lia|intros lh _]. apply below_cbind; [apply IH; lia|intros; apply below_nothing].
Qed.
Lemma cost_hash_N P cs t excl k fuel j : k <= 31 -> below (snd (c_tree_hash_f fuel P cs t (node_at k j) excl)) (2 ^ (k + 1) - 1) 0 0.
Proof. intros L. rewrite <- (N2Nat.id k). apply cost_hash. lia. Qed.
Lemma cost_resolve t : forall k fuel j, (k <= 31)%nat -> below (snd (c_resolve_f fuel t (node_at (N.of_nat k) j))) 0 0 (2 ^ (N.of_nat k + 1) - 1).
Proof.
  induction k as [|k IH]; intros fuel j L.
  - destruct fuel; cbn [c_resolve_f]; (eapply below_le; [apply (below_pay one_visit _ 0 0 1 0 0 0); [unfold below; cbn; lia|]|..]); try (cbn; lia);
      (destruct (tget t (node_at (N.of_nat 0) j)) as [[]|]; [apply below_nothing..|]; apply below_free; change (N.of_nat 0) with 0; rewrite TreeMathProofs.children_leaf; intros c E; injection E as <-; apply below_nothing).
  - pose proof (pow2_S (N.of_nat (S k))) as Q. replace (N.of_nat (S k)) with (N.of_nat k + 1) in * by lia. pose proof (pow2_S (N.of_nat k)). pose proof (pow2_pos (N.of_nat k)).
    destruct fuel as [|fuel]; cbn [c_resolve_f]; (eapply below_le; [apply (below_pay one_visit _ 0 0 1 0 0 (2 ^ (N.of_nat k + 1) - 1 + (2 ^ (N.of_nat k + 1) - 1 + 0))); [unfold below; cbn; lia|]|lia..]);
      (destruct (tget t (node_at (N.of_nat k + 1) j)) as [[]|]; [apply below_nothing..|]; apply below_free; rewrite children_node by lia; intros c E; injection E as <-); [apply below_nothing|].
    apply (below_cbind _ _ 0 0 (2 ^ (N.of_nat k + 1) - 1) 0 0 _); [apply IH; lia|intros a _]. apply (below_cbind _ _ 0 0 (2 ^ (N.of_nat k + 1) - 1) 0 0 0); [apply IH; lia|intros; apply below_nothing].
Qed.
Lemma cost_resolve_N t k fuel j : k <= 31 -> below (snd (c_resolve_f fuel t (node_at k j))) 0 0 (2 ^ (k + 1) - 1).
Proof. intros L. rewrite <- (N2Nat.id k). apply cost_resolve. lia. Qed.

Lemma cost_check P cs t k j nd : k < 31 -> below (snd (c_check_parent_hash P cs t (node_at (k + 1) j) nd)) (2 ^ (k + 2)) 0 (2 ^ (k + 2)).
Proof.
  intros L. unfold c_check_parent_hash. destruct nd as [nd|]; [|apply below_nothing]. apply below_free. rewrite children_node by lia. intros c E. injection E as <-. destruct nd as [lf|p]; [apply below_nothing|].
  pose proof (pow2_S (k + 1)) as Q. replace (k + 1 + 1) with (k + 2) in Q by lia. pose proof (pow2_pos (k + 1)).
  set (w := 2 ^ (k + 1) - 1). eapply below_le; [apply (below_or_false _ _ w 0 0 (w + (1 + (1 + 0))) 0 (0 + (0 + (0 + (w + (w + 0)))))); [apply cost_hash_N; lia|intros lh _]|unfold w; lia..].
  apply (below_or_false _ _ w 0 0 (1 + (1 + 0)) 0 (0 + (0 + (w + (w + 0))))); [apply cost_hash_N; lia|intros rh _].
  apply (below_or_false _ _ 1 0 0 (1 + 0) 0 (0 + (w + (w + 0)))); [unfold below; cbn; lia|intros lph _]. apply (below_or_false _ _ 1 0 0 0 0 (w + (w + 0))); [unfold below; cbn; lia|intros rph _].
  apply (below_cbind _ _ 0 0 w 0 0 (w + 0)); [apply cost_resolve_N; lia|intros a _]. apply (below_cbind _ _ 0 0 w 0 0 0); [apply cost_resolve_N; lia|intros; apply below_nothing].
Qed.
Lemma cost_check_leaf P cs t j nd : below (snd (c_check_parent_hash P cs t (node_at 0 j) nd)) 0 0 0.
Proof. unfold c_check_parent_hash. destruct nd as [nd|]; [|apply below_nothing]. apply below_free. rewrite TreeMathProofs.children_leaf. intros c E. injection E as <-. apply below_nothing. Qed.

Lemma cost_app P cs t : forall l l' i h s v h' s' v', below (snd (c_verify_parent_hashes_from P cs t i l)) h s v -> below (snd (c_verify_parent_hashes_from P cs t (i + tlen l) l')) h' s' v' ->
  below (snd (c_verify_parent_hashes_from P cs t i (l ++ l'))) (h + h') (s + s') (v + v').
Proof.
  induction l as [|nd l IH]; intros l' i h s v h' s' v' H H'.
  - cbn [app]. replace (i + tlen []) with i in H' by (unfold tlen; cbn; lia). eapply below_le; [exact H'|lia..].
  - cbn [app c_verify_parent_hashes_from] in *. unfold cbind in H |- *. destruct (fst (c_check_parent_hash P cs t (i mod 4294967296) nd)) as [[|]| | |]; cbn [snd] in *; [|eapply below_le; [exact H|lia..]..].
    replace (i + tlen (nd :: l)) with (i + 1 + tlen l) in H' by (unfold tlen; cbn [length]; lia). set (a := snd (c_check_parent_hash P cs t (i mod 4294967296) nd)) in *.
    pose proof (IH l' (i + 1) (h - hashes a) (s - checks a) (v - visits a) h' s' v') as R. revert H. unfold below, plus in *. cbn. intros H. specialize (R ltac:(lia) H'). cbn in R. lia.
Qed.
(** The nodes of a subtree, one after the other. *)
Lemma cost_block P cs t : forall k j l, (k <= 31)%nat -> j < 2 ^ (31 - N.of_nat k) -> tlen l <= 2 ^ (N.of_nat k + 1) - 1 ->
  below (snd (c_verify_parent_hashes_from P cs t (j * 2 ^ (N.of_nat k + 1)) l)) (N.of_nat k * 2 ^ (N.of_nat k + 1)) 0 (N.of_nat k * 2 ^ (N.of_nat k + 1)).
Proof.
  induction k as [|k IH]; intros j l Lk Lj Ll.
  - change (N.of_nat 0) with 0 in *. cbn in Ll. destruct l as [|nd [|]]; [apply below_nothing| |unfold tlen in Ll; cbn [length] in Ll; lia]. cbn [c_verify_parent_hashes_from].
    rewrite N.mod_small by (change (31 - 0) with 31 in Lj; change (2 ^ 31) with 2147483648 in Lj; change (2 ^ (0 + 1)) with 2; lia).
    replace (j * 2 ^ (0 + 1)) with (node_at 0 j) by (unfold node_at; change (2 ^ (0 + 1)) with 2; change (2 ^ 0) with 1; lia).
    eapply below_le; [apply (below_cbind _ _ 0 0 0 0 0 0); [apply cost_check_leaf|intros [|] _; apply below_nothing]|lia..].
  - replace (N.of_nat (S k)) with (N.of_nat k + 1) in * by lia. set (K := N.of_nat k) in *. pose proof (pow2_S (K + 1)) as Q. pose proof (pow2_S K) as Q0. pose proof (pow2_pos K) as PK.
    assert (J2 : 2 * j + 1 < 2 ^ (31 - K)). { replace (31 - K) with (31 - (K + 1) + 1) by lia. rewrite pow2_S. lia. }
    set (a := N.to_nat (2 ^ (K + 1) - 1)). rewrite <- (firstn_skipn a l). assert (LA : tlen (firstn a l) <= 2 ^ (K + 1) - 1) by (unfold tlen; rewrite firstn_length; lia).
    replace (j * 2 ^ (K + 1 + 1)) with (2 * j * 2 ^ (K + 1)) by lia.
    destruct (N.le_gt_cases (tlen l) (2 ^ (K + 1) - 1)) as [S|S].
    { rewrite skipn_all2 by (unfold tlen in S; lia). rewrite app_nil_r, firstn_all2 by (unfold tlen in S; lia). eapply below_le; [apply (IH (2 * j) l); lia|nia..]. }
    assert (LE : tlen (firstn a l) = 2 ^ (K + 1) - 1) by (unfold tlen in *; rewrite firstn_length; lia).
    destruct (skipn a l) as [|nd l2] eqn:EL; [apply (f_equal (@length _)) in EL; rewrite skipn_length in EL; unfold tlen in S; cbn in EL; lia|].
    assert (L2 : tlen l2 <= 2 ^ (K + 1) - 1). { apply (f_equal (@length _)) in EL. rewrite skipn_length in EL. cbn [length] in EL. unfold tlen in *. lia. }
    assert (ND : 2 * j * 2 ^ (K + 1) + (2 ^ (K + 1) - 1) = node_at (K + 1) j) by (unfold node_at; nia).
    assert (SM : node_at (K + 1) j < 4294967296).
    { rewrite <- ND. assert (E32 : 2 ^ 32 = 2 ^ (31 - K) * 2 ^ (K + 1)) by (rewrite <- N.pow_add_r; f_equal; lia). change (2 ^ 32) with 4294967296 in E32. nia. }
    eapply below_le; [apply (cost_app P cs t _ _ _ (K * 2 ^ (K + 1)) 0 (K * 2 ^ (K + 1)) (2 ^ (K + 2) + K * 2 ^ (K + 1)) (0 + 0) (2 ^ (K + 2) + K * 2 ^ (K + 1))); [apply IH; lia|]|..].
    + rewrite LE. cbn [c_verify_parent_hashes_from]. rewrite ND, N.mod_small by exact SM. apply below_cbind; [apply cost_check; lia|]. intros [|] _; [|apply below_nothing].
      replace (node_at (K + 1) j + 1) with ((2 * j + 1) * 2 ^ (K + 1)) by (rewrite <- ND; nia). apply IH; lia.
    + replace (K + 2) with (K + 1 + 1) by lia. nia.
    + lia.
    + replace (K + 2) with (K + 1 + 1) by lia. nia.
Qed.

Lemma cost_leaves P cs gid creds now : forall ls sks eks, below (snd (c_verify_leaves P cs gid creds now sks eks ls)) 0 (N.of_nat (length ls)) 0.
Proof.
  induction ls as [|[li l] ls IH]; intros sks eks; cbn [c_verify_leaves]; [apply below_nothing|]. eapply below_le; [apply (below_cbind _ _ 0 1 0 0 (N.of_nat (length ls)) 0); [unfold below; cbn; lia|intros; apply IH]|cbn [length]; lia..].
Qed.
Lemma cost_climb t n p li : forall fuel x, below (snd (c_check_unmerged_climb fuel t n p li x)) 0 0 (N.of_nat fuel + 1).
Proof.
  induction fuel as [|fuel IH]; intros x; cbn [c_check_unmerged_climb].
  - eapply below_le; [apply (below_cbind _ _ 0 0 1 0 0 0); [unfold below; cbn; lia|]|lia..]. intros [y|] _; [|apply below_nothing]. destruct (y =? p); [apply below_nothing|]. apply below_free. intros. apply below_nothing.
  - eapply below_le; [apply (below_cbind _ _ 0 0 1 0 0 (N.of_nat fuel + 1)); [unfold below; cbn; lia|]|lia..]. intros [y|] _; [|apply below_nothing]. destruct (y =? p); [apply below_nothing|]. apply below_free. intros. apply IH.
Qed.
Lemma cost_unmerged t n p : forall l, below (snd (c_check_unmerged t n p l)) 0 0 (34 * N.of_nat (length l)).
Proof.
  induction l as [|li l IH]; cbn [c_check_unmerged]; [apply below_nothing|]. apply below_free. intros x _. eapply below_le; [apply (below_cbind _ _ 0 0 34 0 0 (34 * N.of_nat (length l))); [apply (cost_climb t n p li 33)|intros; apply IH]|cbn [length]; lia..].
Qed.
Lemma cost_parents t n : forall l i eks, below (snd (c_check_parents t n i eks l)) 0 0 (34 * unmerged_entries l).
Proof.
  induction l as [|[[lf|p]|] l IH]; intros i eks; cbn [c_check_parents]; [apply below_nothing|apply IH| |apply IH].
  eapply below_le; [apply (below_cbind _ _ 0 0 (34 * N.of_nat (length (pn_unmerged p))) 0 0 (34 * unmerged_entries l)); [apply cost_unmerged|]|unfold unmerged_entries; cbn [map fold_right]; lia..].
  intros u _. destruct (mem _ _ _); [apply below_nothing|apply IH].
Qed.
Lemma leaves_from_length t : forall fuel li ls, leaves_from fuel t li = Ok ls -> (length ls <= fuel)%nat.
Proof.
  induction fuel as [|fuel IH]; intros li ls; cbn [leaves_from]; intros E; [injection E as <-; cbn; lia|].
  apply bind_ok in E as (l & El & E). apply bind_ok in E as (r & Er & E). apply IH in Er. injection E as <-. destruct l; cbn [length]; lia.
Qed.

Lemma c103_bound P t ctx now d : full_size t d -> d <= 31 ->
  let c := snd (c_verify_integrity P t ctx now) in
  hashes c <= (d + 1) * 2 ^ (d + 1) /\ checks c <= 2 ^ d /\ visits c <= d * 2 ^ (d + 1) + 34 * unmerged_entries t.
Proof.
  intros F L. cbv zeta. change (below (snd (c_verify_integrity P t ctx now)) ((d + 1) * 2 ^ (d + 1)) (2 ^ d) (d * 2 ^ (d + 1) + 34 * unmerged_entries t)).
  assert (U : usized t d) by (left; auto). pose proof (pow2_S d) as Q. pose proof (pow2_pos d) as PD.
  assert (RT : root (num_leaves t) = Ok (node_at d 0)).
  { rewrite (usized_leaves t d U). rewrite root_ok; [rewrite depth_pow2, <- node_at_root; reflexivity|lia|change 2147483648 with (2 ^ 31); apply pow2_mono; exact L]. }
  unfold c_verify_integrity. set (cs := gc_suite ctx).
  eapply below_le; [apply (below_cbind _ _ (2 ^ (d + 1) - 1) 0 0 (d * 2 ^ (d + 1) + 0) (0 + 2 ^ d) (d * 2 ^ (d + 1) + (0 + 34 * unmerged_entries t)))|nia|lia|lia].
  - unfold c_root_tree_hash. apply below_free. rewrite RT. intros r E. injection E as <-. apply cost_hash_N. exact L.
  - intros h _. destruct (negb _); [apply below_nothing|]. apply below_cbind.
    + rewrite <- (N2Nat.id d). apply (cost_block P cs t (N.to_nat d) 0 t); [lia|rewrite N2Nat.id; apply pow2_pos|rewrite N2Nat.id, F; lia].
    + intros b _. destruct (negb b); [apply below_nothing|]. apply below_free. intros creds _. apply below_free. intros ls E. unfold leaves in E. apply leaves_from_length in E. rewrite (usized_leaves t d U) in E.
      eapply below_le; [apply (below_cbind _ _ 0 (2 ^ d) 0 0 0 (34 * unmerged_entries t))|lia..].
      * eapply below_le; [apply cost_leaves|lia..].
      * intros ks _. apply cost_parents.
Qed.

(** A digest per node, no more and no less, if the hash is computed at all. *)
Lemma hash_exact P cs t excl : forall k fuel j h, (k <= 31)%nat -> fst (c_tree_hash_f fuel P cs t (node_at (N.of_nat k) j) excl) = Ok h ->
  hashes (snd (c_tree_hash_f fuel P cs t (node_at (N.of_nat k) j) excl)) = 2 ^ (N.of_nat k + 1) - 1.
Proof.
  induction k as [|k IH]; intros fuel j h L.
  - destruct fuel; cbn [c_tree_hash_f]; rewrite leaf_index_node; change (N.of_nat 0 =? 0) with true; cbv iota; unfold cbind, free; cbn [fst]; (destruct (let* l := _ in _) as [input| | |]; [|discriminate..]); reflexivity.
  - pose proof (pow2_S (N.of_nat (S k))) as Q. replace (N.of_nat (S k)) with (N.of_nat k + 1) in * by lia. pose proof (pow2_S (N.of_nat k)). pose proof (pow2_pos (N.of_nat k)).
    destruct fuel as [|fuel]; cbn [c_tree_hash_f]; rewrite leaf_index_node; (destruct (N.eqb_spec (N.of_nat k + 1) 0); [lia|]); rewrite children_node by lia; unfold cbind, free; cbn [fst snd]; [discriminate|].
    destruct (fst (c_tree_hash_f fuel P cs t (node_at (N.of_nat k) (2 * j)) excl)) as [lh| | |] eqn:E1; cbn [fst snd]; [|discriminate..].
    destruct (fst (c_tree_hash_f fuel P cs t (node_at (N.of_nat k) (2 * j + 1)) excl)) as [rh| | |] eqn:E2; cbn [fst snd]; [|discriminate..].
    destruct (let* p := _ in _) as [input| | |]; cbn [fst snd]; [|discriminate..]. intros _.
    apply IH in E1; [|lia]. apply IH in E2; [|lia]. cbn. rewrite E1, E2. lia.
Qed.
Lemma bind_ok_eq {A B} (a : A) (k : A -> res B) : (let* x := Ok a in k x) = k a.
Proof. reflexivity. Qed.
Lemma fst_free {A B} (a : A) (k : A -> costly B) : fst (cbind (free (Ok a)) k) = fst (k a).
Proof. reflexivity. Qed.
Lemma snd_free {A B} (a : A) (k : A -> costly B) : snd (cbind (free (Ok a)) k) = plus nothing (snd (k a)).
Proof. reflexivity. Qed.
Lemma counted f P cs t d h : d <= 31 -> tree_hash_f f P cs t (node_at d 0) [] = Ok h ->
  fst (c_tree_hash_f f P cs t (node_at d 0) []) = Ok h /\ hashes (plus nothing (snd (c_tree_hash_f f P cs t (node_at d 0) []))) = 2 ^ (d + 1) - 1.
Proof.
  intros L E. rewrite <- same_hash in E. split; [exact E|]. pose proof (hash_exact P cs t [] (N.to_nat d) f 0 h) as X. rewrite N2Nat.id in X. specialize (X ltac:(lia) E). unfold plus, nothing. cbn [hashes]. rewrite X. lia.
Qed.
Lemma c103_hash P cs t d h : full_size t d -> d <= 31 -> root_tree_hash P cs t = Ok h ->
  fst (c_root_tree_hash P cs t) = Ok h /\ hashes (snd (c_root_tree_hash P cs t)) = tlen t.
Proof.
  intros F L E. assert (U : usized t d) by (left; auto). pose proof (pow2_pos d) as PD.
  assert (RT : root (num_leaves t) = Ok (node_at d 0)).
  { rewrite (usized_leaves t d U). rewrite root_ok; [rewrite depth_pow2, <- node_at_root; reflexivity|lia|change 2147483648 with (2 ^ 31); apply pow2_mono; exact L]. }
  unfold root_tree_hash in E. rewrite RT in E. rewrite (bind_ok_eq (node_at d 0) (fun r => tree_hash P cs t r [])) in E.
  unfold c_root_tree_hash. rewrite RT, fst_free, snd_free. rewrite F. exact (counted 33 P cs t d h L E).
Qed.

Lemma entries_size t : unmerged_entries t <= size_ratchet_tree t.
Proof.
  unfold unmerged_entries, size_ratchet_tree, size_list. induction t as [|nd t IH]; cbn [map fold_right]; [lia|].
  assert (match nd with Some (Parent p) => N.of_nat (length (pn_unmerged p)) | _ => 0 end <= size_option size_node nd); [|lia].
  destruct nd as [[lf|p]|]; [lia| |lia]. unfold size_option, size_node, size_parent_node, size_list. assert (N.of_nat (length (pn_unmerged p)) = fold_right (fun (a : N) n => size_one a + n) 0 (pn_unmerged p)) as ->; [|lia].
  induction (pn_unmerged p) as [|a l IHl]; cbn [fold_right length]; [reflexivity|]. unfold size_one at 1. lia.
Qed.
Lemma c103_received P bs t rest ctx now : de_ratchet_tree bs = Ok (t, rest) ->
  let c := snd (c_verify_integrity P t ctx now) in let n := N.of_nat (length bs) in hashes c <= 64 * n /\ checks c <= n /\ visits c <= 130 * n.
Proof.
  intros D. pose proof (entries_size t) as ES. destruct (tree_no_bigger bs t rest D) as (S & T). destruct t as [|nd t].
  - assert (Z : snd (c_verify_integrity P [] ctx now) = nothing) by (unfold c_verify_integrity, c_root_tree_hash; change (root (num_leaves [])) with (@Panic N); reflexivity). cbv zeta. rewrite Z. cbn [hashes checks visits nothing]. lia.
  - destruct (decoded_sized bs _ rest D) as (d & F & L & _); [discriminate|]. set (tt := nd :: t) in *.
    assert (Ld : d <= 31). { unfold full_size in F. destruct (N.le_gt_cases d 31) as [X|X]; [exact X|]. exfalso. assert (2 ^ 33 <= 2 ^ (d + 1)) by (apply pow2_mono; lia). change (2 ^ 33) with 8589934592 in *. lia. }
    pose proof (c103_bound P tt ctx now d F ltac:(lia)) as (H1 & H2 & H3). pose proof (pow2_S d) as Q. unfold full_size, tlen in F. cbv zeta. assert (W : 2 ^ (d + 1) <= 2 * N.of_nat (length bs)) by lia. nia.
Qed.

(** The recursions go no deeper than the node's level. *)
Lemma resolve_fuel t : forall k f f' j, (k <= 31)%nat -> (k <= f)%nat -> (k <= f')%nat -> resolve_f f t (node_at (N.of_nat k) j) = resolve_f f' t (node_at (N.of_nat k) j).
Proof.
  induction k as [|k IH]; intros f f' j H L L'.
  - destruct f, f'; cbn [resolve_f]; change (N.of_nat 0) with 0; rewrite TreeMathProofs.children_leaf; reflexivity.
  - destruct f as [|f]; [lia|]. destruct f' as [|f']; [lia|]. cbn [resolve_f]. replace (N.of_nat (S k)) with (N.of_nat k + 1) by lia. destruct (tget t (node_at (N.of_nat k + 1) j)) as [[]|]; try reflexivity.
    rewrite children_node by lia. cbn [bind]. rewrite (IH f f') by lia. apply bind_ext. intros a. rewrite (IH f f') by lia. reflexivity.
Qed.
Lemma c103_depth P cs t k j excl : k <= 31 ->
  tree_hash P cs t (node_at k j) excl = tree_hash_f (N.to_nat k) P cs t (node_at k j) excl /\ resolve t (node_at k j) = resolve_f (N.to_nat k) t (node_at k j).
Proof.
  intros L. rewrite <- (N2Nat.id k) at 1 3 4 6. unfold tree_hash, resolve. split; [apply tree_hash_fuel|apply resolve_fuel]; lia.
Qed.

Lemma c103_example : full_size ex_verified 1 /\ c_verify_integrity toy ex_verified (ex_context ex_verified) (fun _ => 5000%Z) = (Ok tt, Cost 7 2 2).
Proof. split; vm_compute; reflexivity. Qed.
