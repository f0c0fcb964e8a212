(** Facts behind PropWork.v. *)
From Verif Require Import CostFacts TreeOps TreeMathProofs.
From Verif Require Import SpecWork.
Local Open Scope N_scope.

Local Opaque tree_hash_f resolve_f c_tree_hash_f c_resolve_f.

Lemma same_climb' n : forall fuel x, fst (c_climb fuel n x) = climb fuel n x.
Proof.
  induction fuel as [|f IH]; intros x; cbn [c_climb climb]; rewrite fst_cbind, fst_pay; apply bind_ext; intros [p|]; try reflexivity.
  rewrite fst_cbind, IH. reflexivity.
Qed.
Lemma same_find t : forall fuel li, fst (c_find_blank fuel t li) = find_blank fuel t li.
Proof.
  induction fuel as [|f IH]; intros li; cbn [c_find_blank find_blank]; rewrite fst_pay, fst_cbind; apply bind_ext; intros ni; (destruct (tlen t <=? ni); [reflexivity|]); (destruct (tget t ni); [|reflexivity]); [reflexivity|].
  rewrite fst_cbind. apply bind_ext. intros l. apply IH.
Qed.
Lemma same_add t l : fst (c_tree_add t l) = tree_add t l.
Proof.
  unfold c_tree_add, tree_add. rewrite fst_cbind, same_find. apply bind_ext. intros [[li ni] found]. rewrite fst_cbind. apply bind_ext. intros [ni' t']. rewrite fst_cbind, same_climb'. reflexivity.
Qed.
Lemma same_update t li l : fst (c_tree_update t li l) = tree_update t li l.
Proof. unfold c_tree_update, tree_update. rewrite fst_cbind. apply bind_ext. intros ni. rewrite fst_cbind, same_climb'. reflexivity. Qed.
Lemma same_scan t : forall k lp, fst (c_scan_down k t lp) = scan_down k t lp.
Proof.
  induction k as [|k IH]; intros lp; cbn [c_scan_down scan_down]; rewrite fst_pay, fst_cbind; apply bind_ext; intros ni; (destruct (tget t ni); [reflexivity|]); [reflexivity|apply IH].
Qed.
Lemma same_remove t li : fst (c_tree_remove t li) = tree_remove t li.
Proof.
  unfold c_tree_remove, tree_remove. rewrite fst_cbind. apply bind_ext. intros ni. rewrite fst_cbind, same_climb'. apply bind_ext. intros path. rewrite fst_cbind. apply bind_ext. intros last.
  rewrite fst_cbind, same_scan. reflexivity.
Qed.
Lemma same_updates senders : forall ps t i, fst (c_apply_updates t ps senders i) = apply_updates t ps senders i.
Proof.
  induction ps as [|p ps IH]; intros t i; [reflexivity|]. destruct p; cbn [c_apply_updates apply_updates]; try apply IH. destruct (nth_error senders i); [|reflexivity].
  rewrite fst_cbind, same_update. apply bind_ext. intros t'. apply IH.
Qed.
Lemma same_removes : forall ps t, fst (c_apply_removes t ps) = apply_removes t ps.
Proof.
  induction ps as [|p ps IH]; intros t; [reflexivity|]. destruct p; cbn [c_apply_removes apply_removes]; try apply IH. rewrite fst_cbind, same_remove. apply bind_ext. intros t'. apply IH.
Qed.
Lemma same_adds : forall ps t, fst (c_apply_adds t ps) = apply_adds t ps.
Proof.
  induction ps as [|p ps IH]; intros t; [reflexivity|]. destruct p; cbn [c_apply_adds apply_adds]; try apply IH. rewrite fst_cbind, same_add. apply bind_ext. intros t'. apply IH.
Qed.
Lemma same_apply t ps senders : fst (c_tree_apply t ps senders) = tree_apply t ps senders.
Proof.
  unfold c_tree_apply, tree_apply. rewrite fst_cbind, same_updates. apply bind_ext. intros t1. rewrite fst_cbind, same_removes. apply bind_ext. intros t2. apply same_adds.
Qed.

Lemma same_filtered t n : forall fuel x, fst (c_filtered_path_f fuel t n x) = filtered_path_f fuel t n x.
Proof.
  induction fuel as [|f IH]; intros x; cbn [c_filtered_path_f filtered_path_f]; rewrite fst_cbind, fst_pay; apply bind_ext; intros [p|]; try reflexivity; rewrite fst_cbind; apply bind_ext; intros [s|]; try reflexivity;
    rewrite fst_cbind, same_resolve; apply bind_ext; intros r; [reflexivity|]. rewrite fst_cbind, IH. reflexivity.
Qed.
Lemma same_set P cs direct sender : forall rpath t prev, (let z := c_set_parent_hashes P cs direct sender t prev rpath in (fst z, fst (snd z))) = set_parent_hashes P cs direct sender t prev rpath.
Proof.
  cbv zeta. induction rpath as [|ni rest IH]; intros t prev; [reflexivity|]. cbn [c_set_parent_hashes set_parent_hashes]. destruct (tget t ni) as [[l|p]|]; [apply IH| |apply IH].
  destruct (children ni) as [[[l r]|]| | |]; try reflexivity. rewrite same_hash. unfold tree_hash. destruct (tree_hash_f 33 P cs t (copath_child direct sender l r) []) as [th| | |]; try reflexivity.
  destruct (parent_hash P cs _ th) as [h| | |]; try reflexivity. cbn [fst snd]. rewrite fst_pay. apply IH.
Qed.
Definition plain (z : tree * costly unit) : tree * res unit := (fst z, fst (snd z)).
Lemma plain_bind {A} t (m : costly A) k k' : (forall a, plain (k a) = k' a) -> plain (ctbind t m k) = tbind t (fst m) k'.
Proof. intros H. unfold ctbind, tbind. destruct (fst m); [|reflexivity..]. rewrite <- H. unfold plain. cbn [fst snd]. rewrite fst_pay. reflexivity. Qed.
Lemma same_merge P cs t sender path : plain (c_merge_update_path P cs t sender path) = merge_update_path P cs t sender path.
Proof.
  unfold c_merge_update_path, merge_update_path. apply (plain_bind t (free (node_index sender))). intros sni. unfold direct_path. rewrite <- same_climb'. apply plain_bind. intros direct. cbv zeta.
  unfold filtered_direct_path. rewrite <- same_filtered. apply plain_bind. intros fpath. destruct (negb _); [reflexivity|].
  rewrite <- same_set. cbv zeta. apply plain_bind. intros prev. destruct (lp_source _); try reflexivity. destruct prev; [|reflexivity]. destruct (negb _); reflexivity.
Qed.

Lemma same_derive P cs : forall fuel t x, fst (c_derive_children fuel P cs t x) = derive_children fuel P cs t x.
Proof.
  induction fuel as [|f IH]; intros t x; cbn [c_derive_children derive_children]; rewrite fst_cbind; apply bind_ext; intros [[l r]|]; try reflexivity. destruct (sget t x); [|reflexivity].
  rewrite fst_cbind. apply bind_ext. intros k. rewrite fst_cbind, fst_pay. apply bind_ext. intros ls. rewrite fst_cbind, fst_pay. apply bind_ext. intros rs. rewrite fst_cbind, IH. apply bind_ext. intros t'. apply IH.
Qed.
Lemma same_secrets P cs n s : fst (c_new_secret_tree P cs n s) = new_secret_tree P cs n s.
Proof. unfold c_new_secret_tree, new_secret_tree. rewrite fst_cbind. apply bind_ext. intros w. rewrite fst_cbind. apply bind_ext. intros r. apply same_derive. Qed.

(** ** Carrying out proposals *)

Lemma cost_climb' n : forall fuel x, below (snd (c_climb fuel n x)) 0 0 (N.of_nat fuel + 1).
Proof.
  induction fuel as [|f IH]; intros x; cbn [c_climb].
  - eapply below_le; [apply (below_cbind _ _ 0 0 1 0 0 0); [unfold below; cbn; lia|intros [p|] _; apply below_nothing]|lia..].
  - eapply below_le; [apply (below_cbind _ _ 0 0 1 0 0 (N.of_nat f + 1)); [unfold below; cbn; lia|intros [p|] _; [|apply below_nothing]]|lia..].
    eapply below_le; [apply (below_cbind _ _ 0 0 (N.of_nat f + 1) 0 0 0); [apply IH|intros; apply below_nothing]|lia..].
Qed.
Lemma cost_path n x : below (snd (c_climb 33 n x)) 0 0 34.
Proof. exact (cost_climb' n 33 x). Qed.
Lemma cost_find t : forall fuel li, below (snd (c_find_blank fuel t li)) 0 0 (N.of_nat fuel + 1).
Proof.
  induction fuel as [|f IH]; intros li; cbn [c_find_blank].
  - eapply below_le; [apply (below_pay one_visit _ 0 0 1 0 0 0); [unfold below; cbn; lia|]|lia..]. apply below_free. intros ni _. destruct (tlen t <=? ni); [apply below_nothing|]. destruct (tget t ni); apply below_nothing.
  - eapply below_le; [apply (below_pay one_visit _ 0 0 1 0 0 (N.of_nat f + 1)); [unfold below; cbn; lia|]|lia..]. apply below_free. intros ni _. destruct (tlen t <=? ni); [apply below_nothing|]. destruct (tget t ni); [|apply below_nothing].
    apply below_free. intros li' _. apply IH.
Qed.
Lemma cost_scan t : forall k lp, below (snd (c_scan_down k t lp)) 0 0 (N.of_nat k + 1).
Proof.
  induction k as [|k IH]; intros lp; cbn [c_scan_down].
  - eapply below_le; [apply (below_pay one_visit _ 0 0 1 0 0 0); [unfold below; cbn; lia|]|lia..]. apply below_free. intros ni _. destruct (tget t ni); apply below_nothing.
  - eapply below_le; [apply (below_pay one_visit _ 0 0 1 0 0 (N.of_nat k + 1)); [unfold below; cbn; lia|]|lia..]. apply below_free. intros ni _. destruct (tget t ni); [apply below_nothing|apply IH].
Qed.
Lemma cost_add t l : below (snd (c_tree_add t l)) 0 0 (tlen t + 35).
Proof.
  unfold c_tree_add. eapply below_le; [apply (below_cbind _ _ 0 0 (tlen t + 1) 0 0 34); [apply cost_find|intros [[li ni] found] _]|lia..].
  apply below_free. intros [ni' t'] _. eapply below_le; [apply (below_cbind _ _ 0 0 34 0 0 0); [apply cost_path|intros; apply below_nothing]|lia..].
Qed.
Lemma cost_update t li l : below (snd (c_tree_update t li l)) 0 0 34.
Proof. unfold c_tree_update. apply below_free. intros ni _. eapply below_le; [apply (below_cbind _ _ 0 0 34 0 0 0); [apply cost_path|intros; apply below_nothing]|lia..]. Qed.
Lemma leaves_len t : num_leaves t <= tlen t + 1.
Proof.
  unfold num_leaves, num_leaves_of_width, tlen32. pose proof (N.mod_le (tlen t) 4294967296 ltac:(lia)). set (m := tlen t mod 4294967296) in *.
  destruct (N.eqb_spec m 0); [lia|]. pose proof (N.div_le_upper_bound (m - 1) 2 (m - 1) ltac:(lia) ltac:(lia)). lia.
Qed.
Lemma cost_remove t li : below (snd (c_tree_remove t li)) 0 0 (tlen t + 35).
Proof.
  unfold c_tree_remove. apply below_free. intros ni _. eapply below_le; [apply (below_cbind _ _ 0 0 34 0 0 (num_leaves t)); [apply cost_path|intros path _]|lia|lia|pose proof (leaves_len t); lia].
  apply below_free. intros last E. unfold sub32 in E. destruct (N.ltb_spec (num_leaves t) 1); [discriminate|]. apply Ok_inj in E. subst last.
  eapply below_le; [apply (below_cbind _ _ 0 0 (N.of_nat (N.to_nat (num_leaves t - 1)) + 1) 0 0 0); [apply cost_scan|intros; apply below_nothing]|lia..].
Qed.

Definition is_full (o : option node) : bool := match o with Some _ => true | None => false end.
Definition filled (t : tree) : N := N.of_nat (length (filter is_full t)).
Lemma filled_cons o t : filled (o :: t) = (if is_full o then 1 else 0) + filled t.
Proof. unfold filled. cbn [filter]. destruct (is_full o); cbn [length]; lia. Qed.
Lemma filled_app t t' : filled (t ++ t') = filled t + filled t'.
Proof. unfold filled. rewrite filter_app, app_length. lia. Qed.
Lemma filled_len t : filled t <= tlen t.
Proof. induction t as [|o t IH]; [cbn; lia|]. rewrite filled_cons. unfold tlen in *. cbn [length]. destruct (is_full o); lia. Qed.
Lemma filled_none k : filled (repeat None k) = 0.
Proof. induction k as [|k IH]; [reflexivity|]. cbn [repeat]. rewrite filled_cons, IH. reflexivity. Qed.
Lemma filled_split t i : i < tlen t -> filled t = filled (firstn (N.to_nat i) t) + (if is_full (tget t i) then 1 else 0) + filled (skipn (S (N.to_nat i)) t).
Proof.
  rewrite tget_nth. unfold tlen. intros H. assert (L : (N.to_nat i < length t)%nat) by lia. clear H. revert L. generalize (N.to_nat i) as k. clear i. induction t as [|o t IH]; intros k L; [cbn in L; lia|].
  destruct k as [|k]; cbn [firstn skipn nth].
  - rewrite filled_cons. cbn. lia.
  - rewrite !filled_cons. cbn [length] in L. rewrite (IH k) by lia. cbn [skipn]. lia.
Qed.
Lemma filled_tset t i v : filled (tset t i v) <= filled t + (if is_full v then 1 else 0).
Proof.
  unfold tset. destruct (N.ltb_spec i (tlen t)); [|destruct (is_full v); lia].
  rewrite (filled_split t i) by assumption. rewrite filled_app, filled_cons. destruct (is_full v), (is_full (tget t i)); lia.
Qed.
Lemma filled_over t i v : is_full (tget t i) = true -> filled (tset t i v) <= filled t.
Proof.
  intros F. unfold tset. destruct (N.ltb_spec i (tlen t)); [|lia]. rewrite (filled_split t i) by assumption. rewrite F, filled_app, filled_cons. destruct (is_full v); lia.
Qed.
Lemma filled_push li path : forall t, filled (fold_left (push_unmerged li) path t) <= filled t.
Proof.
  induction path as [|p path IH]; intros t; [cbn; lia|]. cbn [fold_left]. eapply N.le_trans; [apply IH|]. unfold push_unmerged. destruct (tget t p) as [[l|q]|] eqn:E; [lia| |lia]. apply filled_over. rewrite E. reflexivity.
Qed.
Lemma push_len li path : forall t, tlen (fold_left (push_unmerged li) path t) = tlen t.
Proof.
  induction path as [|p path IH]; intros t; [reflexivity|]. cbn [fold_left]. rewrite IH. unfold push_unmerged. destruct (tget t p) as [[l|q]|]; [reflexivity|apply tlen_tset|reflexivity].
Qed.
Lemma node_index_val li ni : node_index li = Ok ni -> ni = 2 * li.
Proof. unfold node_index, mul32. destruct (_ <=? _); intros E; [|discriminate E]. apply Ok_inj in E. lia. Qed.
Lemma no_blank t : forall fuel li li' ni, find_blank fuel t li = Ok (li', ni, false) -> forall i, li <= i -> 2 * i < tlen t -> is_full (tget t (2 * i)) = true.
Proof.
  induction fuel as [|f IH]; intros li li' ni E i L I; cbn [find_blank] in E; destruct (node_index li) as [x| | |] eqn:X; try discriminate E; cbn [bind] in E; apply node_index_val in X; subst x;
    (destruct (N.leb_spec (tlen t) (2 * li)); [lia|]); destruct (tget t (2 * li)) eqn:G; try discriminate E.
  destruct (add32 li 1) as [l1| | |] eqn:A; try discriminate E. cbn [bind] in E. destruct (N.eq_dec i li) as [->|Q]; [rewrite G; reflexivity|].
  assert (l1 = li + 1) by (unfold add32 in A; destruct (_ <=? _) in A; try discriminate A; apply Ok_inj in A; lia). subst l1. apply (IH _ _ _ E); lia.
Qed.
Lemma evens_filled : forall k t, (length t <= k)%nat -> (forall i, 2 * i < tlen t -> is_full (tget t (2 * i)) = true) -> tlen t <= 2 * filled t.
Proof.
  induction k as [|k IH]; intros t L H; [destruct t; [cbn; lia|cbn in L; lia]|]. destruct t as [|a [|b t]]; [cbn; lia| |].
  - specialize (H 0 ltac:(cbn; lia)). rewrite tget_nth in H. change (is_full a = true) in H. rewrite filled_cons, H. cbn. lia.
  - pose proof (H 0 ltac:(unfold tlen; cbn [length]; lia)) as H0. rewrite tget_nth in H0. change (is_full a = true) in H0. rewrite !filled_cons, H0.
    assert (Q : tlen t <= 2 * filled t).
    { apply IH; [cbn in L; lia|]. intros i I. specialize (H (i + 1)). unfold tlen in *. cbn [length] in H. specialize (H ltac:(lia)). rewrite tget_nth in *. replace (N.to_nat (2 * (i + 1))) with (S (S (N.to_nat (2 * i)))) in H by lia. exact H. }
    unfold tlen in *. cbn [length]. destruct (is_full b); lia.
Qed.
Lemma add_sizes t l t' : tree_add t l = Ok t' -> filled t' <= filled t + 1 /\ (tlen t' = tlen t \/ tlen t' = 2 * tlen t + 1 /\ tlen t <= 2 * filled t).
Proof.
  unfold tree_add. destruct (find_blank (length t) t 0) as [[[li ni] found]| | |] eqn:F; try discriminate. cbn [bind]. destruct found.
  - cbn [bind]. destruct (climb 33 (num_leaves t) ni) as [path| | |]; try discriminate. cbn [bind]. intros E. apply Ok_inj in E. subst t'. split.
    + eapply N.le_trans; [apply filled_tset|]. pose proof (filled_push li path t). cbn [is_full]. lia.
    + left. rewrite tlen_tset. apply push_len.
  - destruct (add32 (tlen32 t) 1) as [n1| | |]; try discriminate. cbn [bind]. set (t1 := (t ++ repeat None (S (length t)))%list). destruct (climb 33 (num_leaves t1) n1) as [path| | |]; try discriminate. cbn [bind]. intros E. apply Ok_inj in E. subst t'. split.
    + eapply N.le_trans; [apply filled_tset|]. pose proof (filled_push li path t1). assert (filled t1 = filled t) by (unfold t1; rewrite filled_app, filled_none; lia). cbn [is_full]. lia.
    + right. rewrite tlen_tset, push_len. unfold t1, tlen. rewrite app_length, repeat_length. split; [lia|]. apply (evens_filled (length t)); [lia|]. intros i I. apply (no_blank t _ _ _ _ F); [lia|exact I].
Qed.
Lemma cost_adds B : forall ps t, tlen t <= B -> 4 * (filled t + N.of_nat (length ps)) <= B ->
  below (snd (c_apply_adds t ps)) 0 0 (N.of_nat (length (filter (fun p => match p with PAdd _ => true | _ => false end) ps)) * (B + 35)).
Proof.
  induction ps as [|p ps IH]; intros t L F; [apply below_nothing|]. cbn [length] in F. destruct p; cbn [c_apply_adds filter]; try (apply IH; lia).
  cbn [length]. eapply below_le; [apply (below_cbind _ _ 0 0 (B + 35)); [eapply below_le; [apply cost_add|lia..]|intros t' E]|..].
  - rewrite same_add in E. apply add_sizes in E as [Q1 Q2]. apply IH; [|lia]. destruct Q2 as [->|[-> Q2]]; lia.
  - lia.
  - lia.
  - lia.
Qed.
Lemma update_len t li l t' : tree_update t li l = Ok t' -> tlen t' = tlen t.
Proof.
  unfold tree_update. destruct (node_index li) as [ni| | |]; try discriminate. cbn [bind]. destruct (climb _ _ _) as [path| | |]; try discriminate. cbn [bind]. intros E. apply Ok_inj in E. subst t'.
  rewrite fold_blank_len. apply tlen_tset.
Qed.
Lemma remove_len t li t' : tree_remove t li = Ok t' -> tlen t' <= tlen t.
Proof.
  unfold tree_remove. destruct (node_index li) as [ni| | |]; try discriminate. cbn [bind]. destruct (climb _ _ _) as [path| | |]; try discriminate. cbn [bind]. destruct (sub32 _ 1) as [last| | |]; try discriminate. cbn [bind].
  destruct (scan_down _ _ _) as [[lp|]| | |]; try discriminate; cbn [bind]; intros E; apply Ok_inj in E; subst t'; [|unfold tlen; cbn; lia].
  pose proof (fold_blank_len (ni :: path) t) as FL. set (t1 := fold_left blank (ni :: path) t) in *. rewrite <- FL. clearbody t1. destruct (lp <? tlen t1); [|lia]. unfold tlen. rewrite firstn_length. lia.
Qed.
Definition is_update (p : proposal) : bool := match p with PUpdate _ => true | _ => false end.
Definition is_remove (p : proposal) : bool := match p with PRemove _ => true | _ => false end.
Lemma cost_updates senders : forall ps t i, below (snd (c_apply_updates t ps senders i)) 0 0 (N.of_nat (length (filter is_update ps)) * 34) /\
  forall t', fst (c_apply_updates t ps senders i) = Ok t' -> tlen t' = tlen t.
Proof.
  induction ps as [|p ps IH]; intros t i; [split; [apply below_nothing|intros t' E; apply Ok_inj in E; subst; reflexivity]|]. destruct p; cbn [c_apply_updates filter is_update]; try apply IH.
  cbn [length]. destruct (nth_error senders i); [|split; [apply below_nothing|discriminate]]. split.
  - eapply below_le; [apply (below_cbind _ _ 0 0 34); [apply cost_update|intros t' _; apply IH]|lia..].
  - intros t' E. rewrite fst_cbind in E. destruct (fst (c_tree_update _ _ _)) as [t1| | |] eqn:U; try discriminate E. cbn [bind] in E. rewrite same_update in U. apply update_len in U. rewrite <- U. revert E. apply IH.
Qed.
Lemma cost_removes B : forall ps t, tlen t <= B -> below (snd (c_apply_removes t ps)) 0 0 (N.of_nat (length (filter is_remove ps)) * (B + 35)) /\
  forall t', fst (c_apply_removes t ps) = Ok t' -> tlen t' <= B.
Proof.
  induction ps as [|p ps IH]; intros t L; [split; [apply below_nothing|intros t' E; apply Ok_inj in E; subst; exact L]|]. destruct p; cbn [c_apply_removes filter is_remove]; try (apply IH; exact L).
  cbn [length]. split.
  - eapply below_le; [apply (below_cbind _ _ 0 0 (B + 35)); [eapply below_le; [apply cost_remove|lia..]|intros t' E; apply IH; rewrite same_remove in E; apply remove_len in E; lia]|lia..].
  - intros t' E. rewrite fst_cbind in E. destruct (fst (c_tree_remove _ _)) as [t1| | |] eqn:U; try discriminate E. cbn [bind] in E. rewrite same_remove in U. apply remove_len in U. revert E. apply IH. lia.
Qed.
Lemma kinds ps : (length (filter is_update ps) + length (filter is_remove ps) + length (filter (fun p => match p with PAdd _ => true | _ => false end) ps) <= length ps)%nat.
Proof. induction ps as [|p ps IH]; [cbn; lia|]. destruct p; cbn [filter is_update is_remove length]; lia. Qed.
Lemma c108_apply t ps senders : visits (snd (c_tree_apply t ps senders)) <= N.of_nat (length ps) * (4 * (tlen t + N.of_nat (length ps)) + 35).
Proof.
  set (B := 4 * (tlen t + N.of_nat (length ps))).
  assert (H : below (snd (c_tree_apply t ps senders)) 0 0 (N.of_nat (length (filter is_update ps)) * (B + 35) + (N.of_nat (length (filter is_remove ps)) * (B + 35) + N.of_nat (length (filter (fun p => match p with PAdd _ => true | _ => false end) ps)) * (B + 35)))).
  { unfold c_tree_apply. apply (below_cbind _ _ 0 0 _ 0 0); [eapply below_le; [apply cost_updates|lia..]|intros t1 E1]. apply cost_updates in E1. assert (L : tlen t1 <= tlen t) by lia.
    apply (below_cbind _ _ 0 0 _ 0 0); [eapply below_le; [apply (cost_removes (tlen t) ps t1 L)|lia..]|intros t2 E2]. apply (cost_removes (tlen t) ps t1 L) in E2. apply cost_adds; [unfold B; lia|]. pose proof (filled_len t2). unfold B. lia. }
  destruct H as (_ & _ & H). eapply N.le_trans; [exact H|]. pose proof (kinds ps). nia.
Qed.

(** ** Merging an update path *)

Lemma cost_filtered t d : d <= 30 -> forall m fuel k j, k + N.of_nat m = d -> j < 2 ^ (d - k) -> below (snd (c_filtered_path_f fuel t (2 ^ d) (node_at k j))) 0 0 (2 ^ (d + 1) - 2 ^ (k + 1) + 1).
Proof.
  intros D. assert (N0 : 0 < 2 ^ d) by apply pow2_pos. assert (N1 : 2 ^ d <= 2147483648) by (change 2147483648 with (2 ^ 31); apply pow2_mono; lia).
  induction m as [|m IH]; intros fuel k j K J.
  - assert (k = d) by lia. subst k. rewrite N.sub_diag in J. change (2 ^ 0) with 1 in J. assert (j = 0) by lia. subst j. rewrite N.sub_diag.
    assert (R : parent (2 ^ d) (node_at d 0) = Ok None) by (pose proof (parent_root (2 ^ d) N0 N1) as R; rewrite depth_pow2 in R; exact R).
    destruct fuel; cbn [c_filtered_path_f]; rewrite R; unfold below; cbn; lia.
  - assert (KD : k < depth (2 ^ d)) by (rewrite depth_pow2; lia). pose proof (pow2_S (k + 1)) as Q. assert (2 ^ (k + 2) <= 2 ^ (d + 1)) by (apply pow2_mono; lia). replace (k + 1 + 1) with (k + 2) in Q by lia. pose proof (pow2_pos (k + 1)).
    destruct (step_up_in d k j) as [A B]; [lia|exact J|].
    destruct fuel as [|f]; cbn [c_filtered_path_f]; rewrite (parent_in _ _ _ N0 N1 KD); (eapply below_le; [apply (below_cbind _ _ 0 0 1 0 0 (2 ^ (d + 1) - 2 ^ (k + 1))); [unfold below; cbn; lia|intros p E; cbn [fst pay free] in E; apply Ok_inj in E; subst p]|lia..]);
      apply below_free; intros s E; rewrite (sibling_in _ _ _ N0 N1 KD) in E; apply Ok_inj in E; subst s.
    + eapply below_le; [apply (below_cbind _ _ 0 0 (2 ^ (k + 1) - 1) 0 0 0); [apply cost_resolve_N; lia|intros; apply below_nothing]|lia..].
    + eapply below_le; [apply (below_cbind _ _ 0 0 (2 ^ (k + 1) - 1) 0 0 (2 ^ (d + 1) - 2 ^ (k + 2) + 1)); [apply cost_resolve_N; lia|intros r _]|lia..].
      unfold step_up. eapply below_le; [apply (below_cbind _ _ 0 0 (2 ^ (d + 1) - 2 ^ (k + 2) + 1) 0 0 0); [|intros; apply below_nothing]|lia..].
      replace (k + 2) with (k + 1 + 1) by lia. apply IH; [lia|exact B].
Qed.
Definition weights (l : list (N * N)) : N := fold_right (fun kj a => 2 ^ (fst kj + 1) + a) 0 l.
Definition places (l : list (N * N)) : list N := map (fun kj => node_at (fst kj + 1) (snd kj)) l.
Lemma filtered_places t d : d <= 30 -> forall m fuel k j fp, k + N.of_nat m = d -> j < 2 ^ (d - k) -> filtered_path_f fuel t (2 ^ d) (node_at k j) = Ok fp ->
  exists l, fp = places l /\ Forall (fun kj => fst kj < d) l /\ weights l <= 2 ^ (d + 1) - 2 ^ (k + 1).
Proof.
  intros D. assert (N0 : 0 < 2 ^ d) by apply pow2_pos. assert (N1 : 2 ^ d <= 2147483648) by (change 2147483648 with (2 ^ 31); apply pow2_mono; lia).
  induction m as [|m IH]; intros fuel k j fp K J.
  - assert (k = d) by lia. subst k. rewrite N.sub_diag in J. change (2 ^ 0) with 1 in J. assert (j = 0) by lia. subst j.
    assert (R : parent (2 ^ d) (node_at d 0) = Ok None) by (pose proof (parent_root (2 ^ d) N0 N1) as R; rewrite depth_pow2 in R; exact R).
    destruct fuel; cbn [filtered_path_f]; rewrite R; cbn [bind]; intros E; apply Ok_inj in E; subst fp; exists []; (split; [reflexivity|split; [constructor|cbn; lia]]).
  - assert (KD : k < depth (2 ^ d)) by (rewrite depth_pow2; lia). pose proof (pow2_S (k + 1)) as Q. assert (2 ^ (k + 2) <= 2 ^ (d + 1)) by (apply pow2_mono; lia). replace (k + 1 + 1) with (k + 2) in Q by lia. pose proof (pow2_pos (k + 1)).
    destruct (step_up_in d k j) as [A B]; [lia|exact J|]. destruct fuel as [|f]; cbn [filtered_path_f]; rewrite (parent_in _ _ _ N0 N1 KD); cbn [bind]; rewrite (sibling_in _ _ _ N0 N1 KD); cbn [bind];
      destruct (resolve t _) as [r| | |]; try discriminate. unfold step_up. cbn [bind].
    destruct (filtered_path_f f t (2 ^ d) (node_at (k + 1) (j / 2))) as [path| | |] eqn:F; try discriminate. cbn [bind]. intros E. apply Ok_inj in E.
    apply IH in F; [|lia|exact B]. destruct F as (l & -> & O & W). replace (k + 1 + 1) with (k + 2) in W by lia. destruct (Nat.eqb (length r) 0); subst fp.
    + exists l. split; [reflexivity|split; [exact O|lia]].
    + exists ((k, j / 2) :: l). split; [reflexivity|split; [constructor; [cbn; lia|exact O]|cbn [weights fold_right fst]; fold (weights l); lia]].
Qed.
Lemma cost_set P cs direct sender : forall l t prev, Forall (fun kj => fst kj < 31) l -> below (snd (snd (c_set_parent_hashes P cs direct sender t prev (places l)))) (weights l) 0 0.
Proof.
  induction l as [|[k j] l IH]; intros t prev O; [apply below_nothing|]. cbn [places map fst snd]. fold (places l). inversion O as [|? ? O1 O2]; subst. cbn [fst] in O1. cbn [weights fold_right fst]. fold (weights l). pose proof (pow2_pos (k + 1)).
  assert (SKIP : forall t prev, below (snd (snd (c_set_parent_hashes P cs direct sender t prev (places l)))) (2 ^ (k + 1) + weights l) 0 0) by (intros; eapply below_le; [apply IH; exact O2|lia..]).
  cbn [c_set_parent_hashes]. destruct (tget t (node_at (k + 1) j)) as [[lf|p]|]; [apply SKIP| |apply SKIP]. rewrite children_node by lia.
  match goal with |- context [copath_child ?a ?b ?c ?e] => assert (C : exists i, copath_child a b c e = node_at k i) by (unfold copath_child; destruct (_ || _); eauto) end. destruct C as [i C]. rewrite C.
  pose proof (cost_hash_N P cs t [] k 33 i ltac:(lia)) as HC. destruct (c_tree_hash_f 33 P cs t (node_at k i) []) as [rr cc]. cbn [fst snd] in *.
  assert (ONE : below (plus cc one_hash) (2 ^ (k + 1)) 0 0) by (revert HC; unfold below, plus; cbn; lia).
  destruct rr as [h0| | |]; cbn [snd]; [|eapply below_le; [apply (below_pay cc _ (2 ^ (k + 1) - 1) 0 0 0 0 0 HC); apply below_nothing|lia..]..].
  destruct (parent_hash P cs _ h0) as [h| | |]; cbn [snd]; [|eapply below_le; [apply (below_pay (plus cc one_hash) _ (2 ^ (k + 1)) 0 0 0 0 0 ONE); apply below_nothing|lia..]..].
  eapply below_le; [apply (below_pay (plus cc one_hash) _ (2 ^ (k + 1)) 0 0 (weights l) 0 0 ONE); apply IH; exact O2|lia..].
Qed.
Lemma weights_rev l : weights (rev l) = weights l.
Proof.
  induction l as [|kj l IH]; [reflexivity|]. cbn [rev]. assert (A : forall a b, weights (a ++ b) = weights a + weights b) by (induction a as [|x a IA]; intros b; [reflexivity|]; cbn [app weights fold_right]; fold (weights (a ++ b)); fold (weights a); rewrite IA; lia).
  rewrite A, IH. unfold weights. cbn [fold_right]. lia.
Qed.
Lemma below_ct {A} t (m : costly A) k h s v h' s' v' : below (snd m) h s v -> (forall a, fst m = Ok a -> below (snd (snd (k a))) h' s' v') -> below (snd (snd (ctbind t m k))) (h + h') (s + s') (v + v').
Proof.
  intros H K. unfold ctbind. destruct (fst m) as [a| | |]; cbn [snd]; [apply below_pay; [exact H|apply K; reflexivity]|eapply below_le; [apply (below_pay (snd m) _ h s v 0 0 0 H); apply below_nothing|lia..]..].
Qed.
Lemma c108_merge P cs t sender path d : full_size t d \/ cut_size t d -> d <= 30 ->
  let c := snd (snd (c_merge_update_path P cs t sender path)) in hashes c <= 2 ^ (d + 1) - 2 /\ checks c = 0 /\ visits c <= 2 ^ (d + 1) + 33.
Proof.
  intros S D. assert (U : usized t d) by (destruct S; [left|right]; split; auto; lia). cbv zeta.
  assert (N0 : 0 < 2 ^ d) by apply pow2_pos. assert (N1 : 2 ^ d <= 2147483648) by (change 2147483648 with (2 ^ 31); apply pow2_mono; lia). pose proof (pow2_S d) as Q.
  assert (H : below (snd (snd (c_merge_update_path P cs t sender path))) (0 + (0 + (0 + (2 ^ (d + 1) - 2 ^ (0 + 1) + 0)))) (0 + (0 + (0 + (0 + 0)))) (0 + (34 + (2 ^ (d + 1) - 2 ^ (0 + 1) + 1 + (0 + 0))))).
  { unfold c_merge_update_path. apply below_ct; [apply below_nothing|]. intros sni E. cbn [fst free] in E. apply node_index_val in E. subst sni.
    apply below_ct; [apply cost_path|]. intros direct E. rewrite same_climb' in E. rewrite (usized_leaves _ _ U) in E.
    assert (I : sender < 2 ^ d).
    { destruct (N.lt_ge_cases sender (2 ^ d)) as [L|L]; [exact L|]. exfalso. assert (O : direct_path (2 ^ d) (2 * sender) = Panic).
      { apply direct_path_out; [exact N0|exact N1|]. rewrite depth_pow2. unfold in_tree. pose proof (pow2_pos (d + 1)). lia. }
      unfold direct_path in O. rewrite O in E. discriminate E. }
    cbv zeta. set (t1 := fold_left blank direct t). assert (U1 : usized t1 d) by (eapply usized_same; [apply fold_blank_len|exact U]). rewrite (usized_leaves _ _ U1).
    assert (W : 2 * sender = node_at 0 sender) by (unfold node_at; cbn; lia). rewrite W.
    assert (M : 0 + N.of_nat (N.to_nat d) = d) by lia. assert (J : sender < 2 ^ (d - 0)) by (rewrite N.sub_0_r; exact I).
    apply below_ct; [apply (cost_filtered t1 d D (N.to_nat d) 33 0 sender M J)|]. intros fp F. rewrite same_filtered in F. apply (filtered_places t1 d D (N.to_nat d) 33 0 sender fp M J) in F as (l & -> & O & WL).
    destruct (negb _); [apply below_nothing|]. apply below_ct.
    - unfold places. rewrite <- map_rev. eapply below_le; [apply cost_set|rewrite weights_rev; exact WL|lia|lia].
      apply Forall_rev. eapply Forall_impl; [|exact O]. cbn. intros a La. lia.
    - intros prev _. destruct (lp_source _); try apply below_nothing. destruct prev; [|apply below_nothing]. destruct (negb _); apply below_nothing. }
  destruct H as (H1 & H2 & H3). change (2 ^ (0 + 1)) with 2 in *. lia.
Qed.

(** ** The secret tree *)
Lemma fst_ok {A B} (m : costly A) a (k : A -> costly B) : fst m = Ok a -> fst (cbind m k) = fst (k a).
Proof. intros E. rewrite fst_cbind, E. reflexivity. Qed.
Lemma snd_ok {A B} (m : costly A) a (k : A -> costly B) : fst m = Ok a -> snd (cbind m k) = plus (snd m) (snd (k a)).
Proof. intros E. unfold cbind. rewrite E. reflexivity. Qed.
Lemma derive_exact P cs : forall k fuel t j t', (k <= 31)%nat -> fst (c_derive_children fuel P cs t (node_at (N.of_nat k) j)) = Ok t' ->
  snd (c_derive_children fuel P cs t (node_at (N.of_nat k) j)) = Cost (2 ^ (N.of_nat k + 1) - 2) 0 0.
Proof.
  induction k as [|k IH]; intros fuel t j t' L.
  - change (N.of_nat 0) with 0. destruct fuel; cbn [c_derive_children]; rewrite TreeMathProofs.children_leaf; reflexivity.
  - pose proof (pow2_S (N.of_nat (S k))) as Q. replace (N.of_nat (S k)) with (N.of_nat k + 1) in * by lia. pose proof (pow2_S (N.of_nat k)). pose proof (pow2_pos (N.of_nat k)).
    destruct fuel as [|fuel]; cbn [c_derive_children]; rewrite children_node by lia; rewrite fst_free, snd_free; [discriminate|]. cbn match.
    destruct (sget t (node_at (N.of_nat k + 1) j)) as [s|]; [|discriminate]. destruct (p_hpke P cs) as [hk| | |]; try discriminate. rewrite fst_free, snd_free. cbv zeta.
    destruct (expand_with_label P cs s (str "tree") (str "left") (k_extract_size hk mod 65536)) as [ls| | |]; try discriminate.
    destruct (expand_with_label P cs s (str "tree") (str "right") (k_extract_size hk mod 65536)) as [rs| | |]; try discriminate.
    rewrite (fst_ok (pay one_hash (free (Ok ls))) ls), (snd_ok (pay one_hash (free (Ok ls))) ls) by reflexivity. rewrite (fst_ok (pay one_hash (free (Ok rs))) rs), (snd_ok (pay one_hash (free (Ok rs))) rs) by reflexivity.
    match goal with |- context [c_derive_children fuel P cs ?tt (node_at (N.of_nat k) (2 * j))] => set (t1 := tt) end.
    destruct (fst (c_derive_children fuel P cs t1 (node_at (N.of_nat k) (2 * j)))) as [t2| | |] eqn:E1; [|rewrite fst_cbind, E1; discriminate..].
    rewrite (fst_ok _ t2), (snd_ok _ t2) by exact E1. intros E2.
    rewrite (IH _ _ _ _ ltac:(lia) E1), (IH _ _ _ _ ltac:(lia) E2). unfold plus, pay, free, nothing, one_hash. cbn [hashes checks visits snd]. f_equal; unfold plus; cbn [hashes checks visits]; lia.
Qed.
Lemma c108_secrets P cs d s st : d <= 31 -> new_secret_tree P cs (2 ^ d) s = Ok st -> c_new_secret_tree P cs (2 ^ d) s = (Ok st, Cost (2 ^ (d + 1) - 2) 0 0).
Proof.
  intros D E. rewrite <- same_secrets in E. rewrite (surjective_pairing (c_new_secret_tree P cs (2 ^ d) s)), E. f_equal. revert E. unfold c_new_secret_tree.
  assert (N0 : 0 < 2 ^ d) by apply pow2_pos. assert (N1 : 2 ^ d <= 2147483648) by (change 2147483648 with (2 ^ 31); apply pow2_mono; lia).
  destruct (width (2 ^ d)) as [w| | |]; try discriminate. rewrite fst_free, snd_free. cbv zeta. destruct (root (2 ^ d)) as [r| | |] eqn:R; try discriminate. rewrite fst_free, snd_free. intros E.
  rewrite root_ok in R by assumption. rewrite depth_pow2, <- node_at_root in R. apply Ok_inj in R. subst r.
  match type of E with fst (c_derive_children 33 P cs ?t0 _) = _ => set (t1 := t0) in *; pose proof (derive_exact P cs (N.to_nat d) 33 t1 0 st ltac:(lia)) as X end. rewrite N2Nat.id in X. rewrite (X E). reflexivity.
Qed.

(** ** What one added member costs exactly *)
Lemma climb_exact d : d <= 30 -> forall m fuel k j, k + N.of_nat m = d -> (m <= fuel)%nat -> j < 2 ^ (d - k) -> visits (snd (c_climb fuel (2 ^ d) (node_at k j))) = d - k + 1.
Proof.
  intros D. assert (N0 : 0 < 2 ^ d) by apply pow2_pos. assert (N1 : 2 ^ d <= 2147483648) by (change 2147483648 with (2 ^ 31); apply pow2_mono; lia).
  induction m as [|m IH]; intros fuel k j K F J.
  - assert (k = d) by lia. subst k. rewrite N.sub_diag in J. change (2 ^ 0) with 1 in J. assert (j = 0) by lia. subst j.
    assert (R : parent (2 ^ d) (node_at d 0) = Ok None) by (pose proof (parent_root (2 ^ d) N0 N1) as R; rewrite depth_pow2 in R; exact R).
    destruct fuel; cbn [c_climb]; rewrite R; cbn; lia.
  - assert (KD : k < depth (2 ^ d)) by (rewrite depth_pow2; lia). destruct fuel as [|f]; [lia|]. cbn [c_climb]. rewrite (parent_in _ _ _ N0 N1 KD). rewrite (snd_ok _ (Some (step_up k j))) by reflexivity.
    destruct (step_up_in d k j) as [A B]; [lia|exact J|]. unfold step_up. specialize (IH f (k + 1) (j / 2) ltac:(lia) ltac:(lia) B).
    destruct (climb_in (2 ^ d) f (k + 1) (j / 2)) as []; rewrite ?depth_pow2; auto; try lia.
    unfold cbind. destruct (fst (c_climb f (2 ^ d) (node_at (k + 1) (j / 2)))); unfold plus, pay, free, one_visit, nothing; cbn [visits snd fst hashes checks]; unfold plus; cbn [visits snd]; lia.
Qed.
Lemma find_exact t d i : usized t d -> i < 2 ^ d -> blank_at t i -> (forall j, j < i -> ~ blank_at t j) ->
  forall m fuel li, li + N.of_nat m = i -> (m <= fuel)%nat -> visits (snd (c_find_blank fuel t li)) = i - li + 1.
Proof.
  intros U I B NB. induction m as [|m IH]; intros fuel li L F.
  - assert (li = i) by lia. subst li. assert (X : 2 * i < tlen t) by (eapply leaf_in_tlen; eauto).
    destruct fuel; cbn [c_find_blank]; rewrite (node_index_ok d) by (eauto using usized_31); unfold pay; cbn [snd]; rewrite snd_free; (destruct (N.leb_spec (tlen t) (2 * i)); [lia|]); red in B; rewrite B; cbn; lia.
  - assert (X : 2 * li < tlen t) by (eapply leaf_in_tlen; [eauto|lia]). destruct fuel as [|fuel]; [lia|]. cbn [c_find_blank]. rewrite (node_index_ok d) by (eauto using usized_31; lia). unfold pay. cbn [snd]. rewrite snd_free.
    destruct (N.leb_spec (tlen t) (2 * li)); [lia|]. specialize (NB li ltac:(lia)) as N1. unfold blank_at in N1. destruct (tget t (2 * li)) eqn:G; [|contradiction].
    assert (A : add32 li 1 = Ok (li + 1)). { unfold add32, u32_max. assert (i < 4294967296) by (eapply N.lt_le_trans; [exact I|]; change 4294967296 with (2 ^ 32); apply pow2_mono; pose proof (usized_31 _ _ U); lia). destruct (N.leb_spec (li + 1) 4294967295); [reflexivity|lia]. }
    rewrite A, snd_free. unfold plus. cbn [visits one_visit nothing]. rewrite (IH fuel (li + 1)) by lia. lia.
Qed.
Lemma add_exact t d i l : usized t d -> d <= 30 -> i < 2 ^ d -> blank_at t i -> (forall j, j < i -> ~ blank_at t j) -> visits (snd (c_tree_add t l)) = i + d + 2.
Proof.
  intros U D I B NB. assert (X : 2 * i < tlen t) by (eapply leaf_in_tlen; eauto). unfold c_tree_add. assert (F : fst (c_find_blank (length t) t 0) = Ok (i, 2 * i, true)) by (rewrite same_find; apply (find_blank_found t d i U I B NB i 0); [lia|unfold tlen in X; lia]).
  rewrite (snd_ok _ _ _ F). rewrite snd_free. assert (W : 2 * i = node_at 0 i) by (unfold node_at; cbn; lia).
  destruct (climb_leaf t d i U I) as []. assert (C : fst (c_climb 33 (num_leaves t) (2 * i)) = climb 33 (num_leaves t) (2 * i)) by apply same_climb'. rewrite (climb_leaf t d i U I) in C. rewrite (snd_ok _ _ _ C).
  pose proof (find_exact t d i U I B NB (N.to_nat i) (length t) 0 ltac:(lia) ltac:(unfold tlen in X; lia)) as V1.
  pose proof (climb_exact d D (N.to_nat d) 33 0 i ltac:(lia) ltac:(lia) ltac:(rewrite N.sub_0_r; exact I)) as V2. rewrite <- W, <- (usized_leaves t d U) in V2. unfold plus. cbn [visits snd free nothing]. rewrite V1, V2. lia.
Qed.
Lemma c108_adds ks : forall t d m, full_size t d \/ cut_size t d -> d <= 30 -> m + N.of_nat (length ks) <= 2 ^ d -> (forall j, j < m -> ~ blank_at t j) -> (forall j, m <= j -> j < 2 ^ d -> blank_at t j) ->
  forall senders, let n := N.of_nat (length ks) in 2 * visits (snd (c_tree_apply t (map (fun k => PAdd (MkAdd k)) ks) senders)) = n * (2 * m + n - 1) + 2 * n * (d + 2).
Proof.
  assert (ADDS : forall t d m, usized t d -> d <= 30 -> m + N.of_nat (length ks) <= 2 ^ d -> (forall j, j < m -> ~ blank_at t j) -> (forall j, m <= j -> j < 2 ^ d -> blank_at t j) ->
    let n := N.of_nat (length ks) in 2 * visits (snd (c_apply_adds t (map (fun k => PAdd (MkAdd k)) ks))) = n * (2 * m + n - 1) + 2 * n * (d + 2)).
  { induction ks as [|k r IH]; intros t d m U D L NB B; cbv zeta; [reflexivity|]. cbn [length map c_apply_adds] in *. assert (I : m < 2 ^ d) by lia.
    destruct (add_found t d m (kp_leaf (kp_payload k)) U I (B m ltac:(lia) I) NB) as (t' & E & TL & G). cbn [add_key_package].
    assert (E' : fst (c_tree_add t (kp_leaf (kp_payload k))) = Ok t') by (rewrite same_add; exact E). rewrite (snd_ok _ _ _ E').
    assert (OP : forall j, ~ on_path d m (2 * j)) by (intros j O; exact (on_path_odd _ _ _ j O eq_refl)).
    specialize (IH t' d (m + 1)). cbv zeta in IH. unfold plus. cbn [visits].
    rewrite N.mul_add_distr_l, IH; [rewrite (add_exact t d m _ U D I (B m ltac:(lia) I) NB); nia|eapply usized_same; eassumption|exact D|lia|..].
    - intros j J. unfold blank_at. destruct (N.eq_dec j m) as [->|Q]; [rewrite (proj1 (G (2 * m)) eq_refl); discriminate|]. rewrite (proj2 (proj2 (G (2 * j)))); [apply NB; lia|lia|apply OP].
    - intros j J1 J2. unfold blank_at. rewrite (proj2 (proj2 (G (2 * j)))); [apply B; lia|lia|apply OP]. }
  intros t d m S D L NB B senders. cbv zeta. assert (U : usized t d) by (destruct S; [left|right]; split; auto; lia).
  assert (NU : forall i, c_apply_updates t (map (fun k => PAdd (MkAdd k)) ks) senders i = free (Ok t)) by (clear; induction ks as [|k r IH]; intros i; [reflexivity|]; cbn [map c_apply_updates]; apply IH).
  assert (NR : c_apply_removes t (map (fun k => PAdd (MkAdd k)) ks) = free (Ok t)) by (clear; induction ks as [|k r IH]; [reflexivity|]; cbn [map c_apply_removes]; apply IH).
  unfold c_tree_apply. rewrite NU, snd_free, NR, snd_free. unfold plus. cbn [visits nothing]. rewrite !N.add_0_l. apply (ADDS t d m U D L NB B).
Qed.
