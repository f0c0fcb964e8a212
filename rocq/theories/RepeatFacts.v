(** Proofs about calls that repeat or supersede others (C125). *)
From Verif Require Import SpecTight SpecRepeat TightFacts RosterFacts TreeInv TreeFacts HashFacts Merge MergeFail TreeMath TreePaths TreeOps Verified.
Local Open Scope N_scope.

Lemma num_leaves_len t t' : tlen t' = tlen t -> num_leaves t' = num_leaves t.
Proof. intros L. unfold num_leaves, tlen32. rewrite L. reflexivity. Qed.
Lemma fold_blank_same l t t' : tlen t' = tlen t -> (forall x, ~ In x l -> tget t' x = tget t x) -> fold_left blank l t' = fold_left blank l t.
Proof.
  intros L H. apply tree_ext; [rewrite !fold_blank_len; exact L|]. intros x _. rewrite !fold_blank_get. destruct (in_dec N.eq_dec x l) as [I|I]; [reflexivity|auto].
Qed.

(** Only the length of the array and the nodes off the sender's path matter for a merge; for an update or a removal, the leaf does not either. *)
Lemma merge_off P cs t d i u t' : shaped t d -> tlen t' = tlen t -> (forall x, ~ on_path d i x -> tget t' x = tget t x) -> i < 2 ^ d ->
  merge_update_path P cs t' i u = merge_update_path P cs t i u.
Proof.
  intros G L H Hi. pose proof (shaped_usized t d G) as U. unfold merge_update_path. rewrite (num_leaves_len t t' L).
  rewrite (node_index_ok d) by (eauto using usized_31). cbn [tbind]. unfold direct_path. rewrite (climb_leaf t d i U Hi). cbn [tbind].
  rewrite (fold_blank_same (up d i) t t' L); [reflexivity|]. intros x NI. apply H. intros O. apply NI, in_up, O.
Qed.
Lemma update_off t d i l t' : shaped t d -> tlen t' = tlen t -> (forall x, x <> 2 * i -> ~ on_path d i x -> tget t' x = tget t x) -> i < 2 ^ d ->
  tree_update t' i l = tree_update t i l.
Proof.
  intros G L H Hi. pose proof (shaped_usized t d G) as U. assert (U' : usized t' d) by (eapply usized_same; [exact L|exact U]).
  destruct (update_ok t d i l U Hi) as (a & E & La & A). destruct (update_ok t' d i l U' Hi) as (b & E' & Lb & B). rewrite E, E'. f_equal.
  apply tree_ext; [congruence|]. intros x _. destruct (A x) as (A1 & A2 & A3), (B x) as (B1 & B2 & B3). destruct (N.eq_dec x (2 * i)) as [Q|Q]; [rewrite A1, B1 by exact Q; reflexivity|].
  destruct (on_path_dec d i x) as [O|O]; [rewrite A2, B2 by exact O; reflexivity|]. rewrite A3, B3 by assumption. apply H; assumption.
Qed.
Lemma remove_off t d i t' : shaped t d -> tlen t' = tlen t -> (forall x, x <> 2 * i -> ~ on_path d i x -> tget t' x = tget t x) -> i < 2 ^ d ->
  tree_remove t' i = tree_remove t i.
Proof.
  intros G L H Hi. pose proof (shaped_usized t d G) as U. unfold tree_remove. rewrite (num_leaves_len t t' L).
  rewrite (node_index_ok d) by (eauto using usized_31). cbn [bind]. rewrite (climb_leaf t d i U Hi). cbn [bind].
  rewrite (fold_blank_same (2 * i :: up d i) t t' L); [reflexivity|]. intros x NI. apply H; [intros ->; apply NI; left; reflexivity|]. intros O. apply NI. right. apply in_up, O.
Qed.
Lemma filtered_off t d i t' : shaped t d -> shaped t' d -> (forall x, x <> 2 * i -> ~ on_path d i x -> tget t' x = tget t x) -> i < 2 ^ d ->
  filtered_direct_path t' (2 * i) = filtered_direct_path t (2 * i).
Proof.
  intros G G' H Hi. rewrite (filtered_leaf t d i (sh_unmerged t d G) (shaped_usized t d G) Hi), (filtered_leaf t' d i (sh_unmerged t' d G') (shaped_usized t' d G') Hi).
  f_equal. apply fpath_agree. intros e He x I. apply (inside_off_path d) with (i := i) in I as [A B]; [auto|apply sib_not_covers].
Qed.
Lemma merged_off P cs t d i u t' t'' : shaped t d -> shaped t' d -> tlen t' = tlen t -> (forall x, x <> 2 * i -> ~ on_path d i x -> tget t' x = tget t x) -> i < 2 ^ d ->
  merged P cs t d i u t'' -> merged P cs t' d i u t''.
Proof.
  intros G G' L H Hi [ML MF MO (fp & ph & EF & MP)]. split; [congruence|exact MF|intros x A B; rewrite MO, H by assumption; reflexivity|].
  exists fp, ph. split; [rewrite (filtered_off t d i t' G G' H Hi); exact EF|exact MP].
Qed.
Lemma merge_off_leaf P cs t d i u t' t'' : shaped t d -> shaped t' d -> tlen t' = tlen t -> (forall x, x <> 2 * i -> ~ on_path d i x -> tget t' x = tget t x) -> i < 2 ^ d ->
  (merge_update_path P cs t' i u = (t'', Ok tt) <-> merge_update_path P cs t i u = (t'', Ok tt)).
Proof.
  intros G G' L H Hi. rewrite (c25 P cs t d i u t'' G Hi), (c25 P cs t' d i u t'' G' Hi). split; [|apply merged_off; assumption].
  apply merged_off; try assumption; [congruence|]. intros x A B. symmetry. apply H; assumption.
Qed.

(** What a call about member [i] leaves behind: the same tree off [i]'s leaf and path. *)
Lemma about_off P cs t d op ok t' i : shaped t d -> performed P cs t op ok t' -> about op i ->
  i < 2 ^ d /\ shaped t' d /\ tlen t' = tlen t /\ (forall x, x <> 2 * i -> ~ on_path d i x -> tget t' x = tget t x) /\
  (ok = false -> forall x, ~ on_path d i x -> tget t' x = tget t x).
Proof.
  intros G H A. pose proof (shaped_usized t d G) as U.
  destruct H as [l t' R E|j l t' E|j t' E|j u t' E|j u e t' E]; cbn in A; try contradiction; subst j.
  - destruct (N.lt_ge_cases i (2 ^ d)) as [L|L]; [|rewrite (update_out t d) in E by assumption; discriminate].
    split; [exact L|]. split; [eapply update_shaped; eassumption|]. destruct (c17 t d i l (sh_size t d G) (sh_small t d G) L) as (t2 & E2 & Q & _ & _ & B).
    rewrite E in E2. apply Ok_inj in E2. subst t2. split; [exact Q|]. split; [exact B|discriminate].
  - destruct (N.lt_ge_cases i (2 ^ d)) as [L|L]; [|rewrite (merge_out P cs t d) in E by assumption; discriminate].
    split; [exact L|]. split; [eapply merge_shaped; eassumption|]. apply (c25 P cs t d i u t' G L) in E. destruct E as [ML _ MO _]. split; [exact ML|]. split; [exact MO|discriminate].
  - destruct (N.lt_ge_cases i (2 ^ d)) as [L|L]; [|rewrite (merge_out P cs t d) in E by assumption; discriminate].
    split; [exact L|]. split; [eapply rejected_shaped; eassumption|]. destruct (c27 P cs t d i u t' (Err e) G E ltac:(discriminate)) as [ML O]. split; [exact ML|]. auto.
Qed.
Lemma superseded P cs t d op ok t1 i : shaped t d -> performed P cs t op ok t1 -> about op i ->
  (forall l, tree_update t1 i l = tree_update t i l) /\
  tree_remove t1 i = tree_remove t i /\
  (forall u t', merge_update_path P cs t1 i u = (t', Ok tt) <-> merge_update_path P cs t i u = (t', Ok tt)) /\
  (ok = false -> forall u, merge_update_path P cs t1 i u = merge_update_path P cs t i u).
Proof.
  intros G H A. destruct (about_off P cs t d op ok t1 i G H A) as (L & G1 & Q & O & F).
  exact (conj (fun l => update_off t d i l t1 G Q O L) (conj (remove_off t d i t1 G Q O L)
    (conj (fun u t' => merge_off_leaf P cs t d i u t1 t' G G1 Q O L) (fun K u => merge_off P cs t d i u t1 G Q (F K) L)))).
Qed.
Lemma repeated P cs t d op ok t1 i : shaped t d -> performed P cs t op ok t1 -> about op i -> performed P cs t1 op ok t1.
Proof.
  intros G H A. destruct (superseded P cs t d op ok t1 i G H A) as (S1 & _ & S3 & S4).
  destruct H as [l t1 R E|j l t1 E|j t1 E|j u t1 E|j u e t1 E]; cbn in A; try contradiction; subst j.
  - apply pf_update. rewrite S1. exact E.
  - apply pf_merge. apply S3, E.
  - apply (pf_rejected P cs t1 i u e). rewrite S4 by reflexivity. exact E.
Qed.
Lemma removed_twice t d i t' : shaped t d -> tree_remove t i = Ok t' -> tree_remove t' i = if i <? num_leaves t' then Ok t' else Panic.
Proof.
  intros G E. pose proof (shaped_usized t d G) as U.
  destruct (N.lt_ge_cases i (2 ^ d)) as [L|L]; [|rewrite (remove_out t d) in E by assumption; discriminate].
  destruct (remove_tight t d i t' G E) as [->|(e & Ge & Te)]; [change (num_leaves []) with 0; rewrite remove_empty; destruct (N.ltb_spec i 0); [lia|reflexivity]|].
  pose proof (shaped_usized t' e Ge) as U'. rewrite (usized_leaves t' e U'). destruct (N.ltb_spec i (2 ^ e)) as [Li|Li]; [|apply (remove_out t' e); assumption].
  destruct (c18 t d i (sh_size t d G) (sh_small t d G) L) as (t2 & E2 & B & O & _). rewrite E in E2. apply Ok_inj in E2. subst t2.
  assert (Le : e <= d). { destruct (remove_shaped t d i t' G L E) as [->|(e' & Le & Ge')]; [|rewrite (size_unique t' e e' (sh_size t' e Ge) (sh_size t' e' Ge')); exact Le].
    destruct Te as (m & l & _ & Q & _). rewrite empty_members in Q. discriminate. }
  assert (Q : blanked t' e i = t').
  { apply tree_ext; [apply blanked_len|]. intros x _. destruct (blanked_get t' e i x) as [K1 K2]. destruct (N.eq_dec x (2 * i)) as [->|Ne]; [rewrite K1 by auto; symmetry; exact B|].
    destruct (on_path_dec e i x) as [P|P]; [rewrite K1 by auto; symmetry; apply O; destruct P as (k & j & Hk & Ex & C); exists k, j; split; [lia|auto]|]. apply K2; assumption. }
  destruct (remove_eq t' e i U' Li) as [[_ NB]|(m & Lm & NB & After & E3)]; rewrite Q in *.
  - exfalso. destruct Te as (m & l & Lm & Em & _). specialize (NB m Lm). apply (leaf_blank t' e m Ge) in NB. congruence.
  - rewrite E3. assert (S : N.size m = e).
    { apply size_half; [exact Lm|]. destruct Te as (k & l & Lk & Ek & [->|H]); [auto|right]. destruct (N.le_gt_cases k m) as [Z|Z]; [lia|].
      specialize (After k (conj Z Lk)). apply (leaf_blank t' e k Ge) in After. congruence. }
    rewrite S, N.ltb_irrefl. reflexivity.
Qed.
Lemma updates_commute t d i j l l' : shaped t d -> i <> j ->
  (let* t1 := tree_update t i l in tree_update t1 j l') = (let* t1 := tree_update t j l' in tree_update t1 i l).
Proof.
  intros G Ne. pose proof (shaped_usized t d G) as U.
  assert (S : forall a b la lb, a < 2 ^ d -> 2 ^ d <= b -> (let* t1 := tree_update t a la in tree_update t1 b lb) = Panic).
  { intros a b la lb La Lb. destruct (update_ok t d a la U La) as (t1 & E & Q & _). rewrite E. cbn [bind]. apply (update_out t1 d); [eapply usized_same; [exact Q|exact U]|exact Lb]. }
  destruct (N.lt_ge_cases i (2 ^ d)) as [Li|Li], (N.lt_ge_cases j (2 ^ d)) as [Lj|Lj].
  - destruct (update_ok t d i l U Li) as (a & E & Qa & A). destruct (update_ok t d j l' U Lj) as (b & E' & Qb & B). rewrite E, E'. cbn [bind].
    destruct (update_ok a d j l' (usized_same _ _ _ Qa U) Lj) as (a' & Ea & Qa' & A'). destruct (update_ok b d i l (usized_same _ _ _ Qb U) Li) as (b' & Eb & Qb' & B'). rewrite Ea, Eb. f_equal.
    apply tree_ext; [congruence|]. intros x _. destruct (A x) as (A1 & A2 & A3), (B x) as (B1 & B2 & B3), (A' x) as (C1 & C2 & C3), (B' x) as (D1 & D2 & D3).
    assert (NP : forall c k, on_path d c x -> x <> 2 * k) by (intros c k O ->; eapply not_path; exact O).
    destruct (N.eq_dec x (2 * j)) as [Q|Q].
    + rewrite C1 by exact Q. assert (x <> 2 * i) by lia. destruct (on_path_dec d i x) as [O|O]; [exfalso; exact (NP _ j O Q)|]. rewrite D3, B1 by assumption. reflexivity.
    + destruct (on_path_dec d j x) as [O|O].
      * rewrite C2 by exact O. pose proof (NP j i O). destruct (on_path_dec d i x) as [O'|O']; [rewrite D2 by exact O'; reflexivity|]. rewrite D3, B2 by assumption. reflexivity.
      * rewrite C3 by assumption. destruct (N.eq_dec x (2 * i)) as [Q'|Q']; [rewrite A1, D1 by exact Q'; reflexivity|].
        destruct (on_path_dec d i x) as [O'|O']; [rewrite A2, D2 by exact O'; reflexivity|]. rewrite A3, D3, B3 by assumption. reflexivity.
  - rewrite (S i j l l' Li Lj), (update_out t d j) by assumption. reflexivity.
  - rewrite (S j i l' l Lj Li), (update_out t d i) by assumption. reflexivity.
  - rewrite !(update_out t d) by assumption. reflexivity.
Qed.

Lemma added_twice : exists t d l t1 t2 i j, good t d /\ tree_add t l = Ok t1 /\ tree_add t1 l = Ok t2 /\ i <> j /\ leaf_at t2 i = Some l /\ leaf_at t2 j = Some l.
Proof.
  exists ex_one, 0, (ex_leaf x02). eexists _, _, 1, 2. split; [exact (good_single _)|]. split; [vm_compute; reflexivity|]. split; [vm_compute; reflexivity|].
  split; [discriminate|]. split; reflexivity.
Qed.
Definition ex_bad_path : update_path := MkUpdatePath (ex_leaf_commit x05 []) [MkUpdatePathNode [x99] []].
Lemma ex_repeat : exists t1, shaped ex_merged3 2 /\ performed toy Suite1 ex_merged3 (OMerge 2 ex_bad_path) false t1 /\ t1 <> ex_merged3 /\
  performed toy Suite1 ex_three (OMerge 0 ex_path3) true ex_merged3 /\ about (OMerge 2 ex_bad_path) 2.
Proof.
  eexists. split; [exact (merge_shaped toy Suite1 ex_three 2 0 ex_path3 ex_merged3 (good_shaped _ _ ex_three_good) eq_refl ex_merge3)|].
  split; [eapply pf_rejected; vm_compute; reflexivity|]. split; [vm_compute; discriminate|]. split; [exact (pf_merge _ _ _ _ _ _ ex_merge3)|reflexivity].
Qed.
Lemma ex_remove_again : exists t', shaped ex_three 2 /\ tree_remove ex_three 1 = Ok t' /\ tree_remove t' 1 = Ok t'.
Proof. eexists. split; [exact (good_shaped _ _ ex_three_good)|]. split; [vm_compute; reflexivity|]. vm_compute. reflexivity. Qed.
Lemma rejected_spoils : exists P cs t d i u t' e, good t d /\ verify_parent_hashes P cs t = Ok true /\ merge_update_path P cs t i u = (t', Err e) /\
  verify_parent_hashes P cs t' = Ok false.
Proof.
  exists toy, Suite1, ex_merged3, 2, 2, ex_bad_path. eexists _, _. split; [exact (merge_good toy Suite1 ex_three 2 0 ex_path3 ex_merged3 ex_three_good eq_refl ex_merge3)|].
  split; [vm_compute; reflexivity|]. split; [vm_compute; reflexivity|]. vm_compute. reflexivity.
Qed.
