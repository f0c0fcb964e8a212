(** Further consequences: several removals, resolution coverage, failed merges, proposal application, lookups. *)
From Verif Require Export TreeInv.
From Verif Require Import WireWF CodecLib WireCodecs.
From Coq Require Import Permutation ZifyBool ZifyNat ZifyN.
Local Open Scope N_scope.

(** ** Several removals *)

Fixpoint removes (t : tree) (l : list N) : res tree :=
  match l with [] => Ok t | i :: r => let* t := tree_remove t i in removes t r end.

Lemma remove_cases t d i : usized t d -> i < 2 ^ d -> exists t', tree_remove t i = Ok t' /\
  (forall j, tget t' (2 * j) = if N.eq_dec j i then None else tget t (2 * j)) /\
  (t' = [] \/ exists e, e <= d /\ usized t' e /\ forall j, ~ blank_at t' j -> j < 2 ^ e).
Proof.
  intros U Hi. destruct (remove_ok t d i U Hi) as (t' & E & Bi & _ & Hj & _ & S). exists t'. split; [exact E|].
  assert (TB : forall j, 2 ^ d <= j -> tlen t <= 2 * j). { intros j Lj. pose proof (pow2_S d). destruct U as [[Q _]|[Q _]]; red in Q; lia. }
  assert (LT : tlen t' <= tlen t).
  { destruct S as [[-> _]|[(e & m & Le & Ce & _)|[Q _]]]; [cbn; lia| |lia]. red in Ce. rewrite Ce. apply usized_len in U.
    assert (2 ^ (e + 1) <= 2 ^ d) by (apply pow2_mono; lia). rewrite (pow2_S d) in U. pose proof (pow2_pos d). lia. }
  assert (J : forall j, tget t' (2 * j) = if N.eq_dec j i then None else tget t (2 * j)).
  { intros j. destruct (N.eq_dec j i) as [->|Ne]; [exact Bi|]. destruct (N.lt_ge_cases j (2 ^ d)) as [L|L]; [apply Hj; assumption|].
    specialize (TB j L). rewrite !tget_beyond by lia. reflexivity. }
  split; [exact J|]. pose proof (usized_31 t d U) as D31.
  destruct S as [[-> _]|[(e & m & Le & Ce & Lm & Nm & Bm & Sm & Q)|[Q (m & Lm & _)]]]; [left; reflexivity| |]; right.
  - exists e. split; [lia|]. split; [right; split; [exact Ce|lia]|]. intros j Bj. assert (~ blank_at t j /\ j <> i) as [B1 B2].
    { unfold blank_at in *. rewrite J in Bj. destruct (N.eq_dec j i); tauto. }
    apply Q; [|exact B2|exact B1]. destruct (N.lt_ge_cases j (2 ^ d)) as [L|L]; [exact L|]. exfalso. apply B1. apply tget_beyond, TB, L.
  - exists d. split; [lia|]. split; [eapply usized_same; eassumption|]. intros j Bj. destruct (N.lt_ge_cases j (2 ^ d)) as [L|L]; [exact L|].
    exfalso. apply Bj. apply tget_beyond. specialize (TB j L). lia.
Qed.

Lemma removes_ok : forall l t d, usized t d -> NoDup l -> (forall i, In i l -> i < 2 ^ d /\ ~ blank_at t i) ->
  exists t', removes t l = Ok t' /\ forall j, tget t' (2 * j) = if in_dec N.eq_dec j l then None else tget t (2 * j).
Proof.
  induction l as [|i l IH]; intros t d U ND M; cbn [removes]; [exists t; auto|]. inversion ND as [|? ? NI ND']; subst.
  destruct (M i (or_introl eq_refl)) as [Hi Bi]. destruct (remove_cases t d i U Hi) as (t1 & E & J & S). rewrite E. cbn [bind].
  assert (M1 : forall k, In k l -> ~ blank_at t1 k).
  { intros k Ik. destruct (M k (or_intror Ik)) as [Hk Bk]. unfold blank_at in *. rewrite J. destruct (N.eq_dec k i); [subst; tauto|exact Bk]. }
  assert (F : forall j (t' : tree), tget t' (2 * j) = (if in_dec N.eq_dec j l then None else tget t1 (2 * j)) ->
     tget t' (2 * j) = if in_dec N.eq_dec j (i :: l) then None else tget t (2 * j)).
  { intros j t' H. rewrite H, J. destruct (in_dec N.eq_dec j l) as [I|I]; destruct (in_dec N.eq_dec j (i :: l)) as [I'|I']; cbn [In] in I'; try reflexivity.
    - exfalso. apply I'. right. exact I.
    - destruct (N.eq_dec j i); [reflexivity|]. exfalso. destruct I' as [I'|I']; [auto|tauto].
    - destruct (N.eq_dec j i) as [->|]; [|reflexivity]. exfalso. apply I'. left. reflexivity. }
  destruct S as [->|(e & Le & Ue & Me)].
  - destruct l as [|k l]; [|exfalso; apply (M1 k (or_introl eq_refl)); apply tget_beyond; cbn; lia]. exists []. cbn [removes]. split; [reflexivity|].
    intros j. apply F. reflexivity.
  - destruct (IH t1 e Ue ND') as (t' & E' & J'); [intros k Ik; split; auto|]. exists t'. split; [exact E'|]. intros j. apply F, J'.
Qed.

Lemma apply_removes_eq l : forall t, apply_removes t (map (fun i => PRemove (MkRemove i)) l) = removes t l.
Proof.
  induction l as [|i l IH]; intros t; cbn [map apply_removes removes rem_removed]; [reflexivity|]. destruct (tree_remove t i); cbn [bind]; try reflexivity. apply IH.
Qed.
Lemma apply_only_removes t l s : tree_apply t (map (fun i => PRemove (MkRemove i)) l) s = removes t l.
Proof.
  unfold tree_apply. assert (U : forall l k t, apply_updates t (map (fun i => PRemove (MkRemove i)) l) s k = Ok t).
  { clear. induction l as [|i l IH]; intros k t; cbn [map apply_updates]; [reflexivity|apply IH]. }
  assert (A : forall l t, apply_adds t (map (fun i => PRemove (MkRemove i)) l) = Ok t).
  { clear. induction l as [|i l IH]; intros t; cbn [map apply_adds]; [reflexivity|apply IH]. }
  rewrite U. cbn [bind]. rewrite apply_removes_eq. destruct (removes t l); cbn [bind]; [apply A|reflexivity..].
Qed.

(** On well-formed trees the order of the removals does not matter at all. *)

Lemma cut_all b d e : good b d -> e < d -> (forall a, ~ blank_at b a -> a < 2 ^ e) -> forall x, tget (firstn (N.to_nat (2 ^ (e + 1))) b) x = tget b x.
Proof.
  intros G He M x. rewrite tget_firstn. destruct (N.ltb_spec x (2 ^ (e + 1))) as [L|L]; [reflexivity|]. destruct (tget b x) as [nd|] eqn:E; [|reflexivity]. exfalso.
  destruct (node_decomp x) as (k & j & ->). rewrite pow2_S in L. destruct (N.eq_dec k 0) as [->|K0].
  - rewrite node_at_leaf in *. assert (j < 2 ^ e) by (apply M; unfold blank_at; rewrite E; discriminate). lia.
  - replace k with (k - 1 + 1) in * by lia. destruct nd as [l|p]; [eapply g_parent; eassumption|].
    destruct (g_sides b d G _ j p E) as (_ & y & _ & _ & Cy & By). apply M in By. unfold covers in Cy. pose proof (node_at_S (k - 1 + 1) j) as NS. rewrite pow2_S in NS. nia.
Qed.

Definition touched (d : N) (l : list N) (x : N) : bool :=
  existsb (fun i => if N.eq_dec x (2 * i) then true else if on_path_dec d i x then true else false) l.

(** The length of the array after some removals, from the last member left. *)
Definition len_after (n d : N) (t' : tree) : Prop :=
  (t' = []) \/ exists m, ~ blank_at t' m /\ (forall a, ~ blank_at t' a -> a <= m) /\ tlen t' = if N.size m <? d then 2 ^ (N.size m + 1) else n.

Lemma size_le a b : a <= b -> N.size a <= N.size b.
Proof.
  intros H. destruct (N.eq_dec a 0) as [->|A]; [cbn; lia|]. rewrite !N.size_log2 by lia. apply -> N.succ_le_mono. apply N.log2_le_mono, H.
Qed.

Lemma touched_cut d d' l x : d' <= d -> in_tree d' x -> (forall i, In i l -> i < 2 ^ d') -> touched d' l x = touched d l x.
Proof.
  intros Hd It L. unfold touched. induction l as [|i l IH]; [reflexivity|]. cbn [existsb]. rewrite IH by (intros; apply L; right; assumption). f_equal.
  destruct (N.eq_dec x (2 * i)); [reflexivity|]. destruct (on_path_dec d' i x) as [O|O], (on_path_dec d i x) as [O'|O']; try reflexivity; exfalso.
  - apply O'. destruct O as (k & j & Hk & E & C). exists k, j. split; [lia|auto].
  - apply O. destruct O' as (k & j & Hk & E & C). exists k, j. split; [|auto]. subst x. apply in_tree_iff in It. lia.
Qed.

Lemma removes_good : forall l t d t', good t d -> removes t l = Ok t' ->
  (forall i, In i l -> i < 2 ^ d /\ ~ blank_at t i) -> NoDup l ->
  (forall x, tget t' x = if touched d l x then None else tget t x) /\ (l <> [] -> len_after (tlen t) d t').
Proof.
  induction l as [|i l IH]; intros t d t' G E M ND; cbn [removes] in E; [apply Ok_inj in E; subst t'; split; [reflexivity|congruence]|].
  inversion ND as [|? ? NI ND']; subst. destruct (M i (or_introl eq_refl)) as [Hi Bi].
  pose proof (blanked_good t d i G Hi) as GB. set (b := blanked t d i) in *.
  assert (TB : forall x, tget b x = if (if N.eq_dec x (2 * i) then true else if on_path_dec d i x then true else false) then None else tget t x).
  { intros x. destruct (blanked_get t d i x) as [A B]. fold b in A, B. destruct (N.eq_dec x (2 * i)); [apply A; auto|]. destruct (on_path_dec d i x); [apply A; auto|apply B; assumption]. }
  assert (MB : forall k, In k l -> ~ blank_at b k).
  { intros k Ik. destruct (M k (or_intror Ik)) as [Hk Bk]. unfold blank_at. rewrite TB. destruct (N.eq_dec (2 * k) (2 * i)); [assert (k = i) by lia; subst; tauto|].
    destruct (on_path_dec d i (2 * k)) as [O|O]; [exfalso; eapply on_path_odd; [exact O|reflexivity]|exact Bk]. }
  destruct (remove_eq t d i (good_usized t d G) Hi) as [[E2 AB]|(m & Lm & NB & B & E2)]; [fold b in AB|fold b in NB, B, E2]; rewrite E2 in E; cbn [bind] in E.
  - destruct l as [|k l]; [|exfalso; apply (MB k (or_introl eq_refl)); apply AB; apply (M k); right; left; reflexivity].
    cbn [removes] in E. apply Ok_inj in E. subst t'. split; [|intros _; left; reflexivity]. intros x. cbn [touched existsb]. rewrite Bool.orb_false_r, <- TB.
    rewrite tget_beyond by (cbn; lia). destruct (tget b x) as [nd|] eqn:Q; [|reflexivity]. exfalso.
    destruct (node_decomp x) as (k & j & ->). destruct (N.eq_dec k 0) as [->|K0].
    + rewrite node_at_leaf in Q. assert (NBj : ~ blank_at b j) by (unfold blank_at; rewrite Q; discriminate). apply NBj, AB. eapply good_member_lt; eassumption.
    + replace k with (k - 1 + 1) in * by lia. destruct nd as [lf|p]; [eapply g_parent; eassumption|].
      destruct (g_sides b d GB _ j p Q) as (y & _ & _ & By & _). apply By, AB. eapply good_member_lt; eassumption.
  - assert (MX : forall a, ~ blank_at b a -> a <= m).
    { intros a NA. pose proof (good_member_lt _ _ _ GB NA). destruct (N.le_gt_cases a m); [assumption|]. exfalso. apply NA, B. lia. }
    destruct (size_bounds m) as [B1 _].
    set (t1 := if N.size m <? d then firstn (N.to_nat (2 ^ (N.size m + 1))) b else b) in *.
    assert (T1 : exists e, e <= d /\ good t1 e /\ (forall x, tget t1 x = tget b x) /\ tlen t1 = (if N.size m <? d then 2 ^ (N.size m + 1) else tlen t) /\ e = N.min (N.size m) d).
    { unfold t1. destruct (N.ltb_spec (N.size m) d) as [L|L].
      - exists (N.size m). split; [lia|]. assert (MM : forall a, ~ blank_at b a -> a < 2 ^ N.size m) by (intros a NA; apply MX in NA; lia).
        pose proof (cut_good b d (N.size m) GB L MM) as GC. split; [exact GC|]. split; [apply (cut_all b d _ GB L MM)|]. split; [|lia].
        apply tlen_firstn. pose proof (usized_len b d (good_usized b d GB)) as UL. assert (2 ^ (N.size m + 1) <= 2 ^ d) by (apply pow2_mono; lia). rewrite pow2_S in UL. pose proof (pow2_pos d). lia.
      - exists d. split; [lia|]. split; [exact GB|]. split; [reflexivity|]. split; [apply blanked_len|lia]. }
    destruct T1 as (e & Le & G1 & Q1 & Len1 & Ee).
    assert (NB1 : forall a, ~ blank_at t1 a <-> ~ blank_at b a) by (intros a; unfold blank_at; rewrite Q1; reflexivity).
    destruct (IH t1 e t' G1 E) as [IA IL]; [|exact ND'|].
    { intros k Ik. specialize (MB k Ik). apply NB1 in MB. split; [eapply good_member_lt; eassumption|exact MB]. }
    split.
    + intros x. rewrite IA. cbn [touched existsb]. fold (touched d l x).
      destruct (tget t1 x) as [nd|] eqn:T1x.
      * pose proof (g_in t1 e G1 x nd T1x) as It. rewrite (touched_cut d e l x Le It).
        2:{ intros k Ik. apply (good_member_lt t1 e); [exact G1|]. apply NB1, MB, Ik. }
        destruct (touched d l x); [rewrite Bool.orb_true_r; reflexivity|]. rewrite Bool.orb_false_r, <- TB, <- Q1. auto.
      * rewrite Q1 in T1x. rewrite TB in T1x. destruct (touched e l x); (destruct (if N.eq_dec x (2 * i) then true else if on_path_dec d i x then true else false) eqn:TT; cbn [orb]; [reflexivity|]; rewrite T1x; destruct (touched d l x); reflexivity).
    + intros _. destruct l as [|k l].
      * cbn [removes] in E. apply Ok_inj in E. subst t'. right. exists m. split; [apply NB1; exact NB|]. split; [intros a NA; apply MX, NB1, NA|exact Len1].
      * destruct (IL ltac:(discriminate)) as [->|(m' & Nm' & Mx' & Len')]; [left; reflexivity|]. right. exists m'. split; [exact Nm'|]. split; [exact Mx'|].
        assert (Lm' : m' <= m). { apply MX, NB1. unfold blank_at in *. rewrite IA in Nm'. destruct (touched e (k :: l) (2 * m')); [congruence|exact Nm']. }
        pose proof (size_le m' m Lm') as LS. rewrite Len', Len1.
        destruct (N.ltb_spec (N.size m') e) as [A|A], (N.ltb_spec (N.size m') d) as [C|C], (N.ltb_spec (N.size m) d) as [F|F]; try reflexivity; try lia.
        replace (N.size m) with (N.size m') by lia. reflexivity.
Qed.

Lemma removes_len : forall l t d t', shaped t d -> removes t l = Ok t' ->
  (forall i, In i l -> i < 2 ^ d /\ ~ blank_at t i) -> NoDup l -> l <> [] -> len_after (tlen t) d t'.
Proof.
  induction l as [|i l IH]; intros t d t' G E M ND NE; cbn [removes] in E; [congruence|].
  inversion ND as [|? ? NI ND']; subst. destruct (M i (or_introl eq_refl)) as [Hi Bi].
  pose proof (blanked_shaped t d i G) as GB. set (b := blanked t d i) in *.
  assert (MB : forall k, In k l -> ~ blank_at b k).
  { intros k Ik. destruct (M k (or_intror Ik)) as [Hk Bk]. unfold blank_at, b. rewrite (proj2 (blanked_get t d i (2 * k))); [exact Bk| |].
    - intros Q. assert (k = i) by lia. subst. tauto.
    - intros O. eapply on_path_odd; [exact O|reflexivity]. }
  destruct (remove_eq t d i (shaped_usized t d G) Hi) as [[E2 AB]|(m & Lm & NB & B & E2)]; [fold b in AB|fold b in NB, B, E2]; rewrite E2 in E; cbn [bind] in E.
  - destruct l as [|k l]; [|exfalso; apply (MB k (or_introl eq_refl)); apply AB; apply (M k); right; left; reflexivity].
    cbn [removes] in E. apply Ok_inj in E. subst t'. left. reflexivity.
  - assert (MX : forall a, ~ blank_at b a -> a <= m).
    { intros a NA. pose proof (shaped_member_lt _ _ _ GB NA). destruct (N.le_gt_cases a m); [assumption|]. exfalso. apply NA, B. lia. }
    destruct (size_bounds m) as [B1 _].
    set (t1 := if N.size m <? d then firstn (N.to_nat (2 ^ (N.size m + 1))) b else b) in *.
    assert (T1 : exists e, e <= d /\ shaped t1 e /\ (forall a, tget t1 (2 * a) = tget b (2 * a)) /\ tlen t1 = (if N.size m <? d then 2 ^ (N.size m + 1) else tlen t) /\ e = N.min (N.size m) d).
    { unfold t1. destruct (N.ltb_spec (N.size m) d) as [L|L].
      - exists (N.size m). split; [lia|]. split; [exact (cut_shaped b d (N.size m) GB L)|]. split; [|split; [|lia]].
        + intros a. rewrite tget_firstn. destruct (N.ltb_spec (2 * a) (2 ^ (N.size m + 1))) as [Q|Q]; [reflexivity|]. rewrite pow2_S in Q.
          destruct (tget b (2 * a)) as [nd|] eqn:X; [|reflexivity]. exfalso. assert (NA : ~ blank_at b a) by (unfold blank_at; rewrite X; discriminate). apply MX in NA. lia.
        + apply tlen_firstn. pose proof (usized_len b d (shaped_usized b d GB)) as UL. assert (2 ^ (N.size m + 1) <= 2 ^ d) by (apply pow2_mono; lia). rewrite pow2_S in UL. pose proof (pow2_pos d). lia.
      - exists d. split; [lia|]. split; [exact GB|]. split; [reflexivity|]. split; [apply blanked_len|lia]. }
    destruct T1 as (e & Le & G1 & Q1 & Len1 & Ee).
    assert (NB1 : forall a, ~ blank_at t1 a <-> ~ blank_at b a) by (intros a; unfold blank_at; rewrite Q1; reflexivity).
    destruct l as [|k l].
    + cbn [removes] in E. apply Ok_inj in E. subst t'. right. exists m. split; [apply NB1; exact NB|]. split; [intros a NA; apply MX, NB1, NA|exact Len1].
    + assert (M1 : forall c, In c (k :: l) -> c < 2 ^ e /\ ~ blank_at t1 c).
      { intros c Ic. specialize (MB c Ic). apply NB1 in MB. split; [eapply shaped_member_lt; eassumption|exact MB]. }
      destruct (IH t1 e t' G1 E M1 ND' ltac:(discriminate)) as [->|(m' & Nm' & Mx' & Len')]; [left; reflexivity|]. right. exists m'. split; [exact Nm'|]. split; [exact Mx'|].
      destruct (removes_ok (k :: l) t1 e (shaped_usized t1 e G1) ND' M1) as (t2 & E3 & J). rewrite E in E3. apply Ok_inj in E3. subst t2.
      assert (Lm' : m' <= m). { apply MX, NB1. unfold blank_at in *. rewrite J in Nm'. destruct (in_dec N.eq_dec m' (k :: l)); [congruence|exact Nm']. }
      pose proof (size_le m' m Lm') as LS. rewrite Len', Len1.
      destruct (N.ltb_spec (N.size m') e) as [A|A], (N.ltb_spec (N.size m') d) as [C|C], (N.ltb_spec (N.size m) d) as [F|F]; try reflexivity; try lia.
      replace (N.size m) with (N.size m') by lia. reflexivity.
Qed.

Lemma touched_perm d l l' x : Permutation l l' -> touched d l x = touched d l' x.
Proof.
  intros P. unfold touched. induction P as [|i l l' P IH|i k l|l l' l'' P IH P' IH']; cbn [existsb]; [reflexivity|rewrite IH; reflexivity| |congruence].
  rewrite !Bool.orb_assoc. f_equal. apply Bool.orb_comm.
Qed.

Lemma removes_perm t d l l' : good t d -> NoDup l -> (forall i, In i l -> ~ blank_at t i) -> Permutation l l' -> removes t l = removes t l'.
Proof.
  intros G ND M P. assert (ND' : NoDup l') by (eapply Permutation_NoDup; eassumption).
  assert (M1 : forall i, In i l -> i < 2 ^ d /\ ~ blank_at t i) by (intros i I; split; [apply (good_member_lt t d i G)|]; apply M, I).
  assert (M2 : forall i, In i l' -> i < 2 ^ d /\ ~ blank_at t i) by (intros i I; apply M1; eapply Permutation_in; [apply Permutation_sym, P|exact I]).
  pose proof (good_usized t d G) as U.
  destruct (removes_ok l t d U ND M1) as (a & Ea & _). destruct (removes_ok l' t d U ND' M2) as (b & Eb & _). rewrite Ea, Eb. f_equal.
  destruct (removes_good l t d a G Ea M1 ND) as [A1 A2]. destruct (removes_good l' t d b G Eb M2 ND') as [B1 B2].
  assert (Q : forall x, tget a x = tget b x) by (intros x; rewrite A1, B1, (touched_perm d l l' x P); reflexivity).
  assert (QB : forall x, blank_at a x <-> blank_at b x) by (intros x; unfold blank_at; rewrite Q; reflexivity).
  apply tree_ext; [|intros; apply Q]. destruct l as [|i l].
  { apply Permutation_nil in P. subst l'. cbn in Ea, Eb. congruence. }
  assert (NE : l' <> []) by (intros ->; apply Permutation_sym, Permutation_nil in P; discriminate).
  destruct (A2 ltac:(discriminate)) as [->|(m & Nm & Xm & Lm)], (B2 NE) as [->|(n & Nn & Xn & Ln)].
  - reflexivity.
  - exfalso. apply Nn. apply QB. apply tget_beyond. cbn. lia.
  - exfalso. apply Nm. apply QB. apply tget_beyond. cbn. lia.
  - assert (m <= n) by (apply Xn; rewrite <- QB; exact Nm). assert (n <= m) by (apply Xm; rewrite QB; exact Nn).
    assert (m = n) by lia. subst n. congruence.
Qed.

(** ** Resolution on well-formed trees *)

Lemma resolution_inside t : unmerged_ok t -> forall k j x, In x (resolution t k j) -> inside (N.of_nat k) j x.
Proof.
  intros UO. induction k as [|k IH]; intros j x I; cbn [resolution] in I.
  - destruct (tget t (node_at (N.of_nat 0) j)) as [[l|p]|] eqn:E.
    + destruct I as [<-|[]]. apply inside_refl.
    + destruct I as [<-|I]; [apply inside_refl|]. apply in_map_iff in I as (u & <- & Iu). apply inside_leaf. eapply uo_below; eassumption.
    + destruct I.
  - destruct (tget t (node_at (N.of_nat (S k)) j)) as [[l|p]|] eqn:E.
    + destruct I as [<-|[]]. apply inside_refl.
    + destruct I as [<-|I]; [apply inside_refl|]. apply in_map_iff in I as (u & <- & Iu). apply inside_leaf. eapply uo_below; eassumption.
    + replace (N.of_nat (S k)) with (N.of_nat k + 1) by lia. apply in_app_or in I as [I|I]; apply IH in I; [apply inside_l|apply inside_r]; exact I.
Qed.
Lemma resolution_nonblank t : unmerged_ok t -> forall k j x, In x (resolution t k j) -> tget t x <> None.
Proof.
  intros UO. induction k as [|k IH]; intros j x I; cbn [resolution] in I;
    (destruct (tget t (node_at _ j)) as [[l|p]|] eqn:E;
    [destruct I as [<-|[]]; congruence|destruct I as [<-|I]; [congruence|]; apply in_map_iff in I as (u & <- & Iu);
       destruct (uo_below t UO _ _ _ _ E Iu) as [_ [l L]]; unfold leaf_at in L; destruct (tget t (2 * u)); [discriminate|discriminate]|]).
  - destruct I.
  - apply in_app_or in I as [I|I]; eapply IH; exact I.
Qed.
Lemma covers_split k j i : covers (k + 1) j i -> covers k (2 * j) i \/ covers k (2 * j + 1) i.
Proof.
  rewrite !covers_div, div_half. intros E. pose proof (N.div_mod (i / 2 ^ k) 2 ltac:(lia)). pose proof (N.mod_lt (i / 2 ^ k) 2 ltac:(lia)). lia.
Qed.
Lemma resolution_covers t d : good t d -> forall k j i, covers (N.of_nat k) j i -> ~ blank_at t i ->
  In (2 * i) (resolution t k j) \/ exists k' j' p, In (node_at k' j') (resolution t k j) /\ tget t (node_at k' j') = Some (Parent p) /\ covers k' j' i /\ ~ In i (pn_unmerged p).
Proof.
  intros G. induction k as [|k IH]; intros j i C NB; cbn [resolution].
  - left. change (N.of_nat 0) with 0 in *. apply covers_div in C. change (2 ^ 0) with 1 in C. rewrite N.div_1_r in C. subst j. rewrite node_at_leaf.
    unfold blank_at in NB. destruct (tget t (2 * i)) as [[l|p]|] eqn:E; [left; reflexivity|left; reflexivity|congruence].
  - destruct (tget t (node_at (N.of_nat (S k)) j)) as [[l|p]|] eqn:E.
    + exfalso. replace (N.of_nat (S k)) with (N.of_nat k + 1) in E by lia. eapply g_parent; eassumption.
    + destruct (in_dec N.eq_dec i (pn_unmerged p)) as [I|I].
      * left. right. apply in_map_iff. eauto.
      * right. exists (N.of_nat (S k)), j, p. split; [left; reflexivity|]. auto.
    + replace (N.of_nat (S k)) with (N.of_nat k + 1) in C by lia. apply covers_split in C as [C|C]; destruct (IH _ i C NB) as [Q|(k' & j' & p & Q1 & Q2)].
      * left. apply in_or_app. left. exact Q.
      * right. exists k', j', p. split; [apply in_or_app; left; exact Q1|exact Q2].
      * left. apply in_or_app. right. exact Q.
      * right. exists k', j', p. split; [apply in_or_app; right; exact Q1|exact Q2].
Qed.
Lemma inside_disjoint k j x : inside k (2 * j) x -> inside k (2 * j + 1) x -> False.
Proof. intros (k1 & j1 & L1 & -> & D1) (k2 & j2 & L2 & E & D2). apply node_at_inj in E as [<- <-]. lia. Qed.
Lemma NoDup_app_disj {A} (l l' : list A) : NoDup l -> NoDup l' -> (forall x, In x l -> In x l' -> False) -> NoDup (l ++ l').
Proof.
  induction l as [|a l IH]; intros H H' D; [exact H'|]. inversion H; subst. cbn. constructor.
  - rewrite in_app_iff. intros [I|I]; [tauto|]. eapply D; [left; reflexivity|exact I].
  - apply IH; auto. intros x I. apply D. right. exact I.
Qed.
Lemma sorted_NoDup l : StronglySorted N.lt l -> NoDup l.
Proof.
  induction 1 as [|a l S IH F]; constructor; [|exact IH]. intros I. rewrite Forall_forall in F. apply F in I. lia.
Qed.
Lemma resolution_NoDup t d : good t d -> forall k j, NoDup (resolution t k j).
Proof.
  intros G. pose proof (g_unmerged t d G) as UO. induction k as [|k IH]; intros j; cbn [resolution];
    (destruct (tget t (node_at _ j)) as [[l|p]|] eqn:E; [repeat constructor; intros []| |]).
  - exfalso. change (N.of_nat 0) with 0 in E. rewrite node_at_leaf in E. eapply g_leaf; eassumption.
  - constructor.
  - constructor.
    + intros I. apply in_map_iff in I as (u & Q & _). rewrite <- node_at_leaf in Q. apply node_at_inj in Q. lia.
    + apply FinFun.Injective_map_NoDup; [intros a b Q; lia|]. apply sorted_NoDup. eapply uo_sorted; eassumption.
  - apply NoDup_app_disj; auto. intros x I I'. apply (resolution_inside t UO) in I. apply (resolution_inside t UO) in I'. eapply inside_disjoint; eassumption.
Qed.

(** ** Failed merges *)

Lemma merge_failed P cs t d i u t' r : small_unmerged t -> usized t d -> i < 2 ^ d -> merge_update_path P cs t i u = (t', r) -> r <> Ok tt ->
  tlen t' = tlen t /\ (forall x, ~ on_path d i x -> tget t' x = tget t x).
Proof.
  intros SU U Hi E NR. rewrite (mg_eq P cs t d i u SU U Hi) in E.
  destruct (negb (Nat.eqb (length (fpath t (N.to_nat d) 0 i)) (length (up_nodes u)))) eqn:EL.
  - injection E as <- <-. split; [apply fold_blank_len|]. intros x NO. rewrite fold_blank_get.
    destruct (in_dec N.eq_dec x (up d i)) as [I|I]; [apply in_up in I; tauto|reflexivity].
  - destruct (set_parent_hashes P cs (up d i) (2 * i) _ None _) as [t3 prev] eqn:ES.
    assert (R : t' = t3).
    { destruct prev as [prev|e| |]; cbn [tbind] in E; try (injection E as <- <-; reflexivity).
      destruct (lp_source (ln_payload (up_leaf u))); try (injection E as <- <-; reflexivity).
      destruct prev; try (injection E as <- <-; reflexivity). match type of E with context [if ?c then _ else _] => destruct c end; injection E as <- <-; [reflexivity|congruence]. }
    subst t'. split.
    + rewrite (sph_len _ _ _ _ _ _ _ _ _ ES), set_path_keys_len. apply fold_blank_len.
    + intros x NO. rewrite (sph_other _ _ _ _ _ _ _ _ _ x ES) by (rewrite <- in_rev; intros I; apply NO; eapply fpath_on_path; exact I).
      apply (mg_t2_off t d i u x NO).
Qed.

(** Nobody else in the tree: no update path is ever accepted. *)
Lemma merge_alone P cs t d i u : good t d -> i < 2 ^ d -> (forall j, j <> i -> blank_at t j) ->
  exists t', merge_update_path P cs t i u =
    (t', Err (if Nat.eqb (length (up_nodes u)) 0 then ParentHashMismatchForUpdatePathLeafNode else UpdatePathAndFilteredDirectPathHasDifferentNode)).
Proof.
  intros G Hi A. pose proof (good_small t d G) as SU. pose proof (good_usized t d G) as U.
  assert (EF : fpath t (N.to_nat d) 0 i = []).
  { destruct (fpath t (N.to_nat d) 0 i) as [|x fp] eqn:E; [reflexivity|]. exfalso. assert (I : In x (fpath t (N.to_nat d) 0 i)) by (rewrite E; left; reflexivity).
    apply fpath_in in I as (e & He & _ & R). rewrite N.add_0_l in R.
    destruct (res_member t d G (N.to_nat e) (sib (i / 2 ^ e))) as (a & Ca & Ba); [rewrite N2Nat.id; apply sib_in; [exact Hi|lia]|exact R|].
    rewrite N2Nat.id in Ca. apply Ba, A. intros ->. apply (sib_not_covers e i Ca). }
  rewrite (mg_eq P cs t d i u SU U Hi), EF. cbn [length rev]. rewrite Nat.eqb_sym. destruct (Nat.eqb (length (up_nodes u)) 0); cbn [negb].
  - cbn [set_parent_hashes tbind]. destruct (lp_source (ln_payload (up_leaf u))); eexists; reflexivity.
  - eexists. reflexivity.
Qed.

(** ** Proposals by kind *)

Lemma do_updates_eq ps : forall s t k, (k + length ps <= length s)%nat ->
  apply_updates t ps s k = do_updates t (updates_of (combine ps (skipn k s))).
Proof.
  induction ps as [|p ps IH]; intros s t k L; cbn [apply_updates]; [reflexivity|]. cbn [length] in L.
  destruct (nth_error s k) as [n|] eqn:E; [|apply nth_error_None in E; lia].
  assert (SK : skipn k s = n :: skipn (S k) s). { clear -E. revert s E. induction k as [|k IH]; intros [|a s] E; cbn in *; try discriminate; [congruence|apply IH, E]. }
  rewrite SK. cbn [combine updates_of]. destruct p; try (apply IH; lia). cbn [do_updates]. destruct (tree_update t n (upd_leaf p)); cbn [bind]; try reflexivity. apply IH; lia.
Qed.
Lemma do_removes_eq ps : forall t, apply_removes t ps = do_removes t (removes_of ps).
Proof.
  induction ps as [|p ps IH]; intros t; cbn [apply_removes removes_of]; [reflexivity|]. destruct p; try apply IH. cbn [do_removes].
  destruct (tree_remove t (rem_removed p)); cbn [bind]; try reflexivity. apply IH.
Qed.
Lemma do_adds_eq ps : forall t, apply_adds t ps = do_adds t (adds_of ps).
Proof.
  induction ps as [|p ps IH]; intros t; cbn [apply_adds adds_of]; [reflexivity|]. destruct p; try apply IH. cbn [do_adds].
  destruct (tree_add t _); cbn [bind]; try reflexivity. apply IH.
Qed.
Lemma apply_by_kind t ps s : (length ps <= length s)%nat ->
  tree_apply t ps s = (let* t := do_updates t (updates_of (combine ps s)) in let* t := do_removes t (removes_of ps) in do_adds t (adds_of ps)).
Proof.
  intros L. unfold tree_apply. rewrite do_updates_eq by lia. cbn [skipn].
  destruct (do_updates t _) as [t1|e| |]; cbn [bind]; try reflexivity. rewrite do_removes_eq. destruct (do_removes t1 _) as [t2|e| |]; cbn [bind]; try reflexivity. apply do_adds_eq.
Qed.
Lemma apply_same_kinds t ps s ps' s' : (length ps <= length s)%nat -> (length ps' <= length s')%nat ->
  updates_of (combine ps s) = updates_of (combine ps' s') -> removes_of ps = removes_of ps' -> adds_of ps = adds_of ps' ->
  tree_apply t ps s = tree_apply t ps' s'.
Proof. intros L L' A B C. rewrite !apply_by_kind, A, B, C by assumption. reflexivity. Qed.
Lemma removes_do t l : removes t l = do_removes t l.
Proof. revert t. induction l as [|i l IH]; intros t; cbn; [reflexivity|]. destruct (tree_remove t i); cbn [bind]; auto. Qed.

(** Too few senders: the call panics as soon as an update has none. *)
Lemma apply_updates_short p : forall ps s t k, In p ps -> (forall x, In x ps -> exists u, x = PUpdate u) -> (length s <= k)%nat -> apply_updates t ps s k = Panic.
Proof.
  intros ps s t k I A L. destruct ps as [|q ps]; [destruct I|]. destruct (A q (or_introl eq_refl)) as [u ->]. cbn [apply_updates].
  rewrite (proj2 (nth_error_None s k)) by lia. reflexivity.
Qed.

(** ** The leaves of a tree *)

Lemma leaves_from_ok t : forall fuel li, li + N.of_nat fuel <= 2147483648 ->
  exists ls, leaves_from fuel t li = Ok ls /\ StronglySorted N.lt (map fst ls) /\ (forall i l, In (i, l) ls <-> li <= i < li + N.of_nat fuel /\ leaf_at t i = Some l).
Proof.
  induction fuel as [|fuel IH]; intros li L; cbn [leaves_from].
  - exists []. split; [reflexivity|]. split; [constructor|]. intros i l. split; [intros []|lia].
  - unfold get_leaf at 1. rewrite (node_index_ok 31) by (change (2 ^ 31) with 2147483648; lia). cbn [bind]. fold (leaf_at t li).
    destruct (IH (li + 1) ltac:(lia)) as (ls & E & S & H). rewrite E. cbn [bind]. destruct (leaf_at t li) as [l0|] eqn:E0; eexists; (split; [reflexivity|]).
    + split.
      * cbn [map fst]. constructor; [exact S|]. apply Forall_forall. intros x Ix. apply in_map_iff in Ix as ([i l] & <- & Il). apply H in Il. cbn. lia.
      * intros i l. cbn [In]. rewrite H. split.
        -- intros [Q|[Q R]]; [injection Q as <- <-; split; [lia|exact E0]|split; [lia|exact R]].
        -- intros [Q R]. destruct (N.eq_dec i li) as [->|]; [left; congruence|right; split; [lia|exact R]].
    + split; [exact S|]. intros i l. rewrite H. split; [intros [Q R]; split; [lia|exact R]|]. intros [Q R]. destruct (N.eq_dec i li) as [->|]; [congruence|split; [lia|exact R]].
Qed.
Lemma leaves_ok t d : usized t d -> exists ls, leaves t = Ok ls /\ StronglySorted N.lt (map fst ls) /\ (forall i l, In (i, l) ls <-> leaf_at t i = Some l).
Proof.
  intros U. unfold leaves. rewrite (usized_leaves t d U). pose proof (usized_31 t d U) as D31. assert (2 ^ d <= 2 ^ 31) by (apply pow2_mono, D31). change (2 ^ 31) with 2147483648 in *.
  destruct (leaves_from_ok t (N.to_nat (2 ^ d)) 0 ltac:(lia)) as (ls & E & S & H1). exists ls. split; [exact E|]. split; [exact S|]. intros i l. rewrite H1, N2Nat.id, N.add_0_l.
  split; [tauto|]. intros R. split; [|exact R]. split; [lia|]. destruct (N.lt_ge_cases i (2 ^ d)) as [|L]; [assumption|]. exfalso. unfold leaf_at in R. rewrite tget_beyond in R; [discriminate|].
  pose proof (pow2_S d). destruct U as [[Q _]|[Q _]]; red in Q; lia.
Qed.

(** ** find_leaf *)

Lemma find_leaf_in_spec node : forall ls r, StronglySorted N.lt (map fst ls) -> find_leaf_in node ls = Ok r ->
  (r = (0, false) /\ forall i l, In (i, l) ls -> lp_encryption_key (ln_payload l) <> lp_encryption_key (ln_payload node)) \/
  (exists i l, r = (i, match se_leaf_node node, se_leaf_node l with Ok a, Ok b => bytes_eqb a b | _, _ => false end) /\ In (i, l) ls /\
     lp_encryption_key (ln_payload l) = lp_encryption_key (ln_payload node) /\
     forall i' l', In (i', l') ls -> lp_encryption_key (ln_payload l') = lp_encryption_key (ln_payload node) -> i <= i').
Proof.
  induction ls as [|[li n] ls IH]; intros r S E; cbn [find_leaf_in] in E.
  - apply Ok_inj in E. left. split; [congruence|]. intros i l [].
  - cbn [map fst] in S. inversion S as [|? ? S' F]; subst. destruct (bytes_eqb (lp_encryption_key (ln_payload n)) (lp_encryption_key (ln_payload node))) eqn:B; cbn [negb] in E.
    + apply bytes_eqb_eq in B. right. exists li, n. split; [|split; [left; reflexivity|split; [exact B|]]].
      * destruct (se_leaf_node node), (se_leaf_node n); try discriminate; apply Ok_inj in E; auto.
      * intros i' l' [Q|I] _; [injection Q as <- <-; lia|]. rewrite Forall_forall in F. specialize (F i'). assert (In i' (map fst ls)) by (apply in_map_iff; exists (i', l'); auto). apply F in H. lia.
    + assert (NB : lp_encryption_key (ln_payload n) <> lp_encryption_key (ln_payload node)) by (intros Q; apply bytes_eqb_eq in Q; congruence).
      destruct (IH r S' E) as [[Q1 Q2]|(i & l & Q1 & Q2 & Q3 & Q4)].
      * left. split; [exact Q1|]. intros i l [Q|I]; [injection Q as <- <-; exact NB|eapply Q2; exact I].
      * right. exists i, l. split; [exact Q1|]. split; [right; exact Q2|]. split; [exact Q3|]. intros i' l' [Q|I] K; [injection Q as <- <-; congruence|eapply Q4; eassumption].
Qed.

Lemma find_leaf_sound t d node i : usized t d -> wf_leaf_node node -> (forall a l, leaf_at t a = Some l -> wf_leaf_node l) ->
  find_leaf t node = Ok (i, true) -> get_leaf t i = Ok (Some node) /\ forall j, leaf_at t j = Some node -> i <= j.
Proof.
  intros U W WT E. unfold find_leaf in E. destruct (leaves_ok t d U) as (ls & EL & S & H). rewrite EL in E. cbn [bind] in E.
  destruct (find_leaf_in_spec node ls _ S E) as [[Q _]|(a & l & Q & I & K & M)]; [discriminate|]. injection Q as -> Q.
  pose proof I as Ia. apply H in I.
  assert (l = node).
  { destruct (se_leaf_node node) as [p|e| |] eqn:E1; try discriminate. destruct (se_leaf_node l) as [q|e| |] eqn:E2; try discriminate.
    symmetry in Q. apply bytes_eqb_eq in Q. subst q. apply (codec_inj codec_leaf_node l node p); eauto. }
  subst l. split.
  - unfold get_leaf. assert (a < 2 ^ d).
    { destruct (N.lt_ge_cases a (2 ^ d)) as [|L]; [assumption|]. unfold leaf_at in I. rewrite tget_beyond in I; [discriminate|].
      pose proof (pow2_S d). destruct U as [[Z _]|[Z _]]; red in Z; lia. }
    rewrite (node_index_ok d) by (eauto using usized_31). cbn [bind]. fold (leaf_at t a). rewrite I. reflexivity.
  - intros j J. apply (M j node); [apply H, J|reflexivity].
Qed.

Lemma find_leaf_complete t d node i p : usized t d -> leaf_at t i = Some node -> se_leaf_node node = Ok p ->
  (forall j l, leaf_at t j = Some l -> lp_encryption_key (ln_payload l) = lp_encryption_key (ln_payload node) -> i <= j) ->
  find_leaf t node = Ok (i, true).
Proof.
  intros U L Ep M. unfold find_leaf. destruct (leaves_ok t d U) as (ls & EL & S & H). rewrite EL. cbn [bind].
  assert (Il : In (i, node) ls) by (apply H, L).
  assert (M' : forall j l, In (j, l) ls -> lp_encryption_key (ln_payload l) = lp_encryption_key (ln_payload node) -> i <= j) by (intros j l J; apply (M j l); apply H, J).
  clear EL H L M. induction ls as [|[a l] ls IH]; [destruct Il|]. cbn [find_leaf_in]. cbn [map fst] in S. inversion S as [|? ? S' F]; subst.
  destruct (bytes_eqb (lp_encryption_key (ln_payload l)) (lp_encryption_key (ln_payload node))) eqn:B; cbn [negb].
  - apply bytes_eqb_eq in B. assert (i <= a) by (apply (M' a l); [left; reflexivity|exact B]).
    destruct Il as [Q|I].
    + injection Q as -> ->. rewrite Ep. rewrite (proj2 (bytes_eqb_eq p p) eq_refl). reflexivity.
    + exfalso. rewrite Forall_forall in F. assert (a < i) by (apply F, in_map_iff; exists (i, node); auto). lia.
  - destruct Il as [Q|I].
    + injection Q as -> ->. rewrite (proj2 (bytes_eqb_eq _ _) eq_refl) in B. discriminate.
    + apply IH; auto. intros j l' J. apply M'. right. exact J.
Qed.

(** ** supported_creds *)

Lemma credential_type_eqb_eq a b : credential_type_eqb a b = true <-> a = b.
Proof.
  destruct a as [| |v], b as [| |w]; cbn; split; try congruence; try discriminate; [intros E; apply N.eqb_eq in E; congruence|].
  intros E. injection E as <-. apply N.eqb_refl.
Qed.
Lemma credential_type_eq_dec (a b : credential_type) : {a = b} + {a <> b}.
Proof. destruct (credential_type_eqb a b) eqn:E; [left; apply credential_type_eqb_eq, E|right; intros Q; apply credential_type_eqb_eq in Q; congruence]. Qed.

Fixpoint count (ct : credential_type) (m : list (credential_type * N)) : N :=
  match m with [] => 0 | (c, n) :: r => if credential_type_eqb ct c then n else count ct r end.
Definition counts_ok (m : list (credential_type * N)) : Prop := NoDup (map fst m) /\ forall c n, In (c, n) m -> 0 < n.
Lemma count_in m : counts_ok m -> forall c n, 0 < n -> (In (c, n) m <-> count c m = n).
Proof.
  intros [ND PO]. induction m as [|[c0 n0] m IH]; intros c n Hn; cbn [count In map fst] in *; [lia|]. inversion ND as [|? ? NI ND']; subst.
  destruct (credential_type_eqb c c0) eqn:E.
  - apply credential_type_eqb_eq in E. subst c0. split.
    + intros [Q|I]; [congruence|]. exfalso. apply NI. apply in_map_iff. exists (c, n). auto.
    + intros ->. left. reflexivity.
  - rewrite <- IH by (auto; intros; eapply PO; right; eassumption). split; [intros [Q|I]; [|exact I]|auto]. injection Q as -> ->.
    assert (credential_type_eqb c c = true) by (apply credential_type_eqb_eq; reflexivity). congruence.
Qed.
Lemma bump_keys ct m : forall c, In c (map fst (bump ct m)) <-> c = ct \/ In c (map fst m).
Proof.
  induction m as [|[c0 n0] m IH]; intros c; cbn [bump map fst In]; [split; [intros [|[]]; auto|intros [|[]]; auto]|].
  destruct (credential_type_eqb ct c0) eqn:E; cbn [map fst In].
  - apply credential_type_eqb_eq in E. subst. split; [intros [|]; auto|intros [|[|]]; auto].
  - rewrite IH. split; [intros [|[|]]; auto|intros [|[|]]; auto].
Qed.
Lemma bump_ok ct m : counts_ok m -> counts_ok (bump ct m).
Proof.
  intros [ND PO]. induction m as [|[c0 n0] m IH]; cbn [bump].
  - split; [repeat constructor; intros []|]. intros c n [Q|[]]. injection Q as <- <-. lia.
  - cbn [map fst] in ND. inversion ND as [|? ? NI ND']; subst. destruct (credential_type_eqb ct c0) eqn:E.
    + split; [exact ND|]. intros c n [Q|I]; [injection Q as <- <-; lia|eapply PO; right; exact I].
    + destruct IH as [A B]; [exact ND'|intros; eapply PO; right; eassumption|]. split.
      * cbn [map fst]. constructor; [|exact A]. rewrite bump_keys. intros [Q|I]; [|tauto]. subst.
        assert (credential_type_eqb ct ct = true) by (apply credential_type_eqb_eq; reflexivity). congruence.
      * intros c n [Q|I]; [eapply PO; left; exact Q|eapply B; exact I].
Qed.
Lemma bump_count ct m c : count c (bump ct m) = count c m + if credential_type_eqb c ct then 1 else 0.
Proof.
  induction m as [|[c0 n0] m IH]; cbn [bump count]; [destruct (credential_type_eqb c ct); lia|].
  destruct (credential_type_eqb ct c0) eqn:E; cbn [count].
  - apply credential_type_eqb_eq in E. subst c0. destruct (credential_type_eqb c ct); lia.
  - destruct (credential_type_eqb c c0) eqn:E'; [|exact IH]. apply credential_type_eqb_eq in E'. subst c0. destruct (credential_type_eqb c ct) eqn:E2; [|lia].
    apply credential_type_eqb_eq in E2. subst. rewrite (proj2 (credential_type_eqb_eq ct ct) eq_refl) in E. discriminate.
Qed.
Definition occ (ct : credential_type) (l : list credential_type) : N := N.of_nat (count_occ credential_type_eq_dec l ct).
Lemma bumps l : forall m, counts_ok m -> counts_ok (fold_left (fun m ct => bump ct m) l m) /\
  forall c, count c (fold_left (fun m ct => bump ct m) l m) = count c m + occ c l.
Proof.
  induction l as [|ct l IH]; intros m H; cbn [fold_left]; [split; [exact H|intros c; cbn; lia]|].
  destruct (IH (bump ct m) (bump_ok ct m H)) as [A B]. split; [exact A|]. intros c. rewrite B, bump_count. unfold occ. cbn [count_occ].
  destruct (credential_type_eq_dec ct c) as [->|Ne].
  - rewrite (proj2 (credential_type_eqb_eq c c) eq_refl). lia.
  - destruct (credential_type_eqb c ct) eqn:E; [apply credential_type_eqb_eq in E; congruence|lia].
Qed.
Definition creds_of (l : leaf_node) : list credential_type := cap_credentials (lp_capabilities (ln_payload l)).
Fixpoint total (ct : credential_type) (ls : list (N * leaf_node)) : N :=
  match ls with [] => 0 | (_, l) :: r => occ ct (creds_of l) + total ct r end.
Lemma all_bumps ls : forall m, counts_ok m ->
  let m' := fold_left (fun m (il : N * leaf_node) => fold_left (fun m ct => bump ct m) (creds_of (snd il)) m) ls m in
  counts_ok m' /\ forall c, count c m' = count c m + total c ls.
Proof.
  induction ls as [|[i l] ls IH]; intros m H; cbn [fold_left total snd]; [split; [exact H|intros c; lia]|].
  destruct (bumps (creds_of l) m H) as [A B]. destruct (IH _ A) as [C D]. split; [exact C|]. intros c. rewrite D, B. lia.
Qed.

(** Exactly what is computed: the types listed as many times as there are members. *)
Lemma supported_total t d : usized t d -> exists ls cs, leaves t = Ok ls /\ supported_creds t = Ok cs /\
  forall ct, In ct cs <-> (0 < N.of_nat (length ls) /\ total ct ls = N.of_nat (length ls)).
Proof.
  intros U. destruct (leaves_ok t d U) as (ls & E & _ & _). unfold supported_creds. rewrite E. cbn [bind]. eexists ls, _. split; [reflexivity|]. split; [reflexivity|].
  intros ct. set (m := fold_left _ ls []). assert (counts_ok (@nil (credential_type * N))) as C0 by (split; [constructor|intros c n []]).
  destruct (all_bumps ls [] C0) as [A B]. fold m in A, B. rewrite in_map_iff. split.
  - intros ([c n] & <- & F). apply filter_In in F as [I Q]. cbn [fst snd] in *. apply N.eqb_eq in Q. subst n.
    pose proof (proj2 A _ _ I) as P. split; [exact P|]. apply (count_in m A) in I; [|exact P]. rewrite B in I. cbn in I. exact I.
  - intros [P Q]. exists (ct, N.of_nat (length ls)). split; [reflexivity|]. apply filter_In. split; [|cbn; apply N.eqb_refl].
    apply (count_in m A); [exact P|]. rewrite B. cbn. exact Q.
Qed.

Lemma occ_le1 ct l : NoDup l -> occ ct l <= 1 /\ (occ ct l = 1 <-> In ct l).
Proof.
  intros ND. unfold occ. pose proof (proj1 (NoDup_count_occ credential_type_eq_dec l) ND ct). split; [lia|].
  rewrite (count_occ_In credential_type_eq_dec). lia.
Qed.
Lemma supported_iff t d : usized t d -> (exists i l, leaf_at t i = Some l) ->
  (forall i l, leaf_at t i = Some l -> NoDup (creds_of l)) ->
  exists cs, supported_creds t = Ok cs /\ forall ct, In ct cs <-> forall i l, leaf_at t i = Some l -> In ct (creds_of l).
Proof.
  intros U (i0 & l0 & M0) ND. destruct (supported_total t d U) as (ls & cs & E & E' & H). destruct (leaves_ok t d U) as (ls' & E2 & _ & HL).
  rewrite E in E2. apply Ok_inj in E2. subst ls'. exists cs. split; [exact E'|]. intros ct. rewrite H.
  assert (N0 : 0 < N.of_nat (length ls)). { apply HL in M0. destruct ls; [destruct M0|cbn; lia]. }
  assert (ND' : forall i l, In (i, l) ls -> NoDup (creds_of l)) by (intros i l I; apply HL in I; eauto).
  transitivity (forall i l, In (i, l) ls -> In ct (creds_of l)).
  2:{ split; intros Q i l I; apply (Q i l), HL, I. }
  clear -ND' N0. transitivity (total ct ls = N.of_nat (length ls)); [tauto|]. clear N0.
  assert (LE : forall ls, (forall i l, In (i, l) ls -> NoDup (creds_of l)) -> total ct ls <= N.of_nat (length ls)).
  { clear. induction ls as [|[i l] ls IH]; intros ND; cbn [total length]; [lia|]. pose proof (proj1 (occ_le1 ct _ (ND i l (or_introl eq_refl)))).
    specialize (IH (fun a b I => ND a b (or_intror I))). lia. }
  induction ls as [|[i l] ls IH]; cbn [total length]; [split; [intros _ ? ? []|reflexivity]|].
  pose proof (occ_le1 ct _ (ND' i l (or_introl eq_refl))) as [O1 O2]. specialize (LE ls (fun a b I => ND' a b (or_intror I))). specialize (IH (fun a b I => ND' a b (or_intror I))).
  split.
  - intros Q a b [I|I]; [injection I as <- <-; apply O2; lia|]. eapply IH; [lia|exact I].
  - intros Q. assert (occ ct (creds_of l) = 1) by (apply O2, (Q i l); left; reflexivity). assert (total ct ls = N.of_nat (length ls)) by (apply IH; intros a b I; eapply Q; right; exact I). lia.
Qed.

(** ** The filtered direct path, against direct_path, copath and resolve *)

Lemma fpath_filter t : forall m k j rs, length rs = m ->
  (forall e, (e < m)%nat -> nth_error rs e = Some (resolution t (N.to_nat (k + N.of_nat e)) (sib (j / 2 ^ N.of_nat e)))) ->
  fpath t m k j = map fst (filter (fun pr : N * list N => negb (Nat.eqb (length (snd pr)) 0)) (combine (path_up m k j) rs)).
Proof.
  induction m as [|m IH]; intros k j rs L H; [reflexivity|]. destruct rs as [|r rs]; [discriminate|]. cbn [length] in L.
  pose proof (H 0%nat ltac:(lia)) as H0. cbn [nth_error] in H0. change (N.of_nat 0) with 0 in H0. change (2 ^ 0) with 1 in H0. rewrite N.div_1_r, N.add_0_r in H0. injection H0 as ->.
  cbn [fpath path_up combine filter snd].
  assert (HS : forall e, (e < m)%nat -> nth_error rs e = Some (resolution t (N.to_nat (k + 1 + N.of_nat e)) (sib (j / 2 / 2 ^ N.of_nat e)))).
  { intros e He. pose proof (H (S e) ltac:(lia)) as HS. cbn [nth_error] in HS. rewrite HS. do 2 f_equal; [lia|]. f_equal.
    rewrite N.div_div by (pose proof (pow2_pos (N.of_nat e)); lia). f_equal. replace (N.of_nat (S e)) with (N.of_nat e + 1) by lia. apply pow2_S. }
  rewrite (IH (k + 1) (j / 2) rs) by (lia || exact HS).
  destruct (Nat.eqb (length (resolution t (N.to_nat k) (sib j))) 0); reflexivity.
Qed.

Lemma filtered_spec t d x : small_unmerged t -> usized t d -> in_tree d x ->
  exists path co rs, direct_path (2 ^ d) x = Ok path /\ copath (2 ^ d) x = Ok co /\ Forall2 (fun s r => resolve t s = Ok r) co rs /\
    filtered_direct_path t x = Ok (map fst (filter (fun pr : N * list N => negb (Nat.eqb (length (snd pr)) 0)) (combine path rs))).
Proof.
  intros SU U It. pose proof (usized_31 t d U) as D31. pose proof D31 as D31'. d31. rename H into P0, H0 into P1, H1 into P2.
  destruct (tm_onto d x It) as (k & j & -> & Hk & Hj).
  assert (E := direct_path_in (2 ^ d) k j P0 P1 ltac:(rewrite P2; exact It)). rewrite P2 in E.
  destruct (tm_copath d (node_at k j) D31' It) as (path & co & Ep & Ec & Lc & Hc). rewrite E in Ep. apply Ok_inj in Ep. subst path.
  rewrite path_up_length in Lc. set (m := N.to_nat (d - k)) in *.
  assert (CO : forall e, (e < m)%nat -> nth_error co e = Some (node_at (k + N.of_nat e) (sib (j / 2 ^ N.of_nat e)))).
  { intros e He. destruct (nth_error co e) as [s|] eqn:Es; [|apply nth_error_None in Es; lia].
    destruct (nth_error (path_up m k j) e) as [p|] eqn:Epp; [|apply nth_error_None in Epp; rewrite path_up_length in Epp; lia].
    destruct (Hc e p s Epp Es) as (y & Ey & _ & Sy & _).
    assert (y = node_at (k + N.of_nat e) (j / 2 ^ N.of_nat e)).
    { destruct e as [|e]; cbn [nth_error] in Ey; [|rewrite path_up_nth in Ey by lia]; injection Ey as <-.
      - change (N.of_nat 0) with 0. change (2 ^ 0) with 1. rewrite N.add_0_r, N.div_1_r. reflexivity.
      - f_equal; [lia|]. do 2 f_equal. lia. }
    subst y. rewrite sibling_in in Sy by (rewrite ?P2; assumption || lia). injection Sy as <-. reflexivity. }
  assert (RS : exists rs, length rs = m /\ Forall2 (fun s r => resolve t s = Ok r) co rs /\
     forall e, (e < m)%nat -> nth_error rs e = Some (resolution t (N.to_nat (k + N.of_nat e)) (sib (j / 2 ^ N.of_nat e)))).
  { assert (KD : k + N.of_nat m <= 31) by lia. clearbody m. clear E Hc Ec It. revert k j m Hk Hj Lc CO KD.
    induction co as [|s co IH]; intros k j m Hk Hj Lc CO KD; cbn [length] in Lc.
    - subst m. exists []. split; [reflexivity|]. split; [constructor|]. intros; lia.
    - destruct m as [|m]; [lia|]. pose proof (CO 0%nat ltac:(lia)) as C0. cbn [nth_error] in C0. injection C0 as ->.
      set (F := fun e => resolution t (N.to_nat (k + N.of_nat e)) (sib (j / 2 ^ N.of_nat e))).
      assert (G : forall q co0 a, (length co0 = q)%nat -> (a + q = S m)%nat -> (forall e, (e < q)%nat -> nth_error co0 e = Some (node_at (k + N.of_nat (a + e)) (sib (j / 2 ^ N.of_nat (a + e))))) ->
        exists rs, length rs = q /\ Forall2 (fun s r => resolve t s = Ok r) co0 rs /\ forall e, (e < q)%nat -> nth_error rs e = Some (F (a + e)%nat)).
      { clear -SU KD. induction q as [|q IHq]; intros co0 a L A HC.
        - destruct co0; [|discriminate]. exists []. split; [reflexivity|]. split; [constructor|]. intros; lia.
        - destruct co0 as [|s0 co0]; [discriminate|]. cbn [length] in L. pose proof (HC 0%nat ltac:(lia)) as H0. cbn [nth_error] in H0. injection H0 as ->. rewrite Nat.add_0_r.
          destruct (IHq co0 (S a)) as (rs & L' & FA & N'); [lia|lia| |].
          { intros e He. pose proof (HC (S e) ltac:(lia)) as HS. cbn [nth_error] in HS. replace (S a + e)%nat with (a + S e)%nat by lia. exact HS. }
          exists (F a :: rs). split; [cbn; lia|]. split.
          + constructor; [|exact FA]. unfold F. apply resolve_ok; [exact SU|lia].
          + intros [|e] He; cbn [nth_error]; [rewrite Nat.add_0_r; reflexivity|]. replace (a + S e)%nat with (S a + e)%nat by lia. apply N'. lia. }
      destruct (G (S m) (node_at (k + N.of_nat 0) (sib (j / 2 ^ N.of_nat 0)) :: co) 0%nat) as (rs & A & B & C); [cbn; lia|lia|exact CO|].
      exists rs. split; [exact A|]. split; [exact B|]. exact C. }
  destruct RS as (rs & LR & FR & NR). exists (path_up m k j), co, rs. split; [exact E|]. split; [exact Ec|]. split; [exact FR|].
  unfold filtered_direct_path. rewrite (usized_leaves t d U). rewrite (filtered_ok t (2 ^ d) SU P0 P1); rewrite ?P2; try assumption; try lia.
  fold m. f_equal. apply fpath_filter; assumption.
Qed.
