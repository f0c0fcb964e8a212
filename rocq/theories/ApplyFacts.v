(** Proofs about applying an accepted list of proposals. *)
From Coq Require Import ZifyBool ZifyNat ZifyN.
From Verif Require Import CodecLib WireCodecs TreeMore ProposalFacts SpecApply.
From Verif Require Import WireWF.
Local Open Scope N_scope.

(** ** The proposals by kind *)

Lemma in_removes ps x : In x (removes_of ps) <-> removed_leaf ps x.
Proof.
  unfold removed_leaf. induction ps as [|p ps IH]; cbn [removes_of]; [split; [intros []|intros (m & [] & _)]|].
  assert (R : (forall m, p <> PRemove m) -> ((exists m, In (PRemove m) (p :: ps) /\ rem_removed m = x) <-> exists m, In (PRemove m) ps /\ rem_removed m = x)).
  { intros Np. split; intros (m & I & Q); exists m; (split; [|exact Q]); [destruct I as [I|I]; [exfalso; exact (Np m I)|exact I]|right; exact I]. }
  destruct p; try (rewrite R by discriminate; exact IH). cbn [In]. rewrite IH. split.
  - intros [<-|(m & I & Q)]; [exists p; auto|exists m; auto].
  - intros (m & [I|I] & Q); [injection I as ->; auto|right; eauto].
Qed.
Lemma in_updates ps : forall senders x l, In (x, l) (updates_of (combine ps senders)) <-> updated_leaf ps senders x l.
Proof.
  unfold updated_leaf, at_. induction ps as [|p ps IH]; intros senders x l; [cbn; split; [intros []|intros ([|n] & u & [Q _] & _); discriminate]|].
  destruct senders as [|s senders]; [cbn; split; [intros []|intros ([|n] & u & [_ Q] & _); discriminate]|]. cbn [combine updates_of].
  assert (R : (exists n u, (nth_error ps n = Some (PUpdate u) /\ nth_error senders n = Some x) /\ upd_leaf u = l) <->
              (exists n u, (nth_error (p :: ps) (S n) = Some (PUpdate u) /\ nth_error (s :: senders) (S n) = Some x) /\ upd_leaf u = l)) by reflexivity.
  assert (T : (forall u, p <> PUpdate u) -> ((exists n u, (nth_error (p :: ps) n = Some (PUpdate u) /\ nth_error (s :: senders) n = Some x) /\ upd_leaf u = l) <->
     exists n u, (nth_error ps n = Some (PUpdate u) /\ nth_error senders n = Some x) /\ upd_leaf u = l)).
  { intros Np. split.
    - intros ([|n] & u & Q); [cbn in Q; exfalso; destruct Q as [[Q _] _]; injection Q as Q; exact (Np u Q)|exists n, u; exact Q].
    - intros (n & u & Q). exists (S n), u. exact Q. }
  destruct p; try (rewrite T by discriminate; apply IH). cbn [In]. rewrite IH, R. split.
  - intros [Q|(n & u & Q)]; [injection Q as <- <-; exists O, p; auto|exists (S n), u; exact Q].
  - intros ([|n] & u & [Q1 Q2] & Q3); [cbn in Q1, Q2; left; congruence|right; exists n, u; auto].
Qed.
Lemma in_updates_fst ps senders x : In x (map fst (updates_of (combine ps senders))) <-> exists l, updated_leaf ps senders x l.
Proof.
  rewrite in_map_iff. split; [intros ([y l] & <- & I); exists l; apply in_updates, I|intros (l & I); exists (x, l); split; [reflexivity|apply in_updates, I]].
Qed.
Lemma in_zip (ps : list proposal) : forall (senders : list N) p s, In (p, s) (combine ps senders) <-> exists n, at_ ps senders n p s.
Proof.
  unfold at_. induction ps as [|q ps IH]; intros [|s0 senders] p s; cbn [combine In]; try (split; [intros []|intros ([|n] & A & B); discriminate]).
  rewrite IH. split; [intros [Q|(n & Q)]; [injection Q as <- <-; exists O; auto|exists (S n); exact Q]|].
  intros ([|n] & A & B); [left; cbn in A, B; congruence|right; exists n; auto].
Qed.

(** Two different positions never touch the same leaf. *)
Definition one_touch (ps : list proposal) (senders : list N) : Prop :=
  forall i j p s q t x, at_ ps senders i p s -> at_ ps senders j q t -> touched_leaf p s = Some x -> touched_leaf q t = Some x -> i = j.
Lemma one_touch_tail p s ps senders : one_touch (p :: ps) (s :: senders) -> one_touch ps senders.
Proof. intros H i j q a r b x A B C D. apply Nat.succ_inj. eapply (H (S i) (S j)); eauto. Qed.
Lemma one_touch_head p s ps senders x : one_touch (p :: ps) (s :: senders) -> touched_leaf p s = Some x ->
  forall n q a, at_ ps senders n q a -> touched_leaf q a <> Some x.
Proof. intros H E n q a A Q. assert (C : O = S n) by (eapply (H O (S n)); [split; reflexivity|exact A|exact E|exact Q]). discriminate. Qed.
Lemma removed_at ps senders x : length ps = length senders -> removed_leaf ps x -> exists n m s, at_ ps senders n (PRemove m) s /\ touched_leaf (PRemove m) s = Some x.
Proof.
  intros L (m & I & Q). apply In_nth_error in I as (n & E). destruct (nth_error senders n) as [s|] eqn:S.
  - exists n, m, s. split; [split; assumption|]. cbn. congruence.
  - exfalso. apply nth_error_None in S. assert (n < length ps)%nat by (apply nth_error_Some; congruence). lia.
Qed.
Lemma updates_NoDup ps : forall senders, one_touch ps senders -> NoDup (map fst (updates_of (combine ps senders))).
Proof.
  induction ps as [|p ps IH]; intros [|s senders] H; cbn [combine updates_of map]; try constructor. pose proof (IH _ (one_touch_tail _ _ _ _ H)) as ND.
  destruct p; try exact ND. cbn [map fst]. constructor; [|exact ND]. intros I. apply in_updates_fst in I as (l & n & u & A & _).
  eapply (one_touch_head _ _ _ _ s H eq_refl n (PUpdate u) s A). reflexivity.
Qed.
Lemma removes_NoDup ps : forall senders, length ps = length senders -> one_touch ps senders -> NoDup (removes_of ps).
Proof.
  induction ps as [|p ps IH]; intros [|s senders] L H; cbn [removes_of]; try constructor; try discriminate. cbn [length] in L.
  pose proof (IH senders ltac:(lia) (one_touch_tail _ _ _ _ H)) as ND. destruct p; try exact ND. constructor; [|exact ND]. intros I. apply in_removes in I.
  destruct (removed_at ps senders _ ltac:(lia) I) as (n & q & a & A & Q). eapply (one_touch_head _ _ _ _ _ H eq_refl n (PRemove q) a A). exact Q.
Qed.

(** What is said of the tree is kept by every operation; it is instantiated with [good] and with [shaped]. *)
Section Kept.
Variable Inv : tree -> N -> Prop.
Hypothesis inv_shaped : forall t d, Inv t d -> shaped t d.
Hypothesis inv_update : forall t d i l t', Inv t d -> i < 2 ^ d -> tree_update t i l = Ok t' -> Inv t' d.
Hypothesis inv_remove : forall t d i t', Inv t d -> i < 2 ^ d -> tree_remove t i = Ok t' -> t' = [] \/ exists e, e <= d /\ Inv t' e.
Hypothesis inv_found : forall t d i l t', Inv t d -> i < 2 ^ d -> blank_at t i -> (forall j, j < i -> ~ blank_at t j) ->
  tree_add t l = Ok t' -> Inv t' d.
Hypothesis inv_full : forall t d l t', Inv t d -> full_size t d -> (forall j, j < 2 ^ d -> ~ blank_at t j) ->
  tree_add t l = Ok t' -> Inv t' (d + 1).

(** ** Updates *)

Lemma updates_ok : forall us t d, Inv t d -> NoDup (map fst us) -> (forall i, In i (map fst us) -> i < 2 ^ d) ->
  exists t', do_updates t us = Ok t' /\ Inv t' d /\ tlen t' = tlen t /\
    (forall i l, In (i, l) us -> leaf_at t' i = Some l) /\
    (forall j, ~ In j (map fst us) -> tget t' (2 * j) = tget t (2 * j)).
Proof.
  induction us as [|[i l] us IH]; intros t d G ND M; cbn [do_updates]; [exists t; split; [reflexivity|]; split; [exact G|]; split; [reflexivity|]; split; [intros ? ? []|reflexivity]|].
  cbn [map fst] in ND, M. inversion ND as [|? ? NI ND']; subst. assert (Hi : i < 2 ^ d) by (apply M; left; reflexivity).
  destruct (update_ok t d i l (shaped_usized t d (inv_shaped t d G)) Hi) as (t1 & E & L1 & A). rewrite E. cbn [bind].
  destruct (IH t1 d (inv_update t d i l t1 G Hi E) ND') as (t' & E' & G' & L' & U' & K'); [intros k Ik; apply M; right; exact Ik|].
  assert (OL : forall j, j <> i -> tget t1 (2 * j) = tget t (2 * j)).
  { intros j Ne. apply A; [lia|]. intros O. eapply on_path_odd; [exact O|reflexivity]. }
  exists t'. split; [exact E'|]. split; [exact G'|]. split; [congruence|]. split.
  - intros k lk [Q|I]; [|apply U', I]. injection Q as <- <-. unfold leaf_at. rewrite K' by exact NI. rewrite (proj1 (A (2 * i)) eq_refl). reflexivity.
  - intros j Nj. cbn [map fst In] in Nj. rewrite K' by tauto. apply OL. intros ->. tauto.
Qed.

(** ** Adds *)

Lemma add_leftmost t d l h : Inv t d -> (forall j, h <= j -> blank_at t j) -> h <= 2 ^ d -> h < 1073741824 ->
  (full_size t d \/ exists i, i < 2 ^ d /\ blank_at t i) ->
  exists t' d' i, tree_add t l = Ok t' /\ Inv t' d' /\ d <= d' /\ i <= h /\ i < 2 ^ d' /\ blank_at t i /\ (forall j, j < i -> ~ blank_at t j) /\
    (forall j, tget t' (2 * j) = if j =? i then Some (Leaf l) else tget t (2 * j)) /\ (full_size t d -> full_size t' d').
Proof.
  intros G Hh Hd HB R. destruct (leftmost_blank t (2 ^ d)) as [A|(i & Li & B & C)].
  - destruct R as [F|(i & Li & B)]; [|exfalso; eapply A; eassumption].
    assert (h = 2 ^ d). { destruct (N.lt_ge_cases h (2 ^ d)) as [L|L]; [|lia]. exfalso. apply (A h L). apply Hh. lia. } subst h.
    assert (D : d <= 30). { destruct (N.le_gt_cases d 30); [assumption|]. assert (2 ^ 30 <= 2 ^ d) by (apply pow2_mono; lia). change (2 ^ 30) with 1073741824 in *. lia. }
    destruct (add_full t d l F D A) as (t' & E & F' & H). exists t', (d + 1), (2 ^ d). split; [exact E|]. split; [eapply inv_full; eassumption|].
    split; [lia|]. split; [lia|]. split; [rewrite pow2_S; pose proof (pow2_pos d); lia|]. split; [apply Hh; lia|]. split; [exact A|]. split; [|auto].
    intros j. rewrite H. destruct (N.eqb_spec (2 * j) (2 * 2 ^ d)), (N.eqb_spec j (2 ^ d)); try lia; reflexivity.
  - destruct (add_found t d i l (shaped_usized t d (inv_shaped t d G)) Li B C) as (t' & E & L & H). exists t', d, i. split; [exact E|]. split; [eapply inv_found; eassumption|].
    split; [lia|]. split. { destruct (N.le_gt_cases i h); [assumption|]. exfalso. apply (C h); [assumption|]. apply Hh. lia. }
    split; [exact Li|]. split; [exact B|]. split; [exact C|]. split; [|intros F; red in F; red; congruence].
    intros j. destruct (N.eqb_spec j i) as [->|Ne]; [apply H; reflexivity|]. apply H; [lia|]. intros O. eapply on_path_odd; [exact O|reflexivity].
Qed.

Lemma adds_ok : forall ls t d h, Inv t d -> (forall j, h <= j -> blank_at t j) -> h <= 2 ^ d -> h + N.of_nat (length ls) <= 1073741824 ->
  (full_size t d \/ exists free, NoDup free /\ length free = length ls /\ forall x, In x free -> x < 2 ^ d /\ blank_at t x) ->
  exists t' d' pos, do_adds t ls = Ok t' /\ Inv t' d' /\ StronglySorted N.lt pos /\ length pos = length ls /\
    (forall n x l, nth_error pos n = Some x -> nth_error ls n = Some l -> leaf_at t' x = Some l) /\
    (forall x, In x pos -> blank_at t x) /\ (forall x y, In y pos -> x < y -> blank_at t x -> In x pos) /\
    (forall x, ~ In x pos -> tget t' (2 * x) = tget t (2 * x)).
Proof.
  induction ls as [|l ls IH]; intros t d h G Hh Hd HB R; cbn [do_adds].
  { exists t, d, []. split; [reflexivity|]. split; [exact G|]. split; [constructor|]. split; [reflexivity|]. split; [intros [|n]; discriminate|]. split; [intros ? []|]. split; [intros ? ? []|reflexivity]. }
  cbn [length] in *. assert (R0 : full_size t d \/ exists i, i < 2 ^ d /\ blank_at t i).
  { destruct R as [F|([|x free] & ND & Lf & Hf)]; [left; exact F|discriminate|right; exists x; apply Hf; left; reflexivity]. }
  destruct (add_leftmost t d l h G Hh Hd ltac:(lia) R0) as (t1 & d1 & i & E & G1 & Ld & Lh & Li & Bi & Lt & J & Fk). rewrite E. cbn [bind].
  assert (B1 : forall x, blank_at t1 x <-> x <> i /\ blank_at t x).
  { intros x. unfold blank_at. rewrite J. destruct (N.eqb_spec x i); [split; [discriminate|tauto]|tauto]. }
  assert (P2 : 2 ^ d <= 2 ^ d1) by (apply pow2_mono, Ld).
  destruct (IH t1 d1 (N.max h (i + 1)) G1) as (t' & d' & pos & E' & G' & S' & L' & N' & V' & W' & K').
  - intros j Lj. apply B1. split; [lia|]. apply Hh. lia.
  - lia.
  - lia.
  - destruct R as [F|(free & ND & Lf & Hf)]; [left; auto|right]. destruct (in_dec N.eq_dec i free) as [I|NI].
    + apply in_split in I as (f1 & f2 & ->). rewrite app_length in Lf. cbn [length] in Lf. exists (f1 ++ f2). pose proof (NoDup_remove_1 _ _ _ ND) as ND1.
      pose proof (NoDup_remove_2 _ _ _ ND) as ND2. split; [exact ND1|]. split; [rewrite app_length; lia|]. intros x Ix.
      assert (Ix' : In x (f1 ++ i :: f2)) by (apply in_app_or in Ix; apply in_or_app; cbn; tauto). destruct (Hf x Ix') as [X1 X2]. split; [lia|]. apply B1. split; [|exact X2]. intros ->. tauto.
    + destruct free as [|x0 free]; [discriminate|]. inversion ND; subst. exists free. split; [assumption|]. split; [cbn in Lf; lia|]. intros x Ix.
      destruct (Hf x (or_intror Ix)) as [X1 X2]. split; [lia|]. apply B1. split; [|exact X2]. intros ->. apply NI. right. exact Ix.
  - assert (GT : forall x, In x pos -> i < x).
    { intros x Ix. apply V' in Ix. apply B1 in Ix as [Ne Bx]. destruct (N.lt_trichotomy i x) as [|[Q|Q]]; [assumption|congruence|]. exfalso. exact (Lt x Q Bx). }
    exists t', d', (i :: pos). split; [exact E'|]. split; [exact G'|]. split; [constructor; [exact S'|apply Forall_forall; exact GT]|]. split; [cbn; lia|].
    split; [|split; [|split]].
    + intros [|n] x lx Ex El; cbn in Ex, El.
      * injection Ex as <-. injection El as <-. unfold leaf_at. rewrite K' by (intros Q; apply GT in Q; lia). rewrite J, N.eqb_refl. reflexivity.
      * eapply N'; eassumption.
    + intros x [<-|Ix]; [exact Bi|]. apply V', B1 in Ix. tauto.
    + intros x y [<-|Iy] Lxy Bx; [exfalso; exact (Lt x Lxy Bx)|]. destruct (N.eq_dec x i) as [->|Ne]; [left; reflexivity|right].
      apply (W' x y Iy Lxy). apply B1. auto.
    + intros x Nx. cbn [In] in Nx. rewrite K' by tauto. rewrite J. destruct (N.eqb_spec x i); [subst; tauto|reflexivity].
Qed.
(** ** The whole list *)

Lemma removes_stay : forall l t d t', Inv t d -> (forall i, In i l -> ~ blank_at t i) -> NoDup l -> removes t l = Ok t' ->
  t' = [] \/ exists e, e <= d /\ Inv t' e.
Proof.
  induction l as [|i l IH]; intros t d t' G M ND E; cbn [removes] in E; [apply Ok_inj in E; subst t'; right; exists d; split; [lia|exact G]|].
  inversion ND as [|? ? NI ND']; subst. pose proof (shaped_member_lt t d i (inv_shaped t d G) (M i (or_introl eq_refl))) as Hi.
  destruct (remove_cases t d i (shaped_usized t d (inv_shaped t d G)) Hi) as (t1 & E1 & J & _). rewrite E1 in E. cbn [bind] in E.
  assert (M1 : forall k, In k l -> ~ blank_at t1 k).
  { intros k Ik. unfold blank_at. rewrite J. destruct (N.eq_dec k i) as [->|]; [tauto|]. apply M. right. exact Ik. }
  destruct (inv_remove t d i t1 G Hi E1) as [->|(e & Le & Ge)].
  - destruct l as [|k l]; [left; cbn in E; congruence|]. exfalso. apply (M1 k (or_introl eq_refl)). apply tget_beyond. cbn. lia.
  - destruct (IH t1 e t' Ge M1 ND' E) as [->|(e' & Le' & G')]; [left; reflexivity|right]. exists e'. split; [lia|exact G'].
Qed.

Lemma apply_room t d ps senders committer : Inv t d -> length ps = length senders -> one_touch ps senders ->
  (forall n p s, at_ ps senders n p s -> touched_leaf p s <> Some committer) -> names_members t ps senders committer ->
  2 ^ d + N.of_nat (length (adds_of ps)) <= 1073741824 -> room_for t d ps ->
  exists t' d', tree_apply t ps senders = Ok t' /\ Inv t' d' /\ applied t ps senders t'.
Proof.
  intros G L OT NC [Mc Mt] SZ RM. rewrite apply_by_kind by lia.
  assert (UM : forall x, In x (map fst (updates_of (combine ps senders))) -> ~ blank_at t x).
  { intros x I. apply in_updates_fst in I as (l & n & u & A & _). eapply Mt; [exact A|reflexivity]. }
  destruct (updates_ok (updates_of (combine ps senders)) t d G (updates_NoDup _ _ OT)) as (t1 & E1 & G1 & L1 & U1 & K1).
  { intros i I. apply (shaped_member_lt t d i (inv_shaped t d G)), UM, I. }
  rewrite E1. cbn [bind].
  assert (B1 : forall x, blank_at t1 x <-> blank_at t x).
  { intros x. destruct (in_dec N.eq_dec x (map fst (updates_of (combine ps senders)))) as [I|NI].
    - pose proof (UM x I) as NB. apply in_updates_fst in I as (l & I). apply in_updates, U1 in I. unfold leaf_at in I. unfold blank_at in *.
      split; [intros Q; rewrite Q in I; discriminate|tauto].
    - unfold blank_at. rewrite K1 by exact NI. reflexivity. }
  assert (RMm : forall i, In i (removes_of ps) -> ~ blank_at t1 i).
  { intros i I Q. apply in_removes in I. apply B1 in Q. destruct (removed_at ps senders i L I) as (n & p & s & A & T). exact (Mt n (PRemove p) s i A T Q). }
  pose proof (removes_NoDup ps senders L OT) as NDr.
  destruct (removes_ok (removes_of ps) t1 d (shaped_usized t1 d (inv_shaped t1 d G1)) NDr) as (t2 & E2 & J2).
  { intros i I. split; [apply (shaped_member_lt t1 d i (inv_shaped t1 d G1))|]; apply RMm, I. }
  rewrite <- removes_do, E2. cbn [bind].
  assert (B2 : forall x, blank_at t2 x <-> vacant t ps x).
  { intros x. unfold blank_at at 1. rewrite J2. unfold vacant. rewrite <- in_removes. destruct (in_dec N.eq_dec x (removes_of ps)) as [I|I]; [tauto|].
    fold (blank_at t1 x). rewrite B1. tauto. }
  assert (C2 : ~ blank_at t2 committer).
  { rewrite B2. intros [Q|Q]; [tauto|]. destruct (removed_at ps senders committer L Q) as (n & p & s & A & T). exact (NC n (PRemove p) s A T). }
  destruct (removes_stay _ t1 d t2 G1 RMm NDr E2) as [->|(d2 & Ld & G2)]; [exfalso; apply C2, tget_beyond; cbn; lia|].
  assert (P2 : 2 ^ d2 <= 2 ^ d) by (apply pow2_mono, Ld).
  destruct (adds_ok (adds_of ps) t2 d2 (2 ^ d2) G2) as (t' & d' & pos & E' & G' & S' & L' & N' & V' & W' & K').
  - intros j Lj. destruct (blank_dec t2 j) as [B|B]; [exact B|]. apply (shaped_member_lt t2 d2 j (inv_shaped t2 d2 G2)) in B. lia.
  - lia.
  - lia.
  - destruct RM as [[F [R|(m & [Sm Rm] & Lm)]]|(e & free & ND & Lf & Hf & RM)].
    + left. rewrite R in E2. cbn in E2. apply Ok_inj in E2. subst t2. assert (d2 = d) as ->.
      { apply (size_unique t1); [exact (sh_size _ _ (inv_shaped _ _ G2))|exact (sh_size _ _ (inv_shaped _ _ G1))]. } red. red in F. congruence.
    + left. destruct (removes_of ps) as [|r0 rs] eqn:R.
      { cbn in E2. apply Ok_inj in E2. subst t2. assert (d2 = d) as ->.
        { apply (size_unique t1); [exact (sh_size _ _ (inv_shaped _ _ G2))|exact (sh_size _ _ (inv_shaped _ _ G1))]. } red. red in F. congruence. }
      assert (LA := removes_len (r0 :: rs) t1 d t2 (inv_shaped t1 d G1) E2). specialize (LA ltac:(intros i I; split; [apply (shaped_member_lt t1 d i (inv_shaped t1 d G1))|]; apply RMm, I) NDr).
      destruct (LA ltac:(discriminate)) as [->|(mx & _ & Xm & Lx)]; [exfalso; apply C2, tget_beyond; cbn; lia|].
      assert (m <= mx). { apply Xm. rewrite B2. unfold vacant. tauto. }
      destruct (size_bounds mx) as [SB _]. destruct (N.ltb_spec (N.size mx) d) as [Q|Q].
      { exfalso. assert (2 ^ (N.size mx + 1) <= 2 ^ d) by (apply pow2_mono; lia). rewrite pow2_S in *. lia. }
      assert (F2 : full_size t2 d) by (red in F; red; congruence). assert (d2 = d) as ->; [|exact F2].
      apply (size_unique t2); [exact (sh_size _ _ (inv_shaped _ _ G2))|left; exact F2].
    + right. exists free. split; [exact ND|]. split; [exact Lf|]. intros x Ix. destruct (Hf x Ix) as [X1 X2]. split; [|apply B2, X2].
      destruct RM as [[R ->]|(m & [Sm Rm] & Le)].
      { rewrite R in E2. cbn in E2. apply Ok_inj in E2. subst t2. rewrite (size_unique t1 d2 d); [exact X1|exact (sh_size _ _ (inv_shaped _ _ G2))|exact (sh_size _ _ (inv_shaped _ _ G1))]. }
      assert (Nm : ~ blank_at t2 m) by (rewrite B2; unfold vacant; tauto). apply (shaped_member_lt t2 d2 m (inv_shaped t2 d2 G2)) in Nm.
      destruct Le as [->|Le]; [change (2 ^ 0) with 1 in X1; pose proof (pow2_pos d2); lia|].
      destruct (N.le_gt_cases e d2) as [Q|Q]; [assert (2 ^ e <= 2 ^ d2) by (apply pow2_mono, Q); lia|].
      exfalso. assert (2 ^ (d2 + 1) <= 2 ^ e) by (apply pow2_mono; lia). rewrite pow2_S in *. lia.
  - exists t', d'. split; [exact E'|]. split; [exact G'|]. split.
    + intros x l U. assert (NR : ~ removed_leaf ps x).
      { intros R. destruct (removed_at ps senders x L R) as (n & p & s & A & T). destruct U as (n' & u & A' & _).
        assert (n = n') by (eapply OT; [exact A|exact A'|exact T|reflexivity]). subst n'. destruct A as [A _], A' as [A' _]. congruence. }
      assert (NV : ~ vacant t ps x). { intros [Q|Q]; [|tauto]. revert Q. apply UM, in_updates_fst. eauto. }
      unfold leaf_at. rewrite K' by (intros I; apply V', B2 in I; tauto). rewrite J2. destruct (in_dec N.eq_dec x (removes_of ps)) as [I|I]; [apply in_removes in I; tauto|].
      apply in_updates, U1 in U. exact U.
    + intros x [Sx Rx] NU. unfold leaf_at. rewrite K' by (intros I; apply V', B2 in I; destruct I; tauto). rewrite J2. destruct (in_dec N.eq_dec x (removes_of ps)) as [I|I]; [apply in_removes in I; tauto|].
      rewrite K1; [reflexivity|]. intros Q. apply in_updates_fst in Q as (l & Q). exact (NU l Q).
    + exists pos. split; [exact S'|]. split; [exact L'|]. split; [exact N'|]. split; [intros x I; apply B2, V', I|]. split; [intros x y Iy Lxy V; apply (W' x y Iy Lxy), B2, V|].
      intros x V NI. unfold blank_at. rewrite K' by exact NI. apply B2, V.
Qed.

End Kept.

Lemma c69 t d ps senders committer : shaped t d -> psks_wf ps -> verify_proposal_list ps senders committer = Ok tt ->
  names_members t ps senders committer -> 2 ^ d + N.of_nat (length (adds_of ps)) <= 1073741824 -> room_for t d ps ->
  exists t' d', tree_apply t ps senders = Ok t' /\ shaped t' d' /\ (good t d -> good t' d') /\ applied t ps senders t'.
Proof.
  intros G W V M SZ R. apply c48_iff in V; [|exact W]. destruct V.
  destruct (apply_room shaped (fun t d H => H) update_shaped remove_shaped add_found_shaped add_full_shaped t d ps senders committer) as (t' & d' & E & G' & A); try assumption.
  exists t', d'. split; [exact E|]. split; [exact G'|]. split; [|exact A]. intros GG.
  destruct (apply_room good good_shaped update_good remove_good add_found_good add_full_good t d ps senders committer) as (t2 & d2 & E2 & G2 & _); try assumption.
  rewrite E in E2. apply Ok_inj in E2. subst t2. rewrite (size_unique t' d' d2 (sh_size _ _ G') (g_size _ _ G2)). exact G2.
Qed.
Lemma c69_no_adds t d ps senders committer : shaped t d -> psks_wf ps -> verify_proposal_list ps senders committer = Ok tt ->
  names_members t ps senders committer -> d <= 30 -> adds_of ps = [] ->
  exists t' d', tree_apply t ps senders = Ok t' /\ shaped t' d' /\ (good t d -> good t' d') /\ applied t ps senders t'.
Proof.
  intros G W V M D A. eapply c69; try eassumption.
  - rewrite A. assert (2 ^ d <= 2 ^ 30) by (apply pow2_mono, D). change (2 ^ 30) with 1073741824 in *. cbn [length]. lia.
  - right. exists 0, []. rewrite A. apply c48_iff in V; [|exact W]. destruct M as [M _]. split; [constructor|]. split; [reflexivity|]. split; [intros x []|]. right.
    exists committer. split; [split; [exact M|]|left; reflexivity].
    intros R. destruct (removed_at ps senders committer (vl_length _ _ _ V) R) as (n & m & s & At & T). exact (vl_committer _ _ _ V n _ s At T).
Qed.

(** ** Examples *)

From Verif Require Import Examples TreeFacts.
Definition ex_new (b : byte) : leaf_node := kp_leaf (kp_payload (ex_kp b)).
Definition ex_list : list proposal :=
  [PUpdate (MkUpdate (ex_leaf x09)); PAdd (MkAdd (ex_kp x07)); PRemove (MkRemove 1); PAdd (MkAdd (ex_kp x08))].
Definition ex_swap : list proposal := [PAdd (MkAdd (ex_kp x07)); PRemove (MkRemove 1)].

Lemma no_psks ps : forallb (fun p => match psk_of p with None => true | _ => false end) ps = true -> psks_wf ps.
Proof. intros H p x I E. rewrite forallb_forall in H. apply H in I. rewrite E in I. discriminate. Qed.
Lemma touched_in t ps senders committer : ~ blank_at t committer ->
  Forall (fun q => match touched_leaf (fst q) (snd q) with Some x => ~ blank_at t x | None => True end) (combine ps senders) -> names_members t ps senders committer.
Proof.
  intros C F. split; [exact C|]. intros n p s x A T. rewrite Forall_forall in F. assert (I : In (p, s) (combine ps senders)) by (apply in_zip; eauto).
  apply F in I. cbn [fst snd] in I. rewrite T in I. exact I.
Qed.
Lemma ex_list_ok : good ex_tree 2 /\ psks_wf ex_list /\ verify_proposal_list ex_list [2; 0; 0; 0] 0 = Ok tt /\
  names_members ex_tree ex_list [2; 0; 0; 0] 0 /\ 2 ^ 2 + N.of_nat (length (adds_of ex_list)) <= 1073741824 /\ room_for ex_tree 2 ex_list /\
  exists t', tree_apply ex_tree ex_list [2; 0; 0; 0] = Ok t' /\
    map (leaf_at t') [0; 1; 2; 3; 4] = [leaf_at ex_tree 0; Some (ex_new x07); Some (ex_leaf x09); Some (ex_new x08); None].
Proof.
  split; [exact ex_tree_good|]. split; [apply no_psks; reflexivity|]. split; [vm_compute; reflexivity|]. split; [|split; [|split]].
  - apply touched_in; [discriminate|]. repeat constructor; discriminate.
  - cbn. lia.
  - left. split; [reflexivity|right]. exists 2. split; [split; [discriminate|]|cbn; lia]. intros R. apply in_removes in R. cbn in R. destruct R as [R|[]]. discriminate.
  - eexists. split; [vm_compute; reflexivity|]. vm_compute. reflexivity.
Qed.
Definition ex_swapped : tree := ok_or [] (tree_apply ex_two ex_swap [0; 0]).
Lemma c69_lost : exists t d ps senders committer t' l, good t d /\ psks_wf ps /\ verify_proposal_list ps senders committer = Ok tt /\
  names_members t ps senders committer /\ adds_of ps = [l] /\ tree_apply t ps senders = Ok t' /\ forall i, leaf_at t' i <> Some l.
Proof.
  exists ex_two, 1, ex_swap, [0; 0], 0, ex_swapped, (ex_new x07).
  split; [exact ex_two_good|]. split; [apply no_psks; reflexivity|]. split; [vm_compute; reflexivity|]. split; [|split; [reflexivity|split; [vm_compute; reflexivity|]]].
  - apply touched_in; [discriminate|]. repeat constructor; discriminate.
  - intros i. assert (C : i = 0 \/ i = 1 \/ i = 2 \/ i = 3 \/ 8 <= 2 * i) by lia. destruct C as [C|[C|[C|[C|C]]]]; try (subst i; vm_compute; discriminate).
    unfold leaf_at. rewrite tget_beyond; [discriminate|]. assert (L : tlen ex_swapped <= 8) by (vm_compute; discriminate). lia.
Qed.
Lemma c69_panic : exists t d ps senders committer, good t d /\ psks_wf ps /\ verify_proposal_list ps senders committer = Ok tt /\
  ~ blank_at t committer /\ tree_apply t ps senders = Panic.
Proof.
  exists ex_two, 1, [PRemove (MkRemove 9)], [0], 0. split; [exact ex_two_good|]. split; [apply no_psks; reflexivity|]. split; [reflexivity|]. split; [discriminate|]. vm_compute. reflexivity.
Qed.
Lemma c69_ghost : exists t d ps senders committer t' x l, good t d /\ psks_wf ps /\ verify_proposal_list ps senders committer = Ok tt /\
  ~ blank_at t committer /\ adds_of ps = [] /\ blank_at t x /\ tree_apply t ps senders = Ok t' /\ leaf_at t' x = Some l.
Proof.
  exists ex_tree, 2, [PUpdate (MkUpdate (ex_leaf x09))], [3], 0, (ok_or [] (tree_apply ex_tree [PUpdate (MkUpdate (ex_leaf x09))] [3])), 3, (ex_leaf x09).
  split; [exact ex_tree_good|]. split; [apply no_psks; reflexivity|]. split; [reflexivity|]. split; [discriminate|]. split; [reflexivity|]. split; [reflexivity|].
  split; vm_compute; reflexivity.
Qed.
