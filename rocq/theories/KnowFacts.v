(** Proofs about who knows the keys of a tree. *)
From Verif Require Import TreeMathProofs TreeOps TreePaths Merge TreeInv TreeMore TreeFacts Verified Examples SpecKnow.
From Coq Require Import ZifyBool ZifyNat ZifyN.
Local Open Scope N_scope.

Lemma key_same t t' x : tget t' x = tget t x -> key_of t' x = key_of t x.
Proof. unfold key_of. intros ->. reflexivity. Qed.
Lemma seat_same f i q : seat f i q i = q.
Proof. unfold seat. rewrite N.eqb_refl. reflexivity. Qed.
Lemma seat_other f i q j : j <> i -> seat f i q j = f j.
Proof. unfold seat. destruct (N.eqb_spec j i); congruence. Qed.

(** Exactly the entitled know the key of [x]. *)
Definition exact_at (w : world) (x : N) : Prop := forall k, key_of (w_tree w) x = Some k ->
  forall p, learnt w p k <-> exists m, whose w m = p /\ entitled (w_tree w) x m.
Definition exact (w : world) : Prop := forall x, exact_at w x.

Lemma exact_keep w w' x : exact_at w x -> key_of (w_tree w') x = key_of (w_tree w) x ->
  (forall p k, key_of (w_tree w) x = Some k -> (learnt w' p k <-> learnt w p k)) ->
  (forall m, entitled (w_tree w') x m <-> entitled (w_tree w) x m) ->
  (forall m, entitled (w_tree w) x m -> whose w' m = whose w m) -> exact_at w' x.
Proof.
  intros E K L N W k Ek p. rewrite K in Ek. rewrite L by exact Ek. rewrite (E k Ek p). split; intros (m & A & B); exists m.
  - rewrite W by exact B. split; [exact A|]. apply N, B.
  - apply N in B. rewrite <- W by exact B. auto.
Qed.

(** A parent that does not cover [i], or another member's leaf, keeps its entitled members when only leaf [i] changes. *)
Lemma entitled_keep t t' x m : tget t' x = tget t x -> (blank_at t' m <-> blank_at t m) -> (entitled t' x m <-> entitled t x m).
Proof.
  intros E B. unfold entitled. rewrite B. split; intros [N [Q|(k & j & p & Q & T & C & U)]]; (split; [exact N|]); auto; right; exists k, j, p; repeat (split; [assumption|]).
  - rewrite <- E. auto.
  - rewrite E. auto.
Qed.
Lemma blank_key t x : tget t x = None -> key_of t x = None.
Proof. unfold key_of. intros ->. reflexivity. Qed.
Definition apart (x i : N) : Prop := forall k j, x = node_at k j -> ~ covers k j i.
Lemma off_apart t d x i : good t d -> tget t x <> None -> x <> 2 * i -> ~ on_path d i x -> apart x i.
Proof.
  intros G T N O k j -> C. destruct (tget t (node_at k j)) as [n|] eqn:E; [|congruence]. pose proof (g_in t d G _ _ E) as I. apply in_tree_iff in I as [Lk _].
  destruct (N.eq_dec k 0) as [->|]; [|apply O; exists k, j; split; [lia|auto]]. apply N. apply covers_div in C. change (2 ^ 0) with 1 in C. rewrite N.div_1_r in C. subst j. apply node_at_leaf.
Qed.
Lemma apart_not t x i : x <> 2 * i -> apart x i -> ~ entitled t x i.
Proof. intros N A [_ [Q|(k & j & p & E & _ & C & _)]]; [contradiction|]. exact (A k j E C). Qed.
Lemma leaf_only t d i p k' : good t d -> tget t (2 * i) = Some p -> key_of t (2 * i) = Some k' -> exists l, p = Leaf l /\ k' = leaf_key l.
Proof. intros G E K. unfold key_of in K. rewrite E in K. destruct p as [l|q]; [injection K as <-; exists l; auto|exfalso; eapply g_leaf; eassumption]. Qed.
Lemma entitled_leaf t d i m : good t d -> entitled t (2 * i) m <-> m = i /\ ~ blank_at t i.
Proof.
  intros G. split.
  - intros [B [Q|(k & j & p & Q & T & _)]]; [assert (m = i) by lia; subst; auto|exfalso; eapply g_leaf; eassumption].
  - intros [-> B]. split; auto.
Qed.

(** Leaf [i] gets the fresh key [k]; its ancestors are blanked or keep their entitled members. *)
Lemma exact_leaf w t' d d' i l q : good (w_tree w) d -> good t' d' -> exact w -> fresh w (leaf_key l) ->
  tget t' (2 * i) = Some (Leaf l) -> (forall j, j <> i -> tget t' (2 * j) = tget (w_tree w) (2 * j)) ->
  (forall x, x <> 2 * i -> tget t' x = None \/ (tget t' x = tget (w_tree w) x /\ apart x i) \/
     (exists p, tget (w_tree w) x = Some (Parent p) /\ tget t' x = Some (Parent (with_unmerged p (pn_unmerged p ++ [i])%list)) /\ blank_at (w_tree w) i)) ->
  exact (World t' (seat (whose w) i q) (fun p k => learnt w p k \/ (p = q /\ k = leaf_key l))).
Proof.
  intros G G' H F Ti Tj Tx x. destruct (N.eq_dec x (2 * i)) as [->|Nx].
  - intros k K p. cbn [w_tree whose learnt] in *. unfold key_of in K. rewrite Ti in K. injection K as <-. fold (leaf_key l). split.
    + intros [Q|[-> _]]; [exfalso; eapply (proj1 F); exact Q|]. exists i. rewrite seat_same. split; [reflexivity|]. apply (entitled_leaf t' d'); [exact G'|]. split; [reflexivity|]. unfold blank_at. rewrite Ti. discriminate.
    + intros (m & W & E). apply (entitled_leaf t' d') in E as [-> _]; [|exact G']. rewrite seat_same in W. right. auto.
  - assert (BJ : forall m, m <> i -> (blank_at t' m <-> blank_at (w_tree w) m)) by (intros m M; unfold blank_at; rewrite Tj by exact M; tauto).
    assert (LK : forall p k, key_of (w_tree w) x = Some k -> (learnt w p k \/ (p = q /\ k = leaf_key l) <-> learnt w p k)).
    { intros p k K. split; [intros [Q|[_ ->]]; [exact Q|exfalso; eapply (proj2 F); exact K]|auto]. }
    destruct (Tx x Nx) as [Q|[[Q NE]|(p & Ep & Ep' & B)]].
    + intros k K. cbn [w_tree] in K. rewrite (blank_key _ _ Q) in K. discriminate.
    + apply (exact_keep w); cbn [w_tree whose learnt]; [apply H|apply key_same, Q|exact LK| |].
      * intros m. destruct (N.eq_dec m i) as [->|M]; [|apply entitled_keep; [exact Q|apply BJ, M]].
        split; intros E; exfalso; revert E; apply apart_not; assumption.
      * intros m E. apply seat_other. intros ->. revert E. apply apart_not; assumption.
    + apply (exact_keep w); cbn [w_tree whose learnt]; [apply H|unfold key_of; rewrite Ep, Ep'; reflexivity|exact LK| |].
      * intros m. destruct (N.eq_dec m i) as [->|M].
        -- split; [intros [_ [E|(k & j & p' & E & T & C & U)]]; [contradiction|]|intros [Bi _]; contradiction]. rewrite Ep' in T. injection T as <-. exfalso. apply U. apply in_or_app. right. left. reflexivity.
        -- unfold entitled. rewrite (BJ m M). split; intros [N [E|(k & j & p' & E & T & C & U)]]; (split; [exact N|]); auto; right; exists k, j.
           ++ rewrite Ep' in T. injection T as <-. exists p. repeat (split; [assumption|]). intros I. apply U. apply in_or_app. auto.
           ++ rewrite Ep in T. injection T as <-. eexists. split; [exact E|]. split; [exact Ep'|]. split; [exact C|]. cbn [with_unmerged pn_unmerged]. intros I. apply in_app_or in I as [I|[I|[]]]; [contradiction|congruence].
      * intros m [Bm _]. apply seat_other. intros ->. contradiction.
Qed.

Lemma add_added t d l t' : good t d -> has_room t -> tree_add t l = Ok t' -> exists d' i, good t' d' /\ blank_at t i /\ added t t' d' i l.
Proof.
  intros G R E. pose proof (good_usized t d G) as U. pose proof (g_size t d G) as S. destruct (leftmost_blank t (2 ^ d)) as [A|(i & Li & B & C)].
  - destruct R as (d' & R). assert (d' = d) by (apply (size_unique t); [destruct R as [R|[R _]]; [left|right]; exact R|exact S]). subst d'.
    destruct R as [R|(_ & i & Li & B)]; [|exfalso; eapply A; eassumption]. pose proof (add_full_good t d l t' G R A E) as G'.
    pose proof (usized_31 _ _ (good_usized _ _ G')) as L. destruct (add_full_added t d l R ltac:(lia) A) as (t1 & E1 & F' & H). assert (t1 = t') by congruence. subst t1.
    exists (d + 1), (2 ^ d). split; [exact G'|]. split; [|exact H]. unfold blank_at. apply tget_beyond. red in R. pose proof (pow2_S d). lia.
  - destruct (add_found_added t d i l U Li B C) as (t1 & E1 & L & H). assert (t1 = t') by congruence. subst t1. exists d, i. split; [eapply add_found_good; eassumption|]. auto.
Qed.
Lemma get_leaf_tget t i l : get_leaf t i = Ok (Some l) -> tget t (2 * i) = Some (Leaf l).
Proof.
  unfold get_leaf, node_index, mul32. destruct (_ <=? _); [|discriminate]. cbn [bind]. destruct (tget t (2 * i)) as [[l'|p]|]; intros E; try discriminate. congruence.
Qed.

Lemma add_exact w d l t' i q : good (w_tree w) d -> exact w -> has_room (w_tree w) -> tree_add (w_tree w) l = Ok t' -> blank_at (w_tree w) i ->
  get_leaf t' i = Ok (Some l) -> fresh w (leaf_key l) ->
  exact (World t' (seat (whose w) i q) (fun p k => learnt w p k \/ (p = q /\ k = leaf_key l))).
Proof.
  intros G H R E B Gl F. destruct (add_added _ d l t' G R E) as (d' & i' & G' & B' & A1 & A2 & A3 & A4 & A5). pose proof (get_leaf_tget _ _ _ Gl) as Ti.
  assert (i' = i) as ->. { destruct (N.eq_dec i' i) as [Q|Q]; [exact Q|]. exfalso. rewrite A2 in Ti by congruence. unfold blank_at in B. congruence. }
  apply (exact_leaf w t' d d'); try assumption. intros x Nx. destruct (on_path_dec d' i x) as [O|O].
  - destruct (tget (w_tree w) x) as [[lf|p]|] eqn:T.
    + exfalso. destruct O as (k & j & Lk & -> & _). replace k with (k - 1 + 1) in T by lia. exact (g_parent _ d G _ _ _ T).
    + right. right. exists p. auto.
    + left. apply A4; assumption.
  - destruct (tget t' x) as [n|] eqn:T; [|auto]. right. left. split; [rewrite <- (A5 x Nx O); symmetry; exact T|]. eapply (off_apart t' d'); [exact G'|congruence|exact Nx|exact O].
Qed.
Lemma update_exact w d i l t' q : good (w_tree w) d -> exact w -> tree_update (w_tree w) i l = Ok t' -> fresh w (leaf_key l) ->
  exact (World t' (seat (whose w) i q) (fun p k => learnt w p k \/ (p = q /\ k = leaf_key l))).
Proof.
  intros G H E F. pose proof (good_usized _ d G) as U. destruct (N.lt_ge_cases i (2 ^ d)) as [Hi|Hi]; [|rewrite (update_out _ d) in E by assumption; discriminate].
  pose proof (update_good _ d i l t' G Hi E) as G'. destruct (c17 _ d i l (g_size _ _ G) (g_small _ _ G) Hi) as (t1 & E1 & L & A1 & A2 & A3). assert (t1 = t') by congruence. subst t1.
  apply (exact_leaf w t' d d); try assumption.
  - apply get_leaf_tget, A1.
  - intros j J. apply A3; [lia|]. intros O. eapply on_path_odd; [exact O|reflexivity].
  - intros x Nx. destruct (on_path_dec d i x) as [O|O]; [left; apply A2, O|]. destruct (tget t' x) as [n|] eqn:T; [|auto]. right. left.
    split; [rewrite <- (A3 x Nx O); symmetry; exact T|]. eapply (off_apart t' d); [exact G'|congruence|exact Nx|exact O].
Qed.
Lemma remove_exact w d i t' : good (w_tree w) d -> exact w -> tree_remove (w_tree w) i = Ok t' -> exact (World t' (whose w) (learnt w)).
Proof.
  intros G H E. pose proof (good_usized _ d G) as U. destruct (N.lt_ge_cases i (2 ^ d)) as [Hi|Hi]; [|rewrite (remove_out _ d) in E by assumption; discriminate].
  destruct (c18 _ d i (g_size _ _ G) (g_small _ _ G) Hi) as (t1 & E1 & Bi & A1 & A2 & A3 & _). assert (t1 = t') by congruence. subst t1.
  destruct (remove_good _ d i t' G Hi E) as [->|(e & Le & G')].
  - intros x k K. cbn [w_tree] in K. rewrite blank_key in K; [discriminate|]. apply tget_beyond. cbn. lia.
  - intros x. destruct (tget t' x) as [n|] eqn:T; [|intros k K; cbn [w_tree] in K; rewrite (blank_key _ _ T) in K; discriminate].
    assert (Nx : x <> 2 * i) by (intros ->; unfold blank_at in Bi; congruence). assert (O : ~ on_path d i x) by (intros O; rewrite (A1 x O) in T; discriminate).
    assert (Lx : x < tlen t'). { destruct (N.lt_ge_cases x (tlen t')) as [Q|Q]; [exact Q|]. rewrite tget_beyond in T by exact Q. discriminate. }
    assert (Q : tget t' x = tget (w_tree w) x) by (apply A3; assumption).
    assert (AP : apart x i). { apply (off_apart (w_tree w) d); [exact G|congruence|exact Nx|exact O]. }
    apply (exact_keep w); cbn [w_tree whose learnt]; [apply H|apply key_same, Q|tauto| |reflexivity].
    intros m. destruct (N.eq_dec m i) as [->|M]; [split; intros Z; exfalso; revert Z; apply apart_not; assumption|].
    apply entitled_keep; [exact Q|]. split; intros Z; destruct (blank_dec (w_tree w) m) as [Z'|Z']; auto.
    + exfalso. apply (good_leaf_at _ d m G) in Z' as [lf Z']. rewrite <- (A2 m M) in Z'. assert (N : ~ blank_at t' m) by (apply (good_leaf_at t' e m G'); eauto). contradiction.
    + unfold blank_at. destruct (blank_dec t' m) as [N|N]; [exact N|]. exfalso. apply (good_leaf_at t' e m G') in N as [lf N]. rewrite (A2 m M) in N.
      assert (~ blank_at (w_tree w) m) by (apply (good_leaf_at _ d m G); eauto). contradiction.
    + contradiction.
Qed.

Lemma fpath_order t : forall n k j a b K J K' J', nth_error (fpath t n k j) a = Some (node_at K J) -> nth_error (fpath t n k j) b = Some (node_at K' J') ->
  ((a <= b)%nat <-> K <= K').
Proof.
  induction n as [|n IH]; intros k j a b K J K' J' A B; cbn [fpath] in A, B; [destruct a; discriminate|].
  destruct (Nat.eqb _ 0); [eapply IH; eassumption|]. destruct a as [|a], b as [|b]; cbn [nth_error] in A, B.
  - rewrite A in B. injection B as B. apply node_at_inj in B. lia.
  - injection A as A. apply node_at_inj in A. apply nth_error_In, fpath_levels in B as (k' & j' & L & B). apply node_at_inj in B. lia.
  - injection B as B. apply node_at_inj in B. apply nth_error_In, fpath_levels in A as (k' & j' & L & A). apply node_at_inj in A. lia.
  - rewrite <- (IH _ _ _ _ _ _ _ _ A B). lia.
Qed.
Lemma half_sib a b : a / 2 = b / 2 -> a <> b -> a = sib b.
Proof.
  intros E N. rewrite sib_bit. pose proof (N.div_mod a 2 ltac:(lia)). pose proof (N.div_mod b 2 ltac:(lia)). pose proof (N.mod_lt a 2 ltac:(lia)). pose proof (N.mod_lt b 2 ltac:(lia)).
  destruct (N.eqb_spec (b mod 2) 0); lia.
Qed.
Lemma diverge m i : m <> i -> forall e, m / 2 ^ (e + 1) = i / 2 ^ (e + 1) -> exists e0, e0 <= e /\ m / 2 ^ e0 = sib (i / 2 ^ e0) /\ m / 2 ^ (e0 + 1) = i / 2 ^ (e0 + 1).
Proof.
  intros N. induction e as [|e IH] using N.peano_ind; intros E.
  - exists 0. split; [lia|]. split; [|exact E]. change (2 ^ 0) with 1. rewrite !N.div_1_r. change (2 ^ (0 + 1)) with 2 in E. apply half_sib; assumption.
  - rewrite <- N.add_1_r in *. destruct (N.eq_dec (m / 2 ^ (e + 1)) (i / 2 ^ (e + 1))) as [Q|Q].
    + destruct (IH Q) as (e0 & L & R). exists e0. split; [lia|exact R].
    + exists (e + 1). split; [lia|]. split; [|exact E]. apply half_sib; [|exact Q]. rewrite <- !div_half. exact E.
Qed.
Lemma covers_above a b m i : a <= b -> m / 2 ^ a = i / 2 ^ a -> m / 2 ^ b = i / 2 ^ b.
Proof.
  intros L E. replace b with (a + (b - a)) by lia. rewrite N.pow_add_r, <- !N.div_div by (apply N.pow_nonzero; lia). congruence.
Qed.
Lemma resolve_res t d s r : good t d -> in_tree d s -> resolve t s = Ok r -> exists k j, s = node_at k j /\ k <= d /\ r = resolution t (N.to_nat k) j.
Proof.
  intros G I E. destruct (tm_onto d s I) as (k & j & -> & L & _). exists k, j. split; [reflexivity|]. split; [exact L|]. pose proof (usized_31 t d (good_usized t d G)).
  rewrite resolve_ok in E by (lia || exact (good_small t d G)). apply Ok_inj in E. congruence.
Qed.

(** Whoever is told a path key is a member below the path node from which the keys are derived. *)
Lemma told_below w d i u p k : good (w_tree w) d -> exact w -> i < 2 ^ d -> told w i u p k ->
  exists m m' e a, m <> i /\ whose w m = p /\ ~ blank_at (w_tree w) m /\ m / 2 ^ (e + 1) = i / 2 ^ (e + 1) /\
    nth_error (fpath (w_tree w) (N.to_nat d) 0 i) a = Some (node_at (e + 1) (i / 2 ^ (e + 1))) /\ (a <= m')%nat /\
    exists n, nth_error (up_nodes u) m' = Some n /\ k = upn_encryption_key n.
Proof.
  intros G H Hi (fp & a & m' & x & s & r & y & ky & n & EF & Ex & (ks & js & -> & -> & NC) & ER & Iy & Ky & Ly & Le & En & ->).
  rewrite (filtered_leaf _ d i (good_small _ _ G) (good_usized _ _ G) Hi) in EF. apply Ok_inj in EF. subst fp.
  pose proof (nth_error_In _ _ Ex) as Ix. apply fpath_in in Ix as (e & Lt & Q & R). rewrite N.add_0_l in Q, R. apply node_at_inj in Q as [Qk Qj]. assert (ks = e) by lia. subst ks.
  pose proof (usized_31 _ _ (good_usized _ _ G)) as D31. rewrite resolve_ok in ER by (exact (good_small _ _ G) || lia). apply Ok_inj in ER. subst r.
  apply (resolution_inside _ (g_unmerged _ _ G)) in Iy. rewrite N2Nat.id in Iy.
  apply (H y ky Ky p) in Ly as (m & Wm & Bm & En'). assert (Cm : covers e js m).
  { destruct En' as [->|(k1 & j1 & pn & -> & T & C & U)]; [apply inside_leaf, Iy|]. apply inside_covers in Iy as [_ Iy]. apply Iy, C. }
  exists m, m', e, a. split; [intros ->; contradiction|]. split; [exact Wm|]. split; [exact Bm|]. split.
  - apply covers_step in Cm. apply covers_div in Cm. congruence.
  - split; [rewrite <- Qj; exact Ex|]. split; [exact Le|]. eauto.
Qed.
(** Conversely, every other member below a node of the filtered path is told its key. *)
Lemma below_told w d i u m a e n : good (w_tree w) d -> exact w -> i < 2 ^ d -> m <> i -> ~ blank_at (w_tree w) m ->
  nth_error (fpath (w_tree w) (N.to_nat d) 0 i) a = Some (node_at (e + 1) (i / 2 ^ (e + 1))) -> m / 2 ^ (e + 1) = i / 2 ^ (e + 1) ->
  nth_error (up_nodes u) a = Some n -> told w i u (whose w m) (upn_encryption_key n).
Proof.
  intros G H Hi M Bm Ea E En. pose proof (usized_31 _ _ (good_usized _ _ G)) as D31.
  pose proof (nth_error_In _ _ Ea) as Ia. apply fpath_in in Ia as (e' & Lt & Q & _). rewrite N.add_0_l in Q. apply node_at_inj in Q as [Q _]. assert (e' = e) by lia. subst e'. clear Q. assert (E31 : e <= 31) by lia.
  destruct (diverge m i M e E) as (e0 & L0 & S0 & E0). assert (C0 : covers (N.of_nat (N.to_nat e0)) (sib (i / 2 ^ e0)) m) by (rewrite N2Nat.id; apply covers_div, S0).
  pose proof (resolution_covers _ d G (N.to_nat e0) _ m C0 Bm) as RC.
  assert (exists y, In y (resolution (w_tree w) (N.to_nat e0) (sib (i / 2 ^ e0))) /\ entitled (w_tree w) y m) as (y & Iy & Ny).
  { destruct RC as [I|(k' & j' & p & I & T & C & U)]; [exists (2 * m); split; [exact I|split; auto]|exists (node_at k' j'); split; [exact I|split; [exact Bm|right; exists k', j', p; auto]]]. }
  assert (I0 : In (node_at (e0 + 1) (i / 2 ^ (e0 + 1))) (fpath (w_tree w) (N.to_nat d) 0 i)).
  { apply fpath_in. exists e0. rewrite !N.add_0_l. split; [exact (N.le_lt_trans _ _ _ L0 Lt)|]. split; [reflexivity|]. intros Q. rewrite Q in Iy. exact Iy. }
  apply In_nth_error in I0 as [a0 A0].
  pose proof (resolution_nonblank _ (g_unmerged _ _ G) _ _ _ Iy) as NB. assert (exists ky, key_of (w_tree w) y = Some ky) as [ky Ky] by (unfold key_of; destruct (tget (w_tree w) y) as [[l|p]|]; eauto; congruence).
  exists (fpath (w_tree w) (N.to_nat d) 0 i), a0, a, (node_at (e0 + 1) (i / 2 ^ (e0 + 1))), (node_at e0 (sib (i / 2 ^ e0))), (resolution (w_tree w) (N.to_nat e0) (sib (i / 2 ^ e0))), y, ky, n.
  split; [apply filtered_leaf; [exact (good_small _ _ G)|exact (good_usized _ _ G)|exact Hi]|]. split; [exact A0|]. split.
  { exists e0, (sib (i / 2 ^ e0)). split; [rewrite sib_half, <- div_half; reflexivity|]. split; [reflexivity|apply sib_not_covers]. }
  split; [apply resolve_ok; [exact (good_small _ _ G)|exact (N.le_trans _ _ _ L0 E31)]|]. split; [exact Iy|]. split; [exact Ky|]. split; [apply (H y ky Ky); exists m; auto|].
  split; [apply (fpath_order _ _ _ _ _ _ _ _ _ _ A0 Ea), N.add_le_mono_r, L0|]. auto.
Qed.

Lemma merge_exact P cs w d i u t' q : good (w_tree w) d -> exact w -> merge_update_path P cs (w_tree w) i u = (t', Ok tt) ->
  NoDup (path_keys u) -> (forall k, In k (path_keys u) -> fresh w k) ->
  exact (World t' (seat (whose w) i q) (fun p k => learnt w p k \/ (p = q /\ In k (path_keys u)) \/ told w i u p k)).
Proof.
  intros G H E ND F. pose proof (good_usized _ d G) as U. pose proof (good_small _ _ G) as SU.
  destruct (N.lt_ge_cases i (2 ^ d)) as [Hi|Hi]; [|rewrite (merge_out P cs _ d) in E by assumption; discriminate].
  pose proof (merge_good P cs _ d i u t' G Hi E) as G'. apply (merge_iff P cs _ d i u t' SU U Hi) in E.
  destruct E as [HL HF HO (fp & ph & EF & NE & EL & HK & HB & _)]. rewrite (filtered_leaf _ d i SU U Hi) in EF. apply Ok_inj in EF. subst fp.
  assert (TK : forall p k, told w i u p k -> In k (map upn_encryption_key (up_nodes u))).
  { intros p k (fp & a & m' & x & s & r & y & ky & n & _ & _ & _ & _ & _ & _ & _ & _ & En & ->). apply in_map. eapply nth_error_In; exact En. }
  pose proof (NoDup_cons_iff (leaf_key (up_leaf u)) (map upn_encryption_key (up_nodes u))) as NC. apply NC in ND as [NI ND].
  assert (Bi : ~ blank_at t' i) by (unfold blank_at; rewrite HF; discriminate).
  assert (BJ : forall m, m <> i -> (blank_at t' m <-> blank_at (w_tree w) m)).
  { intros m M. unfold blank_at. rewrite HO; [tauto|lia|]. intros O. eapply on_path_odd; [exact O|reflexivity]. }
  intros x. destruct (N.eq_dec x (2 * i)) as [->|Nx].
  { intros k K p. cbn [w_tree whose learnt] in *. unfold key_of in K. rewrite HF in K. injection K as <-. fold (leaf_key (up_leaf u)). split.
    - intros [Q|[[-> _]|Q]]; [exfalso; apply (proj1 (F _ (or_introl eq_refl)) p Q)| |exfalso; apply NI; eapply TK; exact Q].
      exists i. rewrite seat_same. split; [reflexivity|]. apply (entitled_leaf t' d); auto.
    - intros (m & W & E). apply (entitled_leaf t' d) in E as [-> _]; [|exact G']. rewrite seat_same in W. right. left. split; [auto|left; reflexivity]. }
  destruct (on_path_dec d i x) as [O|O].
  - destruct (in_dec N.eq_dec x (fpath (w_tree w) (N.to_nat d) 0 i)) as [I|I].
    + destruct (nth_error_pair _ _ _ EL I) as (a & n & A & B). destruct (HK a x n A B) as [h Hh].
      pose proof I as I'. apply fpath_in in I' as (e & Le & -> & R). rewrite N.add_0_l in *.
      intros k K p. cbn [w_tree whose learnt] in *. unfold key_of in K. rewrite Hh in K. cbn [pn_encryption_key] in K. injection K as <-.
      assert (Ik : In (upn_encryption_key n) (map upn_encryption_key (up_nodes u))) by (apply in_map; eapply nth_error_In; exact B).
      assert (ET : forall m, entitled t' (node_at (e + 1) (i / 2 ^ (e + 1))) m <-> ~ blank_at t' m /\ m / 2 ^ (e + 1) = i / 2 ^ (e + 1)).
      { intros m. split.
        - intros [Bm [Q|(k1 & j1 & p1 & Q & T & C & _)]]; [rewrite <- node_at_leaf in Q; apply node_at_inj in Q; lia|]. apply node_at_inj in Q as [<- <-]. apply covers_div in C. auto.
        - intros [Bm C]. split; [exact Bm|]. right. exists (e + 1), (i / 2 ^ (e + 1)). eexists. split; [reflexivity|]. split; [exact Hh|]. split; [apply covers_div, C|intros []]. }
      split.
      * intros [Q|[[-> _]|Q]]; [exfalso; apply (proj1 (F _ (or_intror Ik)) p Q)| |].
        -- exists i. rewrite seat_same. split; [reflexivity|]. apply ET. auto.
        -- destruct (told_below w d i u p _ G H Hi Q) as (m & m' & e0 & a0 & M & Wm & Bm & Em & A0 & L0 & n0 & En0 & Kn).
           assert (m' = a). { rewrite NoDup_nth_error in ND. apply ND; [rewrite map_length; apply nth_error_Some; congruence|]. rewrite !nth_error_map, En0, B. cbn. congruence. } subst m'.
           exists m. rewrite seat_other by exact M. split; [exact Wm|]. apply ET. split; [rewrite BJ by exact M; exact Bm|].
           apply (covers_above (e0 + 1)); [|exact Em]. apply (fpath_order _ _ _ _ _ _ _ _ _ _ A0 A) in L0. exact L0.
      * intros (m & Wm & Em). apply ET in Em as [Bm Em]. right. destruct (N.eq_dec m i) as [->|M]; [left; rewrite seat_same in Wm; split; [auto|right; exact Ik]|right].
        rewrite seat_other in Wm by exact M. rewrite <- Wm. rewrite BJ in Bm by exact M. eapply below_told; eassumption.
    + intros k K. cbn [w_tree] in K. rewrite (blank_key _ _ (HB x O I)) in K. discriminate.
  - pose proof (HO x Nx O) as Q. destruct (tget t' x) as [nd|] eqn:T; [|intros k K; cbn [w_tree] in K; rewrite (blank_key _ _ T) in K; discriminate]. rewrite <- T in Q.
    assert (AP : apart x i) by (eapply (off_apart t' d); [exact G'|congruence|exact Nx|exact O]).
    apply (exact_keep w); cbn [w_tree whose learnt]; [apply H|apply key_same, Q| | |].
    + intros p k K. split; [|auto]. intros [L|[[_ L]|L]]; [exact L|exfalso; apply (proj2 (F k L) x K)|exfalso; apply (proj2 (F k (or_intror (TK p k L))) x K)].
    + intros m. destruct (N.eq_dec m i) as [->|M]; [split; intros Z; exfalso; revert Z; apply apart_not; assumption|]. apply entitled_keep; [exact Q|apply BJ, M].
    + intros m Z. apply seat_other. intros ->. revert Z. apply apart_not; assumption.
Qed.

Lemma story_exact P cs w : story P cs w -> exact w /\ (w_tree w = [] \/ exists d, good (w_tree w) d).
Proof.
  induction 1 as [l q|w w' S [X D] E].
  - split; [|right; exists 0; exact (good_single l)]. intros x k K p. cbn [w_tree whose learnt] in *.
    assert (x = 0) as ->. { destruct (N.eq_dec x 0) as [Z|Z]; [exact Z|]. unfold key_of in K. rewrite tget_beyond in K by (cbn; lia). discriminate. }
    injection K as <-. fold (leaf_key l). split.
    + intros [-> _]. exists 0. split; [reflexivity|]. split; [intros B; discriminate B|left; reflexivity].
    + intros (m & <- & _). auto.
  - assert (ST : tree_step P cs (w_tree w) (w_tree w')) by (destruct E; cbn [w_tree]; [eapply ts_add|eapply ts_update|eapply ts_remove|eapply ts_merge]; eassumption).
    destruct D as [D|[d G]]; [rewrite D in ST; exfalso; eapply step_empty; exact ST|]. split; [|eapply step_good; eassumption].
    destruct E; [eapply add_exact|eapply update_exact|eapply remove_exact|eapply merge_exact]; eassumption.
Qed.
Lemma c81_exactly P cs w : story P cs w -> forall x k, key_of (w_tree w) x = Some k -> forall q, learnt w q k <-> exists m, whose w m = q /\ entitled (w_tree w) x m.
Proof. intros S x k K. exact (proj1 (story_exact P cs w S) x k K). Qed.

Lemma empty_tget x : tget [] x = None.
Proof. apply tget_beyond. cbn. lia. Qed.
Lemma c81_outsider P cs w q : story P cs w -> (forall m, ~ blank_at (w_tree w) m -> whose w m <> q) ->
  (forall x k, key_of (w_tree w) x = Some k -> ~ learnt w q k) /\ (forall i u k, ~ told w i u q k).
Proof.
  intros S N. assert (A : forall x k, key_of (w_tree w) x = Some k -> ~ learnt w q k).
  { intros x k K L. apply (c81_exactly P cs w S x k K) in L as (m & W & B & _). exact (N m B W). }
  split; [exact A|]. intros i u k (fp & a & m' & x & s & r & y & ky & n & _ & _ & _ & _ & _ & Ky & Ly & _). exact (A y ky Ky Ly).
Qed.
Lemma c81_reaches P cs w i u t' m n : story P cs w -> merge_update_path P cs (w_tree w) i u = (t', Ok tt) -> ~ blank_at (w_tree w) m -> m <> i ->
  nth_error (up_nodes u) (length (up_nodes u) - 1) = Some n -> told w i u (whose w m) (upn_encryption_key n).
Proof.
  intros S E B M En. destruct (story_exact P cs w S) as [H [D|[d G]]]; [exfalso; apply B; unfold blank_at; rewrite D; apply empty_tget|].
  pose proof (good_usized _ d G) as U. pose proof (good_small _ _ G) as SU. destruct (N.lt_ge_cases i (2 ^ d)) as [Hi|Hi]; [|rewrite (merge_out P cs _ d) in E by assumption; discriminate].
  apply (merge_iff P cs _ d i u t' SU U Hi) in E. destruct E as [HL HF HO (fp & ph & EF & NE & EL & _)]. rewrite (filtered_leaf _ d i SU U Hi) in EF. apply Ok_inj in EF. subst fp.
  set (f := fpath (w_tree w) (N.to_nat d) 0 i) in *. destruct (nth_error f (length (up_nodes u) - 1)) as [x|] eqn:Ex.
  2:{ exfalso. apply nth_error_None in Ex. destruct f; [congruence|]. cbn [length] in *. lia. }
  pose proof (good_member_lt _ d m G B) as Lm. destruct d as [|dp]; [change (2 ^ 0) with 1 in *; lia|].
  assert (TOP : m / 2 ^ (N.pos dp) = i / 2 ^ (N.pos dp)) by (rewrite !N.div_small by assumption; reflexivity). set (top := N.pos dp - 1) in *. assert (TE : N.pos dp = top + 1) by (clear; unfold top; lia). rewrite TE in TOP.
  (* the level at which they part is at most that of the last node *)
  destruct (diverge m i M _ TOP) as (e0 & L0 & S0 & E0).
  pose proof (nth_error_In _ _ Ex) as Ix. apply fpath_in in Ix as (e & Le & -> & _). rewrite N.add_0_l in *.
  assert (I0 : In (node_at (e0 + 1) (i / 2 ^ (e0 + 1))) f).
  { apply fpath_in. exists e0. rewrite !N.add_0_l. split; [clear - L0 TE; lia|]. split; [reflexivity|]. intros Q. assert (C0 : covers (N.of_nat (N.to_nat e0)) (sib (i / 2 ^ e0)) m) by (rewrite N2Nat.id; apply covers_div, S0).
    destruct (resolution_covers _ _ G (N.to_nat e0) _ m C0 B) as [I|(k' & j' & p & I & _)]; rewrite Q in I; destruct I. }
  apply In_nth_error in I0 as [a0 A0]. assert (La : (a0 <= length (up_nodes u) - 1)%nat). { assert (a0 < length f)%nat by (apply nth_error_Some; congruence). clear - H0 EL. lia. }
  pose proof (proj1 (fpath_order _ _ _ _ _ _ _ _ _ _ A0 Ex) La) as LE.
  eapply below_told; [exact G|exact H|exact Hi|exact M|exact B|exact Ex| |exact En]. apply (covers_above (e0 + 1)); assumption.
Qed.

(** ** An example *)
From Verif Require Import Examples TreeFacts HashFacts.

Definition all_keys (w : world) (L : list bytes) : Prop := (forall q k, learnt w q k -> In k L) /\ forall x k, key_of (w_tree w) x = Some k -> In k L.
Lemma all_fresh w L k : all_keys w L -> ~ In k L -> fresh w k.
Proof. intros [A B] N. split; [intros q Q; apply N, (A q k Q)|intros x Q; apply N, (B x k Q)]. Qed.
Lemma told_in w i u q k : told w i u q k -> In k (map upn_encryption_key (up_nodes u)).
Proof. intros (fp & a & m' & x & s & r & y & ky & n & _ & _ & _ & _ & _ & _ & _ & _ & En & ->). apply in_map. eapply nth_error_In; exact En. Qed.
Definition tree_keys (t : tree) : list bytes := flat_map (fun o => match o with Some (Leaf l) => [leaf_key l] | Some (Parent p) => [pn_encryption_key p] | None => [] end) t.
Lemma keys_of_tree t k x : key_of t x = Some k -> In k (tree_keys t).
Proof.
  unfold key_of. destruct (tget t x) as [n|] eqn:T; [|discriminate]. intros E. apply in_flat_map. exists (Some n). split.
  - unfold tget in T. destruct (x <? tlen t) eqn:L; [|discriminate]. rewrite <- T. apply nth_In. unfold tlen in L. lia.
  - destruct n; injection E as <-; left; reflexivity.
Qed.
Lemma all_event w w' L L' : all_keys w L -> (forall q k, learnt w' q k -> learnt w q k \/ In k L') -> incl (tree_keys (w_tree w')) (L ++ L') -> all_keys w' (L ++ L').
Proof.
  intros [A B] H T. split; [intros q k Q; apply in_or_app; destruct (H q k Q); [left; eapply A; eassumption|auto]|]. intros x k K. apply T. eapply keys_of_tree, K.
Qed.
Definition bytes_in (k : bytes) (L : list bytes) : bool := if in_dec (list_eq_dec Byte.byte_eq_dec) k L then true else false.
Lemma bytes_in_spec k L : bytes_in k L = true -> In k L.
Proof. unfold bytes_in. destruct (in_dec _ k L); [auto|discriminate]. Qed.
Lemma bytes_out_spec k L : bytes_in k L = false -> ~ In k L.
Proof. unfold bytes_in. destruct (in_dec _ k L); [discriminate|auto]. Qed.
Lemma incl_spec A B : forallb (fun k => bytes_in k B) A = true -> incl A B.
Proof. intros H k I. rewrite forallb_forall in H. apply bytes_in_spec, H, I. Qed.

(** Person 0 makes a group and adds persons 1 and 2, merges an update path, and adds person 3. Then it removes person 1. *)
Definition ex_w1 : world := World [Some (Leaf (ex_leaf x01))] (fun _ => 0%nat) (fun p k => p = 0%nat /\ k = leaf_key (ex_leaf x01)).
Definition ex_w2 : world := World ex_two (seat (whose ex_w1) 1 1%nat) (fun p k => learnt ex_w1 p k \/ (p = 1%nat /\ k = leaf_key (ex_leaf x02))).
Definition ex_w3 : world := World ex_three (seat (whose ex_w2) 2 2%nat) (fun p k => learnt ex_w2 p k \/ (p = 2%nat /\ k = leaf_key (ex_leaf x03))).
Definition ex_w4 : world := World ex_merged3 (seat (whose ex_w3) 0 0%nat)
  (fun p k => learnt ex_w3 p k \/ (p = 0%nat /\ In k (path_keys ex_path3)) \/ told ex_w3 0 ex_path3 p k).
Definition ex_w5 : world := World ex_joined3 (seat (whose ex_w4) 3 3%nat) (fun p k => learnt ex_w4 p k \/ (p = 3%nat /\ k = leaf_key (ex_leaf x04))).
Definition ex_w6 : world := World (ok_or [] (tree_remove ex_joined3 1)) (whose ex_w5) (learnt ex_w5).

Definition ex_k1 : list bytes := [leaf_key (ex_leaf x01)].
Definition ex_k2 : list bytes := ex_k1 ++ [leaf_key (ex_leaf x02)].
Definition ex_k3 : list bytes := ex_k2 ++ [leaf_key (ex_leaf x03)].
Definition ex_k4 : list bytes := ex_k3 ++ path_keys ex_path3.
Lemma ex_all1 : all_keys ex_w1 ex_k1.
Proof. split; [intros q k [_ ->]; left; reflexivity|]. intros x k K. apply keys_of_tree in K. exact K. Qed.
Lemma ex_all2 : all_keys ex_w2 ex_k2.
Proof. apply (all_event ex_w1); [exact ex_all1|intros q k [Q|[_ ->]]; [auto|right; left; reflexivity]|apply incl_spec; vm_compute; reflexivity]. Qed.
Lemma ex_all3 : all_keys ex_w3 ex_k3.
Proof. apply (all_event ex_w2); [exact ex_all2|intros q k [Q|[_ ->]]; [auto|right; left; reflexivity]|apply incl_spec; vm_compute; reflexivity]. Qed.
Lemma ex_all4 : all_keys ex_w4 ex_k4.
Proof. apply (all_event ex_w3); [exact ex_all3|intros q k [Q|[[_ Q]|Q]]; [auto|auto|right; right; apply told_in in Q; exact Q]|apply incl_spec; vm_compute; reflexivity]. Qed.
Lemma ex_story3 : story toy Suite1 ex_w3.
Proof.
  apply (st_event _ _ ex_w2).
    { apply (st_event _ _ ex_w1); [apply st_create|]. unfold ex_w2. apply ev_add; [exists 0; left; reflexivity|vm_compute; reflexivity|reflexivity|vm_compute; reflexivity|]. apply (all_fresh _ ex_k1 _ ex_all1), bytes_out_spec. vm_compute. reflexivity. }
    unfold ex_w3. apply ev_add; [exists 1; left; reflexivity|vm_compute; reflexivity|reflexivity|vm_compute; reflexivity|]. apply (all_fresh _ ex_k2 _ ex_all2), bytes_out_spec. vm_compute. reflexivity.
Qed.
Lemma ex_story4 : story toy Suite1 ex_w4.
Proof.
  apply (st_event _ _ ex_w3); [exact ex_story3|]. unfold ex_w4. apply ev_merge; [exact ex_merge3| |].
  - repeat constructor; apply bytes_out_spec; vm_compute; reflexivity.
  - intros k [<-|[<-|[<-|[]]]]; apply (all_fresh _ ex_k3 _ ex_all3), bytes_out_spec; vm_compute; reflexivity.
Qed.
Lemma ex_story6 : story toy Suite1 ex_w5 /\ story toy Suite1 ex_w6.
Proof.
  assert (S : story toy Suite1 ex_w5).
  { apply (st_event _ _ ex_w4); [exact ex_story4|]. unfold ex_w5. apply ev_add; [exists 2; left; reflexivity|vm_compute; reflexivity|reflexivity|vm_compute; reflexivity|]. apply (all_fresh _ ex_k4 _ ex_all4), bytes_out_spec. vm_compute. reflexivity. }
  split; [exact S|]. apply (st_event _ _ ex_w5); [exact S|]. unfold ex_w6. apply (ev_remove _ _ ex_w5 1). vm_compute. reflexivity.
Qed.
(** Persons 0, 1 and 2 know the key at the root, person 3 does not; when person 1 has been removed, the root has no key. *)
Lemma c81_example : story toy Suite1 ex_w5 /\ key_of (w_tree ex_w5) 3 = Some [x88] /\ (forall q, learnt ex_w5 q [x88] <-> (q < 3)%nat) /\
  story toy Suite1 ex_w6 /\ key_of (w_tree ex_w6) 3 = None /\ (forall m, ~ blank_at (w_tree ex_w6) m -> whose ex_w6 m <> 1%nat) /\ learnt ex_w6 1%nat [x88].
Proof.
  destruct ex_story6 as [S5 S6]. assert (K : key_of (w_tree ex_w5) 3 = Some [x88]) by (vm_compute; reflexivity).
  assert (L : forall q, learnt ex_w5 q [x88] <-> (q < 3)%nat).
  { intros q. rewrite (c81_exactly _ _ _ S5 3 _ K q).
    assert (ET : forall m, entitled ex_joined3 3 m <-> m < 3).
    { assert (Ep : tget ex_joined3 3 = Some (Parent (MkParentNode [x88] [] [3]))) by (vm_compute; reflexivity).
      intros m. split.
      - intros [B [Q|(k & j & p & Q & T & C & U)]]; [lia|]. rewrite Ep in T. injection T as <-. change 3 with (node_at 2 0) in Q. apply node_at_inj in Q as [<- <-]. apply covers_div in C. cbn [pn_unmerged] in U.
        assert (m <> 3) by (intros ->; apply U; left; reflexivity). change (2 ^ 2) with 4 in C. apply N.div_small_iff in C; lia.
      - intros Lt. assert (m = 0 \/ m = 1 \/ m = 2) as D by lia. split; [destruct D as [->|[->| ->]]; vm_compute; discriminate|]. right. exists 2, 0. eexists. split; [reflexivity|]. split; [exact Ep|].
        split; [apply covers_div; change (2 ^ 2) with 4; apply N.div_small; lia|]. intros [Q|[]]. lia. }
    cbn [w_tree ex_w5]. split.
    - intros (m & W & E). apply ET in E. assert (m = 0 \/ m = 1 \/ m = 2) as D by lia. destruct D as [->|[->| ->]]; vm_compute in W; subst q; lia.
    - intros Lt. exists (N.of_nat q). split; [|apply ET; lia]. destruct q as [|[|[|q]]]; [reflexivity|reflexivity|reflexivity|lia]. }
  split; [exact S5|]. split; [exact K|]. split; [exact L|]. split; [exact S6|]. split; [vm_compute; reflexivity|]. split; [|apply L; lia].
  intros m B. destruct (N.lt_ge_cases m 4) as [Lt|Ge].
  - assert (m = 0 \/ m = 1 \/ m = 2 \/ m = 3) as D by lia. destruct D as [->|[->|[->| ->]]]; try (vm_compute; discriminate). exfalso. apply B. vm_compute. reflexivity.
  - exfalso. apply B. unfold blank_at. apply tget_beyond. replace (tlen (w_tree ex_w6)) with 7 by (vm_compute; reflexivity). lia.
Qed.
Lemma c81_reaches_example : story toy Suite1 ex_w3 /\ merge_update_path toy Suite1 (w_tree ex_w3) 0 ex_path3 = (ex_merged3, Ok tt) /\
  ~ blank_at (w_tree ex_w3) 2 /\ nth_error (up_nodes ex_path3) 1 = Some (MkUpdatePathNode [x88] []).
Proof. split; [exact ex_story3|]. split; [exact ex_merge3|]. split; [vm_compute; discriminate|reflexivity]. Qed.
