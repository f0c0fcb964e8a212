(** Well-formedness of the tree is kept by every operation. *)
From Verif Require Export Merge.
From Coq Require Import ZifyBool ZifyNat ZifyN.
Local Open Scope N_scope.

Lemma good_usized t d : good t d -> usized t d.
Proof.
  intros G. pose proof (g_size t d G) as S. pose proof (g_small t d G) as L. change 4294967296 with (2 ^ 32) in L. destruct S as [S|S]; red in S; rewrite S in L.
  - left. split; [exact S|]. destruct (N.le_gt_cases d 31) as [|Q]; [assumption|]. assert (2 ^ 33 <= 2 ^ (d + 1)) by (apply pow2_mono; lia). assert (2 ^ 33 = 2 * 2 ^ 32) by reflexivity. pose proof (pow2_pos 32). lia.
  - right. split; [exact S|]. destruct (N.le_gt_cases d 30) as [|Q]; [assumption|]. assert (2 ^ 32 <= 2 ^ (d + 1)) by (apply pow2_mono; lia). lia.
Qed.
Lemma usized_small t d : usized t d -> tlen t < 4294967296.
Proof.
  change 4294967296 with (2 ^ 32). pose proof (pow2_pos (d + 1)). intros [[S L]|[S L]]; red in S; rewrite S.
  - assert (2 ^ (d + 1) <= 2 ^ 32) by (apply pow2_mono; lia). lia.
  - assert (2 ^ (d + 1) < 2 ^ 32) by (apply N.pow_lt_mono_r; lia). lia.
Qed.

Lemma good_leaf_at t d i : good t d -> ((exists l, leaf_at t i = Some l) <-> ~ blank_at t i).
Proof.
  intros G. unfold leaf_at, blank_at. destruct (tget t (2 * i)) as [[l|p]|] eqn:E.
  - split; [discriminate|eauto].
  - exfalso. eapply g_leaf; eassumption.
  - split; [intros [l H]; discriminate|tauto].
Qed.
Lemma good_member_lt t d i : good t d -> ~ blank_at t i -> i < 2 ^ d.
Proof.
  intros G H. unfold blank_at in H. destruct (tget t (2 * i)) as [nd|] eqn:E; [|congruence]. apply (g_in t d G) in E.
  rewrite <- node_at_leaf in E. apply in_tree_iff in E. rewrite N.sub_0_r in E. tauto.
Qed.
Lemma good_level t d k j p : good t d -> tget t (node_at k j) = Some (Parent p) -> 0 < k <= d.
Proof.
  intros G E. split.
  - destruct (N.eq_dec k 0) as [->|]; [|lia]. exfalso. rewrite node_at_leaf in E. eapply g_leaf; eassumption.
  - apply (g_in t d G) in E. apply in_tree_iff in E. tauto.
Qed.
Lemma good_small t d : good t d -> small_unmerged t.
Proof.
  intros G x p u E I. destruct (node_decomp x) as (k & j & ->).
  destruct (uo_below t (g_unmerged t d G) k j p u E I) as [_ M]. apply (good_leaf_at t d u G) in M. apply (good_member_lt t d u G) in M.
  pose proof (usized_31 t d (good_usized t d G)). assert (2 ^ d <= 2 ^ 31) by (apply pow2_mono; assumption). change (2 ^ 31) with 2147483648 in *. lia.
Qed.

Lemma off_path_covers d i k j : 0 < k <= d -> ~ on_path d i (node_at k j) -> ~ covers k j i.
Proof. intros Hk NO C. apply NO. exists k, j. auto. Qed.
Lemma covers_up k j a : covers k (2 * j) a \/ covers k (2 * j + 1) a -> covers (k + 1) j a.
Proof. rewrite !covers_div, div_half. intros [E|E]; rewrite E; [apply half_l|apply half_r]. Qed.

(** Leaf [i] is rewritten or erased, and its ancestors are erased or replaced by nodes without unmerged leaves. *)
Lemma good_reshape t t' d i : good t d -> i < 2 ^ d -> tlen t' = tlen t ->
  (forall x, x <> 2 * i -> ~ on_path d i x -> tget t' x = tget t x) ->
  (forall p, tget t' (2 * i) <> Some (Parent p)) ->
  (forall k j, on_path d i (node_at (k + 1) j) -> tget t' (node_at (k + 1) j) = None \/
     exists p, tget t' (node_at (k + 1) j) = Some (Parent p) /\ pn_unmerged p = [] /\
     exists a b, covers k (2 * j) a /\ ~ blank_at t' a /\ covers k (2 * j + 1) b /\ ~ blank_at t' b) ->
  good t' d.
Proof.
  intros G Hi HL HO HLf HP.
  assert (OP : forall k j p, tget t' (node_at k j) = Some (Parent p) ->
    pn_unmerged p = [] \/ (~ covers k j i /\ tget t (node_at k j) = Some (Parent p))).
  { intros k j p E. destruct (N.eq_dec k 0) as [->|K0].
    - destruct (N.eq_dec j i) as [->|Ne].
      + rewrite node_at_leaf in E. exfalso. eapply HLf; eassumption.
      + rewrite node_at_leaf in *. right. rewrite HO in E; [|lia|intros O; eapply on_path_odd; [exact O|reflexivity]]. exfalso. eapply g_leaf; eassumption.
    - destruct (on_path_dec d i (node_at k j)) as [O|O].
      + left. replace k with (k - 1 + 1) in * by lia. destruct (HP (k - 1) j O) as [E'|(p' & E' & Q & _)]; rewrite E in E'; [discriminate|]. injection E' as <-. exact Q.
      + right. assert (Ne : node_at k j <> 2 * i). { rewrite <- node_at_leaf. intros Q. apply node_at_inj in Q. lia. }
        rewrite HO in E by assumption. split; [|exact E]. apply (off_path_covers d); [|exact O]. eapply good_level; eassumption. }
  assert (OL : forall a, a <> i -> tget t' (2 * a) = tget t (2 * a)).
  { intros a Ne. apply HO; [lia|]. intros O. eapply on_path_odd; [exact O|reflexivity]. }
  assert (OLn : forall k j a, ~ covers k j i -> covers k j a -> tget t' (2 * a) = tget t (2 * a)).
  { intros k j a NC C. apply OL. intros ->. tauto. }
  split.
  - pose proof (g_size t d G) as S. unfold tsized, full_size, cut_size in *. rewrite HL. exact S.
  - rewrite HL. apply (g_small t d G).
  - intros x nd E. destruct (N.eq_dec x (2 * i)) as [->|Ne]; [apply leaf_in_tree, Hi|].
    destruct (on_path_dec d i x) as [O|O]; [eapply on_path_in; eassumption|]. rewrite HO in E by assumption. eapply g_in; eassumption.
  - intros a p E. destruct (N.eq_dec a i) as [->|Ne]; [eapply HLf; eassumption|]. rewrite OL in E by exact Ne. eapply g_leaf; eassumption.
  - intros k j l E. destruct (on_path_dec d i (node_at (k + 1) j)) as [O|O].
    + destruct (HP k j O) as [E'|(p & E' & _)]; congruence.
    + rewrite HO in E; [eapply g_parent; eassumption| |exact O]. rewrite <- node_at_leaf. intros Q. apply node_at_inj in Q. lia.
  - split.
    + intros k j p E. destruct (OP k j p E) as [->|[_ E']]; [constructor|]. eapply uo_sorted; [apply (g_unmerged t d G)|exact E'].
    + intros k j p u E I. destruct (OP k j p E) as [Q|[NC E']]; [rewrite Q in I; destruct I|].
      destruct (uo_below t (g_unmerged t d G) k j p u E' I) as [C M]. split; [exact C|]. unfold leaf_at in *. rewrite (OLn k j u NC C). exact M.
    + intros k j p u k' j' p' E I Hk C' E2. destruct (OP k j p E) as [Q|[NC E']]; [rewrite Q in I; destruct I|].
      pose proof (uo_below t (g_unmerged t d G) k j p u E' I) as [C _].
      eapply (uo_between t (g_unmerged t d G) k j p u k' j' p' E' I Hk C'). rewrite <- HO; [exact E2| |].
      * rewrite <- node_at_leaf. intros Q. apply node_at_inj in Q. lia.
      * pose proof (covers_inside k j k' j' u ltac:(lia) C' C) as In'. apply (inside_off_path d k j i _ NC In').
  - intros k j p u a E I Ca La B. destruct (OP k j p E) as [Q|[NC E']]; [rewrite Q in I; destruct I|].
    unfold blank_at in B. rewrite (OLn k j a NC Ca) in B. eapply g_order; eassumption.
  - intros k j p E. destruct (on_path_dec d i (node_at (k + 1) j)) as [O|O].
    + destruct (HP k j O) as [E'|(p' & _ & _ & H)]; [congruence|exact H].
    + assert (E' : tget t (node_at (k + 1) j) = Some (Parent p)). { rewrite <- HO; [exact E| |exact O]. rewrite <- node_at_leaf. intros Q. apply node_at_inj in Q. lia. }
      pose proof (good_level t d _ _ _ G E') as Lv. pose proof (off_path_covers d i _ _ Lv O) as NC.
      destruct (g_sides t d G k j p E') as (a & b & Ca & Ba & Cb & Bb). exists a, b. unfold blank_at in *.
      rewrite (OLn (k + 1) j a), (OLn (k + 1) j b); auto using covers_up.
Qed.

Lemma update_good t d i l t' : good t d -> i < 2 ^ d -> tree_update t i l = Ok t' -> good t' d.
Proof.
  intros G Hi E. destruct (update_ok t d i l (good_usized t d G) Hi) as (t2 & E2 & L & H). rewrite E in E2. apply Ok_inj in E2. subst t2.
  apply (good_reshape t t' d i G Hi L).
  - intros x A B. apply H; assumption.
  - intros p Q. rewrite (proj1 (H (2 * i)) eq_refl) in Q. discriminate.
  - intros k j O. left. apply H, O.
Qed.

Lemma blanked_good t d i : good t d -> i < 2 ^ d -> good (blanked t d i) d.
Proof.
  intros G Hi. apply (good_reshape t (blanked t d i) d i G Hi (blanked_len t d i)).
  - intros x A B. apply blanked_get; assumption.
  - intros p Q. rewrite (proj1 (blanked_get t d i (2 * i))) in Q; [discriminate|left; reflexivity].
  - intros k j O. left. apply blanked_get. right. exact O.
Qed.

Lemma cut_good b d e : good b d -> e < d -> (forall a, ~ blank_at b a -> a < 2 ^ e) -> good (firstn (N.to_nat (2 ^ (e + 1))) b) e.
Proof.
  intros G He M. set (w := 2 ^ (e + 1)).
  assert (Gw : forall x, tget (firstn (N.to_nat w) b) x = if x <? w then tget b x else None) by (intros; apply tget_firstn).
  set (t' := firstn (N.to_nat w) b) in *.
  assert (Gs : forall x nd, tget t' x = Some nd -> tget b x = Some nd). { intros x nd E. rewrite Gw in E. destruct (N.ltb_spec x w); [exact E|discriminate]. }
  assert (Mb : forall a, ~ blank_at b a -> ~ blank_at t' a).
  { intros a NB. unfold blank_at. rewrite Gw. destruct (N.ltb_spec (2 * a) w) as [|X]; [exact NB|]. pose proof (M a NB). unfold w in X. rewrite pow2_S in X. lia. }
  pose proof (good_usized b d G) as U. pose proof (usized_31 b d U) as D31.
  assert (LW : tlen t' = w). { apply tlen_firstn. apply usized_len in U. assert (w <= 2 ^ d) by (apply pow2_mono; lia). rewrite pow2_S in U. pose proof (pow2_pos d). lia. }
  split.
  - right. exact LW.
  - rewrite LW. unfold w. change 4294967296 with (2 ^ 32). apply N.pow_lt_mono_r; lia.
  - intros x nd E. assert (Lx : x < w) by (rewrite Gw in E; destruct (N.ltb_spec x w); [assumption|discriminate]).
    unfold in_tree. fold w. destruct (N.eq_dec x (w - 1)) as [->|]; [|lia]. exfalso.
    assert (EW : w - 1 = node_at (e + 1) 0) by (unfold node_at, w; lia). apply Gs in E. rewrite EW in E. destruct nd as [l|p]; [eapply g_parent; eassumption|].
    destruct (g_sides b d G e 0 p E) as (x & y & _ & _ & Cy & By). apply M in By. unfold covers in Cy. lia.
  - intros i p E. eapply g_leaf; [exact G|eauto].
  - intros k j l E. eapply g_parent; [exact G|eauto].
  - split.
    + intros k j p E. eapply uo_sorted; [apply (g_unmerged b d G)|eauto].
    + intros k j p u E I. destruct (uo_below b (g_unmerged b d G) k j p u (Gs _ _ E) I) as [C Q]. split; [exact C|].
      pose proof (proj1 (good_leaf_at b d u G) Q) as NB. unfold leaf_at in *. rewrite Gw. destruct (N.ltb_spec (2 * u) w) as [|X]; [exact Q|]. pose proof (M u NB). unfold w in X. rewrite pow2_S in X. lia.
    + intros k j p u k' j' p' E I Hk C E2. eapply (uo_between b (g_unmerged b d G) k j p u k' j' p'); eauto.
  - intros k j p u i E I C L. apply Mb. eapply g_order; eauto.
  - intros k j p E. destruct (g_sides b d G k j p (Gs _ _ E)) as (x & y & A & B & C & D). exists x, y. auto.
Qed.

Lemma remove_good t d i t' : good t d -> i < 2 ^ d -> tree_remove t i = Ok t' -> t' = [] \/ exists e, e <= d /\ good t' e.
Proof.
  intros G Hi E. pose proof (blanked_good t d i G Hi) as GB. destruct (remove_eq t d i (good_usized t d G) Hi) as [[E2 _]|(m & Lm & NB & B & E2)]; rewrite E in E2; apply Ok_inj in E2.
  - left. exact E2.
  - right. destruct (N.ltb_spec (N.size m) d) as [L|L]; subst t'; [|exists d; split; [lia|exact GB]]. exists (N.size m). split; [lia|].
    apply (cut_good _ d); [exact GB|exact L|]. intros a NA. pose proof (good_member_lt _ _ _ GB NA) as La. destruct (size_bounds m) as [B1 _].
    destruct (N.le_gt_cases a m); [lia|]. exfalso. apply NA, B. lia.
Qed.

Lemma sorted_app l i : StronglySorted N.lt l -> (forall u, In u l -> u < i) -> StronglySorted N.lt (l ++ [i]).
Proof.
  induction l as [|a l IH]; intros S H; cbn; [repeat constructor|]. inversion S as [|? ? S' F]; subst. constructor.
  - apply IH; [exact S'|]. intros u Iu. apply H. right. exact Iu.
  - apply Forall_app. split; [exact F|]. constructor; [|constructor]. apply H. left. reflexivity.
Qed.

Lemma add_found_good t d i l t' : good t d -> i < 2 ^ d -> blank_at t i -> (forall j, j < i -> ~ blank_at t j) ->
  tree_add t l = Ok t' -> good t' d.
Proof.
  intros G Hi Bi Lt E. destruct (add_found t d i l (good_usized t d G) Hi Bi Lt) as (t2 & E2 & L & H). rewrite E in E2. apply Ok_inj in E2. subst t2.
  assert (OL : forall a, a <> i -> tget t' (2 * a) = tget t (2 * a)).
  { intros a Ne. apply H; [lia|]. intros O. eapply on_path_odd; [exact O|reflexivity]. }
  assert (OI : tget t' (2 * i) = Some (Leaf l)) by (apply H; reflexivity).
  assert (MB : forall a, ~ blank_at t a -> ~ blank_at t' a).
  { intros a NB. unfold blank_at. destruct (N.eq_dec a i) as [->|Ne]; [rewrite OI; discriminate|]. rewrite OL by exact Ne. exact NB. }
  assert (Mi : ~ blank_at t' i) by (unfold blank_at; rewrite OI; discriminate).
  (* every parent of t' is a parent of t, with [i] appended exactly on the path *)
  assert (OP : forall k j p', tget t' (node_at k j) = Some (Parent p') -> exists p, tget t (node_at k j) = Some (Parent p) /\
     ((covers k j i /\ pn_unmerged p' = (pn_unmerged p ++ [i])%list) \/ (~ covers k j i /\ pn_unmerged p' = pn_unmerged p))).
  { intros k j p' E'. assert (K0 : k <> 0). { intros ->. rewrite node_at_leaf in E'. destruct (N.eq_dec j i) as [->|Ne]; [congruence|]. rewrite OL in E' by exact Ne. eapply g_leaf; eassumption. }
    destruct (on_path_dec d i (node_at k j)) as [O|O].
    - destruct (H (node_at k j)) as (_ & H2 & _). rewrite H2 in E' by exact O. destruct (tget t (node_at k j)) as [[lf|p]|]; cbn in E'; try discriminate.
      injection E' as <-. exists p. split; [reflexivity|]. left. split; [|reflexivity]. destruct O as (k2 & j2 & _ & Q & C). apply node_at_inj in Q as [<- <-]. exact C.
    - assert (Ne : node_at k j <> 2 * i). { rewrite <- node_at_leaf. intros Q. apply node_at_inj in Q. lia. }
      destruct (H (node_at k j)) as (_ & _ & H3). rewrite H3 in E' by assumption. exists p'. split; [exact E'|]. right. split; [|reflexivity].
      apply (off_path_covers d); [|exact O]. eapply good_level; eassumption. }
  (* leaves unmerged before are to the left of [i] *)
  assert (UL : forall k j p u, tget t (node_at k j) = Some (Parent p) -> In u (pn_unmerged p) -> covers k j i -> u < i).
  { intros k j p u Ep Iu C. destruct (N.lt_trichotomy u i) as [|[->|X]]; [assumption| |].
    - exfalso. destruct (uo_below t (g_unmerged t d G) k j p i Ep Iu) as [_ M]. apply (good_leaf_at t d i G) in M. tauto.
    - exfalso. apply (g_order t d G k j p u i Ep Iu C X). exact Bi. }
  split.
  - pose proof (g_size t d G) as S. unfold tsized, full_size, cut_size in *. rewrite L. exact S.
  - rewrite L. apply (g_small t d G).
  - intros x nd Ex. destruct (H x) as (H1 & H2 & H3). destruct (N.eq_dec x (2 * i)) as [->|Ne]; [apply leaf_in_tree, Hi|].
    destruct (on_path_dec d i x) as [O|O]; [eapply on_path_in; eassumption|]. rewrite H3 in Ex by assumption. eapply g_in; eassumption.
  - intros a p Ep. destruct (N.eq_dec a i) as [->|Ne]; [congruence|]. rewrite OL in Ep by exact Ne. eapply g_leaf; eassumption.
  - intros k j lf Ep. destruct (H (node_at (k + 1) j)) as (H1 & H2 & H3). destruct (on_path_dec d i (node_at (k + 1) j)) as [O|O].
    + rewrite H2 in Ep by exact O. destruct (tget t (node_at (k + 1) j)) as [[lf2|p]|] eqn:Q; cbn in Ep; try discriminate. eapply g_parent; eassumption.
    + rewrite H3 in Ep; [eapply g_parent; eassumption| |exact O]. rewrite <- node_at_leaf. intros Q. apply node_at_inj in Q. lia.
  - split.
    + intros k j p' Ep. destruct (OP k j p' Ep) as (p & E0 & [[C ->]|[NC ->]]).
      * apply sorted_app; [eapply uo_sorted; [apply (g_unmerged t d G)|exact E0]|]. intros u Iu. eapply UL; eassumption.
      * eapply uo_sorted; [apply (g_unmerged t d G)|exact E0].
    + intros k j p' u Ep I. destruct (OP k j p' Ep) as (p & E0 & Q).
      assert (I' : In u (pn_unmerged p) \/ (u = i /\ covers k j i)). { destruct Q as [[C Q]|[NC Q]]; rewrite Q in I; [|auto]. apply in_app_or in I as [I|[<-|[]]]; auto. }
      destruct I' as [I'|[-> C]].
      * destruct (uo_below t (g_unmerged t d G) k j p u E0 I') as [C M]. split; [exact C|]. unfold leaf_at in *. destruct (N.eq_dec u i) as [->|Ne]; [rewrite OI; eauto|]. rewrite OL by exact Ne. exact M.
      * split; [exact C|]. unfold leaf_at. rewrite OI. eauto.
    + intros k j p' u k' j' q' Ep I Hk C' E2. destruct (OP k j p' Ep) as (p & E0 & Q). destruct (OP k' j' q' E2) as (q & E1 & Q').
      assert (I' : In u (pn_unmerged p) \/ (u = i /\ covers k j i)). { destruct Q as [[C Q]|[NC Q]]; rewrite Q in I; [|auto]. apply in_app_or in I as [I|[<-|[]]]; auto. }
      destruct I' as [I'|[-> C]].
      * pose proof (uo_between t (g_unmerged t d G) k j p u k' j' q E0 I' Hk C' E1) as R. destruct Q' as [[_ ->]|[_ ->]]; [apply in_or_app; left; exact R|exact R].
      * destruct Q' as [[_ ->]|[NC _]]; [|tauto]. apply in_or_app. right. left. reflexivity.
  - intros k j p' u a Ep I Ca La. destruct (OP k j p' Ep) as (p & E0 & Q).
    assert (I' : In u (pn_unmerged p) \/ u = i). { destruct Q as [[C Q]|[NC Q]]; rewrite Q in I; [|auto]. apply in_app_or in I as [I|[<-|[]]]; auto. }
    apply MB. destruct I' as [I'| ->]; [eapply g_order; eassumption|apply Lt; exact La].
  - intros k j p' Ep. destruct (OP _ _ p' Ep) as (p & E0 & _). destruct (g_sides t d G k j p E0) as (a & b & A & B & C & D). exists a, b. auto 10.
Qed.

(** A complete tree in which every leaf position is taken can only be grown below 2^31 leaves. *)
Lemma add_full_30 t d l t' : usized t d -> full_size t d -> (forall j, j < 2 ^ d -> ~ blank_at t j) -> tree_add t l = Ok t' -> d <= 30.
Proof.
  intros U FS NB E. pose proof (usized_31 t d U) as D31. destruct (N.eq_dec d 31) as [->|]; [|lia]. exfalso.
  assert (Q : forall m li, li + m = 2 ^ 31 -> forall fuel, m <= N.of_nat fuel -> find_blank fuel t li = Panic).
  { induction m as [|m IH] using N.peano_ind; intros li El fuel Lf.
    - assert (li = 2 ^ 31) by lia. subst li. destruct fuel; reflexivity.
    - assert (Li : li < 2 ^ 31) by lia. destruct fuel as [|fuel]; [lia|]. cbn [find_blank]. rewrite (node_index_ok 31) by (assumption || lia). cbn [bind].
      pose proof (leaf_in_tlen t 31 li U Li). destruct (N.leb_spec (tlen t) (2 * li)); [lia|].
      specialize (NB li Li). unfold blank_at in NB. destruct (tget t (2 * li)); [|congruence]. unfold add32, u32_max. change (2 ^ 31) with 2147483648 in *.
      destruct (N.leb_spec (li + 1) 4294967295); [|lia]. cbn [bind]. apply IH; lia. }
  unfold tree_add in E. rewrite (Q (2 ^ 31) 0) in E; [discriminate|lia|]. red in FS. unfold tlen in FS. change (2 ^ (31 + 1)) with 4294967296 in FS. change (2 ^ 31) with 2147483648. lia.
Qed.

Lemma add_full_good t d l t' : good t d -> full_size t d -> (forall j, j < 2 ^ d -> ~ blank_at t j) ->
  tree_add t l = Ok t' -> good t' (d + 1).
Proof.
  intros G FS NB E. pose proof (usized_31 t d (good_usized t d G)) as D31.
  assert (D30 : d <= 30) by (eapply add_full_30; eauto using good_usized).
  destruct (add_full t d l FS D30 NB) as (t2 & E2 & F2 & H). rewrite E in E2. apply Ok_inj in E2. subst t2.
  pose proof (pow2_S d) as S1. pose proof (pow2_S (d + 1)) as S2. pose proof (pow2_pos d) as P.
  assert (GP : forall x p, tget t' x = Some (Parent p) -> tget t x = Some (Parent p)). { intros x p Ex. rewrite H in Ex. destruct (x =? 2 * 2 ^ d); [discriminate|exact Ex]. }
  assert (MB : forall a nd, tget t (2 * a) = Some nd -> tget t' (2 * a) = Some nd).
  { intros a nd Ea. rewrite H. destruct (N.eqb_spec (2 * a) (2 * 2 ^ d)) as [Q|]; [|exact Ea]. apply (g_in t d G) in Ea. unfold in_tree in Ea. lia. }
  assert (MB' : forall a, ~ blank_at t a -> ~ blank_at t' a).
  { intros a Na. unfold blank_at in *. destruct (tget t (2 * a)) eqn:Ea; [|congruence]. erewrite MB by exact Ea. discriminate. }
  split.
  - left. exact F2.
  - red in F2. rewrite F2. assert (2 ^ (d + 1 + 1) <= 2 ^ 32) by (apply pow2_mono; lia). change (2 ^ 32) with 4294967296 in *. lia.
  - intros x nd Ex. rewrite H in Ex. unfold in_tree. destruct (N.eqb_spec x (2 * 2 ^ d)); [lia|]. apply (g_in t d G) in Ex. unfold in_tree in Ex. lia.
  - intros i p Ep. eapply g_leaf; eauto.
  - intros k j lf Ep. rewrite H in Ep. destruct (N.eqb_spec (node_at (k + 1) j) (2 * 2 ^ d)) as [Q|Q]; [|eapply g_parent; eassumption].
    rewrite <- node_at_leaf in Q. apply node_at_inj in Q. lia.
  - split.
    + intros k j p Ep. eapply uo_sorted; [apply (g_unmerged t d G)|eauto].
    + intros k j p u Ep I. destruct (uo_below t (g_unmerged t d G) k j p u (GP _ _ Ep) I) as [C M]. split; [exact C|]. destruct M as [lf M]. exists lf. unfold leaf_at in *.
      destruct (tget t (2 * u)) eqn:Eu; [|discriminate]. erewrite MB by exact Eu. exact M.
    + intros k j p u k' j' p' Ep I Hk C E2. eapply (uo_between t (g_unmerged t d G) k j p u k' j' p'); eauto.
  - intros k j p u i Ep I C Li. apply MB'. eapply g_order; eauto.
  - intros k j p Ep. destruct (g_sides t d G k j p (GP _ _ Ep)) as (a & b & A & B & C & D). exists a, b. auto.
Qed.

Lemma blank_dec t i : {blank_at t i} + {~ blank_at t i}.
Proof. unfold blank_at. destruct (tget t (2 * i)); [right; discriminate|left; reflexivity]. Qed.
(** Either all leaf positions below [n] are taken, or there is a leftmost blank one. *)
Lemma leftmost_blank t n : (forall j, j < n -> ~ blank_at t j) \/ exists i, i < n /\ blank_at t i /\ forall j, j < i -> ~ blank_at t j.
Proof.
  induction n as [|n IH] using N.peano_ind; [left; lia|]. destruct IH as [A|(i & L & B & C)].
  - destruct (blank_dec t n) as [B|B].
    + right. exists n. split; [lia|]. split; [exact B|]. exact A.
    + left. intros j Lj. destruct (N.eq_dec j n) as [->|]; [exact B|]. apply A. lia.
  - right. exists i. split; [lia|]. auto.
Qed.

Lemma size_unique t d d' : tsized t d -> tsized t d' -> d = d' .
Proof.
  intros A B. pose proof (pow2_S d). pose proof (pow2_S d'). pose proof (pow2_pos d). pose proof (pow2_pos d').
  destruct (N.lt_trichotomy d d') as [L|[|L]]; [|assumption|]; exfalso.
  - assert (2 ^ (d + 1) <= 2 ^ d') by (apply pow2_mono; lia). destruct A as [A|A], B as [B|B]; red in A, B; lia.
  - assert (2 ^ (d' + 1) <= 2 ^ d) by (apply pow2_mono; lia). destruct A as [A|A], B as [B|B]; red in A, B; lia.
Qed.

Lemma add_good t d l t' : good t d -> has_room t -> tree_add t l = Ok t' -> good t' d \/ good t' (d + 1).
Proof.
  intros G (d' & R) E. destruct (leftmost_blank t (2 ^ d)) as [A|(i & Li & B & C)].
  - right. pose proof (g_size t d G) as S. assert (d' = d). { apply (size_unique t); [|exact S]. destruct R as [R|[R _]]; [left|right]; exact R. } subst d'.
    destruct R as [R|[_ (i & Li & B)]]; [|exfalso; eapply A; eassumption]. eapply add_full_good; eassumption.
  - left. eapply add_found_good; eassumption.
Qed.

Lemma res_member t d : good t d -> forall k j, in_tree d (node_at (N.of_nat k) j) -> resolution t k j <> [] ->
  exists a, covers (N.of_nat k) j a /\ ~ blank_at t a.
Proof.
  intros G. induction k as [|k IH]; intros j It R; cbn [resolution] in R.
  - exists j. change (N.of_nat 0) with 0 in *. rewrite node_at_leaf in R. split; [apply covers_div; change (2 ^ 0) with 1; apply N.div_1_r|].
    unfold blank_at. destruct (tget t (2 * j)); [discriminate|tauto].
  - replace (N.of_nat (S k)) with (N.of_nat k + 1) in * by lia.
    destruct (tget t (node_at (N.of_nat k + 1) j)) as [[l|p]|] eqn:E.
    + exfalso. eapply g_parent; eassumption.
    + destruct (g_sides t d G _ j p E) as (a & _ & A & B & _). exists a. split; [|exact B]. apply covers_up. left. exact A.
    + apply in_tree_iff in It as [Ik Ij]. replace (d - N.of_nat k) with (d - (N.of_nat k + 1) + 1) in * by lia.
      assert (Q : forall b, b < 2 -> in_tree d (node_at (N.of_nat k) (2 * j + b))).
      { intros b Hb. apply in_tree_iff. split; [lia|]. replace (d - N.of_nat k) with (d - (N.of_nat k + 1) + 1) by lia. rewrite pow2_S. lia. }
      destruct (resolution t k (2 * j)) eqn:E1.
      * destruct (IH (2 * j + 1)) as (a & A & B); [apply Q; lia|exact R|]. exists a. split; [|exact B]. apply covers_up. right. exact A.
      * destruct (IH (2 * j)) as (a & A & B); [rewrite <- (N.add_0_r (2 * j)); apply Q; lia|congruence|]. exists a. split; [|exact B]. apply covers_up. left. exact A.
Qed.

Lemma sib_in d i k : i < 2 ^ d -> k < d -> in_tree d (node_at k (sib (i / 2 ^ k))).
Proof.
  intros Hi Hk. apply in_tree_iff. split; [lia|]. pose proof (pow2_pos k).
  assert (Q : i / 2 ^ k < 2 ^ (d - k)). { apply N.div_lt_upper_bound; [lia|]. rewrite <- N.pow_add_r. replace (k + (d - k)) with d by lia. exact Hi. }
  replace (d - k) with (d - (k + 1) + 1) in * by lia. rewrite pow2_S in *. rewrite sib_bit.
  pose proof (N.div_mod (i / 2 ^ k) 2 ltac:(lia)). pose proof (N.mod_lt (i / 2 ^ k) 2 ltac:(lia)). destruct (N.eqb_spec ((i / 2 ^ k) mod 2) 0); lia.
Qed.

Lemma merge_good P cs t d i u t' : good t d -> i < 2 ^ d -> merge_update_path P cs t i u = (t', Ok tt) -> good t' d.
Proof.
  intros G Hi E. pose proof (good_small t d G) as SU. pose proof (good_usized t d G) as U. apply (merge_iff P cs t d i u t' SU U Hi) in E.
  destruct E as [HL HF HO (fp & ph & EF & NE & EL & HK & HB & _)]. rewrite (filtered_leaf t d i SU U Hi) in EF. apply Ok_inj in EF. subst fp.
  apply (good_reshape t t' d i G Hi HL HO); [congruence|]. intros k j O.
  destruct (in_dec N.eq_dec (node_at (k + 1) j) (fpath t (N.to_nat d) 0 i)) as [I|I]; [|left; apply HB; assumption]. right.
  destruct (nth_error_pair _ _ _ EL I) as (m & n & A & B). destruct (HK m _ n A B) as [h Hh]. eexists. split; [exact Hh|]. split; [reflexivity|].
  apply fpath_in in I as (e & He & Ee & R). rewrite N.add_0_l in *. apply node_at_inj in Ee as [Ek Ej]. assert (k = e) by lia. subst e.
  destruct (res_member t d G (N.to_nat k) (sib (i / 2 ^ k))) as (a & Ca & Ba); [rewrite N2Nat.id; apply sib_in; [exact Hi|lia]|exact R|]. rewrite N2Nat.id in Ca.
  assert (Mi : ~ blank_at t' i) by (unfold blank_at; rewrite HF; discriminate).
  assert (Ma : ~ blank_at t' a).
  { unfold blank_at in *. rewrite HO; [exact Ba| |intros Q; eapply on_path_odd; [exact Q|reflexivity]]. intros Q. assert (a = i) by lia. subst a. apply (sib_not_covers k i Ca). }
  rewrite div_half in Ej. subst j. set (q := i / 2 ^ k) in *. assert (Ci : covers k q i) by (apply covers_div; reflexivity).
  pose proof (N.div_mod q 2 ltac:(lia)) as DM. pose proof (N.mod_lt q 2 ltac:(lia)) as ML. rewrite sib_bit in Ca.
  destruct (N.eqb_spec (q mod 2) 0) as [Z|Z].
  - exists i, a. replace (2 * (q / 2)) with q by lia. auto.
  - exists a, i. replace (2 * (q / 2)) with (q - 1) by lia. replace (q - 1 + 1) with q by lia. auto.
Qed.

(** ** Indices outside the tree *)

Lemma node_index_cases i : node_index i = Panic \/ (node_index i = Ok (2 * i) /\ 2 * i < 4294967296).
Proof. unfold node_index, mul32, u32_max. destruct (N.leb_spec (2 * i) 4294967295); [right; split; [reflexivity|lia]|left; reflexivity]. Qed.
Lemma direct_out n d x : n = 2 ^ d -> d <= 31 -> ~ in_tree d x -> climb 33 n x = Panic.
Proof.
  intros -> Hd NI. d31. apply (direct_path_out (2 ^ d) x); [assumption|assumption|]. rewrite depth_pow2. exact NI.
Qed.
Lemma leaf_out d i : 2 ^ d <= i -> ~ in_tree d (2 * i).
Proof. unfold in_tree. rewrite pow2_S. lia. Qed.
Lemma update_out t d i l : usized t d -> 2 ^ d <= i -> tree_update t i l = Panic.
Proof.
  intros U Hi. unfold tree_update. destruct (node_index_cases i) as [->|[-> _]]; cbn [bind]; [reflexivity|].
  assert (U' : usized (tset t (2 * i) (Some (Leaf l))) d) by (eapply usized_same; [apply tlen_tset|exact U]).
  rewrite (direct_out _ d (2 * i) (usized_leaves _ _ U') (usized_31 _ _ U) (leaf_out d i Hi)). reflexivity.
Qed.
Lemma remove_out t d i : usized t d -> 2 ^ d <= i -> tree_remove t i = Panic.
Proof.
  intros U Hi. unfold tree_remove. destruct (node_index_cases i) as [->|[-> _]]; cbn [bind]; [reflexivity|].
  rewrite (direct_out _ d (2 * i) (usized_leaves _ _ U) (usized_31 _ _ U) (leaf_out d i Hi)). reflexivity.
Qed.
Lemma merge_out P cs t d i u : usized t d -> 2 ^ d <= i -> merge_update_path P cs t i u = (t, Panic).
Proof.
  intros U Hi. unfold merge_update_path. destruct (node_index_cases i) as [->|[-> _]]; cbn [tbind]; [reflexivity|].
  unfold direct_path. rewrite (direct_out _ d (2 * i) (usized_leaves _ _ U) (usized_31 _ _ U) (leaf_out d i Hi)). reflexivity.
Qed.
Lemma climb_empty x : climb 33 0 x = Panic.
Proof. cbn [climb]. unfold parent. rewrite root_0. reflexivity. Qed.
Lemma update_empty i l : tree_update [] i l = Panic.
Proof. unfold tree_update. destruct (node_index_cases i) as [->|[-> _]]; cbn [bind]; [reflexivity|].
  replace (tset [] (2 * i) (Some (Leaf l))) with (@nil (option node)); [|unfold tset; cbn; destruct (2 * i); reflexivity]. change (num_leaves []) with 0. rewrite climb_empty. reflexivity. Qed.
Lemma remove_empty i : tree_remove [] i = Panic.
Proof. unfold tree_remove. destruct (node_index_cases i) as [->|[-> _]]; cbn [bind]; [reflexivity|]. change (num_leaves []) with 0. rewrite climb_empty. reflexivity. Qed.
Lemma merge_empty P cs i u : merge_update_path P cs [] i u = ([], Panic).
Proof. unfold merge_update_path. destruct (node_index_cases i) as [->|[-> _]]; cbn [tbind]; [reflexivity|]. change (num_leaves []) with 0. unfold direct_path. rewrite climb_empty. reflexivity. Qed.

(** ** Histories *)

Lemma step_good P cs t d t' : good t d -> tree_step P cs t t' -> t' = [] \/ exists d', good t' d'.
Proof.
  intros G S. pose proof (good_usized t d G) as U. destruct S as [t l t' R E|t i l t' E|t i t' E|t i u t' E].
  - right. destruct (add_good t d l t' G R E); eauto.
  - right. exists d. destruct (N.lt_ge_cases i (2 ^ d)); [eapply update_good; eassumption|]. rewrite (update_out t d) in E by assumption. discriminate.
  - destruct (N.lt_ge_cases i (2 ^ d)) as [Hi|Hi]; [|rewrite (remove_out t d) in E by assumption; discriminate].
    destruct (remove_good t d i t' G Hi E) as [->|(e & _ & Ge)]; eauto.
  - right. exists d. destruct (N.lt_ge_cases i (2 ^ d)); [eapply merge_good; eassumption|]. rewrite (merge_out P cs t d) in E by assumption. discriminate.
Qed.
Lemma step_empty P cs t' : ~ tree_step P cs [] t'.
Proof.
  intros S. inversion S; subst.
  - rewrite add_empty in H0. discriminate.
  - rewrite update_empty in H. discriminate.
  - rewrite remove_empty in H. discriminate.
  - rewrite merge_empty in H. discriminate.
Qed.
Lemma history_good P cs t d t' : good t d -> tree_history P cs t t' -> t' = [] \/ exists d', good t' d'.
Proof.
  intros G H. induction H as [t|t t1 t2 H IH S]; [eauto|]. destruct (IH G) as [->|[d' G']].
  - exfalso. eapply step_empty; eassumption.
  - eapply step_good; eassumption.
Qed.

(** ** Trees that were received *)

Lemma good_shaped t d : good t d -> shaped t d.
Proof.
  intros G. split; [exact (g_size t d G)|exact (g_small t d G)|exact (g_leaf t d G)|exact (g_parent t d G)|exact (good_small t d G)].
Qed.
Lemma shaped_usized t d : shaped t d -> usized t d.
Proof.
  intros [S L _ _ _]. change 4294967296 with (2 ^ 32) in L. destruct S as [S|S]; red in S; rewrite S in L.
  - left. split; [exact S|]. destruct (N.le_gt_cases d 31) as [|Q]; [assumption|]. assert (2 ^ 33 <= 2 ^ (d + 1)) by (apply pow2_mono; lia). assert (2 ^ 33 = 2 * 2 ^ 32) by reflexivity. pose proof (pow2_pos 32). lia.
  - right. split; [exact S|]. destruct (N.le_gt_cases d 30) as [|Q]; [assumption|]. assert (2 ^ 32 <= 2 ^ (d + 1)) by (apply pow2_mono; lia). lia.
Qed.
Lemma shaped_leaf_at t d i : shaped t d -> ((exists l, leaf_at t i = Some l) <-> ~ blank_at t i).
Proof.
  intros G. unfold leaf_at, blank_at. destruct (tget t (2 * i)) as [[l|p]|] eqn:E.
  - split; [discriminate|eauto].
  - exfalso. eapply sh_leaf; eassumption.
  - split; [intros [l H]; discriminate|tauto].
Qed.
Lemma shaped_member_lt t d i : shaped t d -> ~ blank_at t i -> i < 2 ^ d.
Proof.
  intros G H. unfold blank_at in H. destruct (tget t (2 * i)) as [nd|] eqn:E; [|congruence]. assert (L : 2 * i < tlen t) by (destruct (N.lt_ge_cases (2 * i) (tlen t)) as [|Q]; [assumption|]; rewrite tget_beyond in E by exact Q; discriminate).
  pose proof (sh_size t d G) as S. pose proof (pow2_S d). destruct S as [S|S]; red in S; lia.
Qed.
(** The same node at every place of [t'], or another leaf at a leaf position, or another parent above. *)
Lemma shaped_from t d t' d' : shaped t d -> tsized t' d' -> tlen t' < 4294967296 ->
  (forall x nd, tget t' x = Some nd -> tget t x = Some nd \/ (exists i l, x = 2 * i /\ nd = Leaf l) \/
     (exists k j p, x = node_at (k + 1) j /\ nd = Parent p /\ forall u, In u (pn_unmerged p) -> u < 2147483648)) ->
  shaped t' d'.
Proof.
  intros G S L H. split; [exact S|exact L| | |].
  - intros i p E. destruct (H _ _ E) as [Q|[(i' & l & _ & Q)|(k & j & p' & Q & _)]]; [exact (sh_leaf t d G i p Q)|discriminate|].
    rewrite <- node_at_leaf in Q. apply node_at_inj in Q. lia.
  - intros k j l E. destruct (H _ _ E) as [Q|[(i' & l' & Q & _)|(k' & j' & p' & _ & Q & _)]]; [exact (sh_parent t d G k j l Q)| |discriminate].
    rewrite <- node_at_leaf in Q. apply node_at_inj in Q. lia.
  - intros x p u E I. destruct (H _ _ E) as [Q|[(i' & l' & _ & Q)|(k' & j' & p' & _ & Q & U)]]; [exact (sh_unmerged t d G x p u Q I)|discriminate|].
    injection Q as <-. apply U, I.
Qed.
Lemma tsized_same t t' d : tlen t' = tlen t -> tsized t d -> tsized t' d.
Proof. intros L S. unfold tsized, full_size, cut_size in *. rewrite L. exact S. Qed.
Lemma on_path_up d i x : on_path d i x -> exists k j, x = node_at (k + 1) j.
Proof. intros (k & j & Hk & E & _). exists (k - 1), j. replace (k - 1 + 1) with k by lia. exact E. Qed.

Lemma update_shaped t d i l t' : shaped t d -> i < 2 ^ d -> tree_update t i l = Ok t' -> shaped t' d.
Proof.
  intros G Hi E. destruct (update_ok t d i l (shaped_usized t d G) Hi) as (t2 & E2 & L & H). rewrite E in E2. apply Ok_inj in E2. subst t2.
  apply (shaped_from t d); [exact G|exact (tsized_same _ _ _ L (sh_size t d G))|rewrite L; exact (sh_small t d G)|].
  intros x nd X. destruct (N.eq_dec x (2 * i)) as [->|Ne].
  - rewrite (proj1 (H (2 * i)) eq_refl) in X. injection X as <-. right. left. eauto.
  - left. destruct (on_path_dec d i x) as [O|O]; [|rewrite <- X; symmetry; apply H; assumption]. assert (Z : tget t' x = None) by (apply H, O). congruence.
Qed.
Lemma blanked_shaped t d i : shaped t d -> shaped (blanked t d i) d.
Proof.
  intros G. pose proof (blanked_len t d i) as L. apply (shaped_from t d); [exact G|exact (tsized_same _ _ _ L (sh_size t d G))|rewrite L; exact (sh_small t d G)|].
  intros x nd X. left. destruct (N.eq_dec x (2 * i)) as [->|Ne]; [|destruct (on_path_dec d i x) as [O|O]].
  - assert (Z : tget (blanked t d i) (2 * i) = None) by (apply blanked_get; auto). congruence.
  - assert (Z : tget (blanked t d i) x = None) by (apply blanked_get; auto). congruence.
  - rewrite <- X. symmetry. apply blanked_get; assumption.
Qed.
Lemma cut_shaped b d e : shaped b d -> e < d -> shaped (firstn (N.to_nat (2 ^ (e + 1))) b) e.
Proof.
  intros G He. pose proof (shaped_usized b d G) as U. pose proof (usized_31 b d U) as D31.
  assert (LW : tlen (firstn (N.to_nat (2 ^ (e + 1))) b) = 2 ^ (e + 1)).
  { apply tlen_firstn. apply usized_len in U. assert (2 ^ (e + 1) <= 2 ^ d) by (apply pow2_mono; lia). rewrite pow2_S in U. pose proof (pow2_pos d). lia. }
  apply (shaped_from b d); [exact G|right; exact LW|rewrite LW; change 4294967296 with (2 ^ 32); apply N.pow_lt_mono_r; lia|].
  intros x nd X. left. rewrite tget_firstn in X. destruct (x <? 2 ^ (e + 1)); [exact X|discriminate].
Qed.
Lemma remove_shaped t d i t' : shaped t d -> i < 2 ^ d -> tree_remove t i = Ok t' -> t' = [] \/ exists e, e <= d /\ shaped t' e.
Proof.
  intros G Hi E. pose proof (blanked_shaped t d i G) as GB. destruct (remove_eq t d i (shaped_usized t d G) Hi) as [[E2 _]|(m & Lm & NB & B & E2)]; rewrite E in E2; apply Ok_inj in E2.
  - left. exact E2.
  - right. destruct (N.ltb_spec (N.size m) d) as [L|L]; subst t'; [|exists d; split; [lia|exact GB]]. exists (N.size m). split; [lia|].
    apply (cut_shaped _ d); assumption.
Qed.
Lemma add_found_shaped t d i l t' : shaped t d -> i < 2 ^ d -> blank_at t i -> (forall j, j < i -> ~ blank_at t j) ->
  tree_add t l = Ok t' -> shaped t' d.
Proof.
  intros G Hi Bi Lt E. destruct (add_found t d i l (shaped_usized t d G) Hi Bi Lt) as (t2 & E2 & L & H). rewrite E in E2. apply Ok_inj in E2. subst t2.
  apply (shaped_from t d); [exact G|exact (tsized_same _ _ _ L (sh_size t d G))|rewrite L; exact (sh_small t d G)|].
  intros x nd X. destruct (H x) as (H1 & H2 & H3). destruct (N.eq_dec x (2 * i)) as [->|Ne]; [|destruct (on_path_dec d i x) as [O|O]].
  - rewrite H1 in X by reflexivity. injection X as <-. right. left. eauto.
  - rewrite H2 in X by exact O. destruct (on_path_up d i x O) as (k & j & Ex). destruct (tget t x) as [[lf|p]|] eqn:T; cbn in X; [|injection X as <-|discriminate].
    { exfalso. subst x. eapply sh_parent; eassumption. }
    right. right. exists k, j, (with_unmerged p (pn_unmerged p ++ [i])). split; [exact Ex|]. split; [reflexivity|]. cbn. intros u Iu.
    apply in_app_or in Iu as [Iu|[<-|[]]]; [exact (sh_unmerged t d G x p u T Iu)|].
    pose proof (usized_31 t d (shaped_usized t d G)). assert (2 ^ d <= 2 ^ 31) by (apply pow2_mono; assumption). change (2 ^ 31) with 2147483648 in *. lia.
  - left. rewrite <- X. symmetry. apply H3; assumption.
Qed.
Lemma add_full_shaped t d l t' : shaped t d -> full_size t d -> (forall j, j < 2 ^ d -> ~ blank_at t j) ->
  tree_add t l = Ok t' -> shaped t' (d + 1).
Proof.
  intros G FS NB E. pose proof (usized_31 t d (shaped_usized t d G)) as D31.
  assert (D30 : d <= 30) by (eapply add_full_30; eauto using shaped_usized).
  destruct (add_full t d l FS D30 NB) as (t2 & E2 & F2 & H). rewrite E in E2. apply Ok_inj in E2. subst t2.
  apply (shaped_from t d); [exact G|left; exact F2| |].
  - red in F2. rewrite F2. assert (2 ^ (d + 1 + 1) <= 2 ^ 32) by (apply pow2_mono; lia). change (2 ^ 32) with 4294967296 in *. pose proof (pow2_pos (d + 1 + 1)). lia.
  - intros x nd X. rewrite H in X. destruct (N.eqb_spec x (2 * 2 ^ d)); [injection X as <-; right; left; eauto|left; exact X].
Qed.
Lemma add_shaped t d l t' : shaped t d -> has_room t -> tree_add t l = Ok t' -> shaped t' d \/ shaped t' (d + 1).
Proof.
  intros G (d' & R) E. destruct (leftmost_blank t (2 ^ d)) as [A|(i & Li & B & C)].
  - right. pose proof (sh_size t d G) as S. assert (d' = d). { apply (size_unique t); [|exact S]. destruct R as [R|[R _]]; [left|right]; exact R. } subst d'.
    destruct R as [R|[_ (i & Li & B)]]; [|exfalso; eapply A; eassumption]. eapply add_full_shaped; eassumption.
  - left. eapply add_found_shaped; eassumption.
Qed.
Lemma merge_shaped P cs t d i u t' : shaped t d -> i < 2 ^ d -> merge_update_path P cs t i u = (t', Ok tt) -> shaped t' d.
Proof.
  intros G Hi E. apply (merge_iff P cs t d i u t' (sh_unmerged t d G) (shaped_usized t d G) Hi) in E. destruct E as [HL HF HO (fp & ph & _ & _ & EL & HK & HB & _)].
  apply (shaped_from t d); [exact G|exact (tsized_same _ _ _ HL (sh_size t d G))|rewrite HL; exact (sh_small t d G)|].
  intros x nd X. destruct (N.eq_dec x (2 * i)) as [->|Ne]; [rewrite HF in X; injection X as <-; right; left; eauto|].
  destruct (on_path_dec d i x) as [O|O]; [|left; rewrite <- X; symmetry; apply HO; assumption].
  destruct (in_dec N.eq_dec x fp) as [I|I]; [|rewrite HB in X by assumption; discriminate]. right. right.
  destruct (nth_error_pair _ _ _ EL I) as (m & n & A & B). destruct (HK m _ n A B) as [h Hh]. rewrite Hh in X. injection X as <-.
  destruct (on_path_up d i x O) as (k & j & Ex). eexists k, j, _. split; [exact Ex|]. split; [reflexivity|]. intros u' [].
Qed.
Lemma step_shaped P cs t d t' : shaped t d -> tree_step P cs t t' -> t' = [] \/ exists d', shaped t' d'.
Proof.
  intros G S. pose proof (shaped_usized t d G) as U. destruct S as [t l t' R E|t i l t' E|t i t' E|t i u t' E].
  - right. destruct (add_shaped t d l t' G R E); eauto.
  - right. exists d. destruct (N.lt_ge_cases i (2 ^ d)); [eapply update_shaped; eassumption|]. rewrite (update_out t d) in E by assumption. discriminate.
  - destruct (N.lt_ge_cases i (2 ^ d)) as [Hi|Hi]; [|rewrite (remove_out t d) in E by assumption; discriminate].
    destruct (remove_shaped t d i t' G Hi E) as [->|(e & _ & Ge)]; eauto.
  - right. exists d. destruct (N.lt_ge_cases i (2 ^ d)); [eapply merge_shaped; eassumption|]. rewrite (merge_out P cs t d) in E by assumption. discriminate.
Qed.
Lemma history_shaped P cs t d t' : shaped t d -> tree_history P cs t t' -> t' = [] \/ exists d', shaped t' d'.
Proof.
  intros G H. induction H as [t|t t1 t2 H IH S]; [eauto|]. destruct (IH G) as [->|[d' G']].
  - exfalso. eapply step_empty; eassumption.
  - eapply step_shaped; eassumption.
Qed.

Lemma good_single l : good [Some (Leaf l)] 0.
Proof.
  assert (T : forall x nd, tget [Some (Leaf l)] x = Some nd -> x = 0 /\ nd = Leaf l).
  { intros x nd E. destruct (N.eq_dec x 0) as [->|Ne]; [change (Some (Leaf l) = Some nd) in E; split; congruence|]. rewrite tget_beyond in E; [discriminate|]. cbn. lia. }
  split.
  - left. reflexivity.
  - reflexivity.
  - intros x nd E. apply T in E as [-> _]. reflexivity.
  - intros i p E. apply T in E as [_ E]. discriminate.
  - intros k j lf E. apply T in E as [E _]. unfold node_at in E. pose proof (pow2_S k). pose proof (pow2_pos k). nia.
  - split.
    + intros k j p E. apply T in E as [_ E]. discriminate.
    + intros k j p u E. apply T in E as [_ E]. discriminate.
    + intros k j p u k' j' p' E. apply T in E as [_ E]. discriminate.
  - intros k j p u i E. apply T in E as [_ E]. discriminate.
  - intros k j p E. apply T in E as [_ E]. discriminate.
Qed.
