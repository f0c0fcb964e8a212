(** Proofs about the size of trees (C124). *)
From Verif Require Import SpecTight RosterFacts TreeInv TreeFacts HashFacts MergeFail TreeMath TreeOps Verified.
Local Open Scope N_scope.

Lemma leaf_inside t d m l : shaped t d -> leaf_at t m = Some l -> m < 2 ^ d.
Proof.
  intros G E. destruct (N.lt_ge_cases m (2 ^ d)) as [L|L]; [exact L|]. exfalso. unfold leaf_at in E.
  pose proof (pow2_S d) as S2. rewrite tget_beyond in E; [discriminate|]. destruct (sh_size t d G) as [S|S]; red in S; rewrite S, S2; lia.
Qed.
Lemma tight_same t d t' : tight t d -> (forall m l, leaf_at t m = Some l -> exists l', leaf_at t' m = Some l') -> tight t' d.
Proof. intros (m & l & L & E & H) K. destruct (K m l E) as [l' E']. exists m, l'. auto. Qed.

Lemma add_tight t d l t' : shaped t d -> tight t d -> has_room t -> tree_add t l = Ok t' -> exists d', shaped t' d' /\ tight t' d'.
Proof.
  intros G T R E. pose proof (shaped_usized t d G) as U. destruct (leftmost_blank t (2 ^ d)) as [A|(i & Li & B & C)].
  - destruct R as (d' & R). assert (d' = d) by (apply (size_unique t); [destruct R as [R|[R _]]; [left|right]; exact R|exact (sh_size t d G)]). subst d'.
    destruct R as [R|(_ & i & Li & B)]; [|exfalso; eapply A; eassumption].
    assert (D : d <= 30) by (eapply add_full_30; eauto).
    destruct (add_full_added t d l R D A) as (t2 & E2 & F' & (H & _)). rewrite E in E2. apply Ok_inj in E2. subst t2. exists (d + 1).
    split; [eapply add_full_shaped; eassumption|]. exists (2 ^ d), l. pose proof (pow2_pos d). rewrite pow2_S. split; [lia|]. split; [exact (get_leaf_leaf _ _ _ H)|]. right. lia.
  - exists d. split; [eapply add_found_shaped; eassumption|]. destruct (add_found_added t d i l U Li B C) as (t2 & E2 & _ & (H1 & H2 & _)). rewrite E in E2. apply Ok_inj in E2. subst t2.
    apply (tight_same t d t' T). intros m lm Em. destruct (N.eq_dec m i) as [->|Ne]; [exists l; exact (get_leaf_leaf _ _ _ H1)|].
    exists lm. unfold leaf_at in *. rewrite H2 by exact Ne. exact Em.
Qed.
Lemma remove_tight t d i t' : shaped t d -> tree_remove t i = Ok t' -> t' = [] \/ exists d', shaped t' d' /\ tight t' d'.
Proof.
  intros G E. pose proof (shaped_usized t d G) as U.
  destruct (N.lt_ge_cases i (2 ^ d)) as [L|L]; [|rewrite (remove_out t d) in E by assumption; discriminate].
  destruct (remove_shaped t d i t' G L E) as [->|(e & Le & Ge)]; [auto|right; exists e; split; [exact Ge|]].
  destruct (c18 t d i (sh_size t d G) (sh_small t d G) L) as (t2 & E2 & _ & _ & B & _ & K). rewrite E in E2. apply Ok_inj in E2. subst t2.
  assert (M : forall m, m <> i -> ~ blank_at t m -> exists lm, leaf_at t' m = Some lm).
  { intros m Ne NB. rewrite B by exact Ne. destruct (leaf_at t m) as [lm|] eqn:Q; [eauto|]. exfalso. apply NB, (leaf_blank t d m G), Q. }
  destruct K as [[-> _]|[(e' & m & _ & CS & _ & Ne & NB & H)|(LE & m & Ne & NB & H)]].
  - exfalso. destruct (sh_size [] e Ge) as [S|S]; red in S; cbn in S; pose proof (pow2_pos (e + 1)); rewrite pow2_S in *; pose proof (pow2_pos e); lia.
  - assert (e' = e) by (apply (size_unique t'); [right; exact CS|exact (sh_size t' e Ge)]). subst e'. destruct (M m Ne NB) as [lm Q].
    exists m, lm. split; [exact (leaf_inside t' e m lm Ge Q)|]. auto.
  - assert (e = d) by (apply (size_unique t'); [exact (sh_size t' e Ge)|exact (tsized_same _ _ _ LE (sh_size t d G))]). subst e. destruct (M m Ne NB) as [lm Q].
    exists m, lm. split; [exact (leaf_inside t' d m lm Ge Q)|]. auto.
Qed.
Lemma step_tight P cs t d op ok t' : shaped t d -> tight t d -> performed P cs t op ok t' -> t' = [] \/ exists d', shaped t' d' /\ tight t' d'.
Proof.
  intros G T H. pose proof (step_roster P cs t d op ok t' G H) as [_ RS]. pose proof (shaped_usized t d G) as U. destruct H as [l t' R E|i l t' E|i t' E|i u t' E|i u e t' E].
  - right. eapply add_tight; eassumption.
  - destruct (N.lt_ge_cases i (2 ^ d)) as [L|L]; [|rewrite (update_out t d) in E by assumption; discriminate].
    right. exists d. split; [eapply update_shaped; eassumption|]. inversion RS as [|? ? ? [Q1 Q2]| | |]; subst. apply (tight_same t d t' T). intros m lm Em.
    destruct (N.eq_dec m i) as [->|Ne]; [eauto|]. rewrite Q2 by exact Ne. eauto.
  - eapply remove_tight; eassumption.
  - destruct (N.lt_ge_cases i (2 ^ d)) as [L|L]; [|rewrite (merge_out P cs t d) in E by assumption; discriminate].
    right. exists d. split; [eapply merge_shaped; eassumption|]. inversion RS as [| | |? ? ? [Q1 Q2]|]; subst. apply (tight_same t d t' T). intros m lm Em.
    destruct (N.eq_dec m i) as [->|Ne]; [eauto|]. rewrite Q2 by exact Ne. eauto.
  - destruct (N.lt_ge_cases i (2 ^ d)) as [L|L]; [|rewrite (merge_out P cs t d) in E by assumption; discriminate].
    right. exists d. split; [eapply rejected_shaped; eassumption|]. inversion RS as [| | | |? ? ? Q]; subst. apply (tight_same t d t' T). intros m lm Em. rewrite Q. eauto.
Qed.
Lemma history_tight P cs t d h t' : shaped t d -> tight t d -> history_of P cs t h t' -> t' = [] \/ exists d', shaped t' d' /\ tight t' d'.
Proof.
  intros G T H. revert d G T. induction H as [t|t op ok t1 r t2 S H IH]; intros d G T; [eauto|].
  destruct (step_tight P cs t d op ok t1 G T S) as [->|(d1 & G1 & T1)]; [|eauto].
  inversion H; subst; [auto|]. exfalso. eapply performed_empty; eassumption.
Qed.
Lemma history_removed P cs t d h t' : shaped t d -> history_of P cs t h t' -> (exists i, In (ORemove i, true) h) -> t' = [] \/ exists d', shaped t' d' /\ tight t' d'.
Proof.
  intros G H. revert d G. induction H as [t|t op ok t1 r t2 S H IH]; intros d G (i & I); [destruct I|].
  assert (Z : t1 = [] -> t2 = []) by (intros ->; inversion H; subst; [reflexivity|exfalso; eapply performed_empty; eassumption]).
  destruct I as [I|I].
  - injection I as -> ->. inversion S; subst. destruct (remove_tight t d i t1 G) as [Q|(d1 & G1 & T1)]; [assumption|auto|]. eapply history_tight; eassumption.
  - destruct (step_roster P cs t d op ok t1 G S) as [[Q|[d1 G1]] _]; [auto|]. eapply IH; eauto.
Qed.

(** ** The depth of a tight tree *)

Lemma size_half d m : m < 2 ^ d -> (d = 0 \/ 2 ^ d <= 2 * m) -> N.size m = d.
Proof.
  intros L H. destruct (N.eq_dec m 0) as [->|Ne]; [destruct H as [->|H]; [reflexivity|pose proof (pow2_pos d); lia]|].
  destruct H as [->|H]; [cbn in L; lia|]. rewrite N.size_log2 by exact Ne. destruct (N.eq_dec d 0) as [->|Nd]; [cbn in L; lia|].
  replace d with (N.succ (d - 1)) in * by lia. f_equal. apply N.log2_unique; [lia|]. split; [|exact L]. rewrite N.pow_succ_r' in H. lia.
Qed.
Lemma tight_depth t d m : shaped t d -> tight t d -> last_member t m -> d = N.size m /\ num_leaves t = 2 ^ N.size m.
Proof.
  intros G (k & l & Lk & Ek & H) [A B]. assert (D : N.size m = d).
  { apply size_half; [destruct (leaf_at t m) as [lm|] eqn:Q; [exact (leaf_inside t d m lm G Q)|congruence]|].
    destruct H as [H|H]; [auto|right]. destruct (N.le_gt_cases k m) as [Q|Q]; [lia|]. rewrite (B k Q) in Ek. discriminate. }
  rewrite D. split; [reflexivity|]. apply usized_leaves, shaped_usized, G.
Qed.
Lemma last_member_exists t d : shaped t d -> tight t d -> exists m, last_member t m.
Proof.
  intros G (k & l & Lk & Ek & _).
  assert (K : forall n, (exists m, m < N.of_nat n /\ leaf_at t m <> None /\ forall j, m < j < N.of_nat n -> leaf_at t j = None) \/ forall j, j < N.of_nat n -> leaf_at t j = None).
  { induction n as [|n [(m & L & A & B)|N]]; [right; intros j; lia| |].
    - left. destruct (leaf_at t (N.of_nat n)) as [x|] eqn:Q.
      + exists (N.of_nat n). split; [lia|]. split; [congruence|]. intros j. lia.
      + exists m. split; [lia|]. split; [exact A|]. intros j Lj. destruct (N.eq_dec j (N.of_nat n)) as [->|Ne]; [exact Q|]. apply B. lia.
    - destruct (leaf_at t (N.of_nat n)) as [x|] eqn:Q.
      + left. exists (N.of_nat n). split; [lia|]. split; [congruence|]. intros j. lia.
      + right. intros j Lj. destruct (N.eq_dec j (N.of_nat n)) as [->|Ne]; [exact Q|]. apply N. lia. }
  destruct (K (N.to_nat (2 ^ d))) as [(m & L & A & B)|N]; rewrite N2Nat.id in *; [|rewrite N in Ek by exact Lk; discriminate].
  exists m. split; [exact A|]. intros j Lj. destruct (leaf_at t j) as [x|] eqn:Q; [|reflexivity]. rewrite <- Q. apply B. split; [exact Lj|exact (leaf_inside t d j x G Q)].
Qed.
Lemma tight_unique t d t' e : shaped t d -> tight t d -> shaped t' e -> tight t' e -> (forall i, leaf_at t' i = None <-> leaf_at t i = None) ->
  d = e /\ num_leaves t' = num_leaves t.
Proof.
  intros G T G' T' E. destruct (last_member_exists t d G T) as (m & A & B). destruct (tight_depth t d m G T (conj A B)) as [D1 N1].
  destruct (tight_depth t' e m G' T') as [D2 N2]; [split; [rewrite E; exact A|intros j Lj; apply E, B, Lj]|]. split; congruence.
Qed.
Lemma tight_smallest t d e : shaped t d -> tight t d -> (forall m l, leaf_at t m = Some l -> m < 2 ^ e) -> d <= e.
Proof.
  intros G (m & l & Lm & Em & H) K. specialize (K m l Em). destruct H as [->|H]; [lia|]. destruct (N.le_gt_cases d e) as [Q|Q]; [exact Q|].
  assert (2 ^ (e + 1) <= 2 ^ d) by (apply pow2_mono; lia). rewrite pow2_S in *. lia.
Qed.
Lemma empty_members : no_members [].
Proof. intros j. unfold leaf_at. rewrite tget_beyond; [reflexivity|cbn; lia]. Qed.
Lemma history_size P cs t d h t' : shaped t d -> tight t d -> history_of P cs t h t' ->
  (no_members t' /\ t' = []) \/ exists m, last_member t' m /\ num_leaves t' = 2 ^ N.size m.
Proof.
  intros G T H. destruct (history_tight P cs t d h t' G T H) as [->|(e & Ge & Te)]; [left; split; [exact empty_members|reflexivity]|right].
  destruct (last_member_exists t' e Ge Te) as (m & L). exists m. split; [exact L|]. exact (proj2 (tight_depth t' e m Ge Te L)).
Qed.
Lemma single_tight l : shaped [Some (Leaf l)] 0 /\ tight [Some (Leaf l)] 0.
Proof. split; [exact (good_shaped _ _ (good_single l))|]. exists 0, l. split; [reflexivity|]. split; [reflexivity|auto]. Qed.
Lemma received_loose : exists P bs t ctx now, de_ratchet_tree bs = Ok (t, []) /\ verify_integrity P t ctx now = Ok tt /\ shaped t 1 /\ ~ tight t 1.
Proof.
  exists toy, (ok_or [] (se_ratchet_tree ex_blank)), ex_blank, (ex_context ex_blank), (fun _ => 5000%Z). split; [vm_compute; reflexivity|]. split; [vm_compute; reflexivity|].
  assert (Z : forall x, 3 <= x -> tget ex_blank x = None) by (intros x L; apply tget_beyond; exact L).
  split.
  - split; [left; reflexivity|reflexivity| | |].
    + intros i p E. destruct (N.lt_ge_cases (2 * i) 3) as [L|L]; [|rewrite Z in E by exact L; discriminate].
      assert (i = 0 \/ i = 1) as [->| ->] by lia; discriminate.
    + intros k j l E. destruct (N.lt_ge_cases (node_at (k + 1) j) 3) as [L|L]; [|rewrite Z in E by exact L; discriminate].
      assert (node_at (k + 1) j = 1) as Q.
      { unfold node_at in *. rewrite (pow2_S (k + 1)), (pow2_S k) in *. pose proof (pow2_pos k). set (a := 2 ^ k) in *.
        replace (j * (2 * (2 * a))) with (4 * (j * a)) in * by lia. set (c := j * a) in *. lia. }
      rewrite Q in E. discriminate.
    + intros x p u E I. destruct (N.lt_ge_cases x 3) as [L|L]; [|rewrite Z in E by exact L; discriminate].
      assert (x = 0 \/ x = 1 \/ x = 2) as [->|[->| ->]] by lia; try discriminate. injection E as <-. destruct I as [<-|[]]. reflexivity.
  - intros (m & l & L & E & [H|H]); [discriminate|]. change (2 ^ 1) with 2 in *. assert (m = 1) by lia. subst m. discriminate.
Qed.
Lemma sizes_agree P cs P' cs' t d t' e h a b : shaped t d -> tight t d -> shaped t' e -> tight t' e -> (forall i, leaf_at t' i = leaf_at t i) ->
  history_of P cs t h a -> history_of P' cs' t' h b -> num_leaves b = num_leaves a.
Proof.
  intros G T G' T' E H H'. pose proof (history_agree P cs P' cs' t d t' e h a b G G' E H H') as Q.
  destruct (history_tight P cs t d h a G T H) as [->|(x & Gx & Tx)]; destruct (history_tight P' cs' t' e h b G' T' H') as [->|(y & Gy & Ty)]; [reflexivity| | |].
  - exfalso. destruct (last_member_exists b y Gy Ty) as (m & A & _). apply A. rewrite Q. apply empty_members.
  - exfalso. destruct (last_member_exists a x Gx Tx) as (m & A & _). apply A. rewrite <- Q. apply empty_members.
  - apply (tight_unique a x b y Gx Tx Gy Ty). intros i. rewrite Q. tauto.
Qed.
Lemma ex_tight : exists t', (shaped ex_one 0 /\ tight ex_one 0) /\ history_of toy Suite1 ex_one (ex_roster_ops ++ [(ORemove 2, true)]) t' /\ last_member t' 1 /\ num_leaves t' = 2.
Proof.
  eexists. split; [exact (single_tight (ex_leaf x01))|]. split; [|split].
  - unfold ex_roster_ops. cbn [app].
    eapply ho_cons; [apply pf_add; [exists 0; left; reflexivity|vm_compute; reflexivity]|].
    eapply ho_cons; [apply pf_add; [exists 1; left; reflexivity|vm_compute; reflexivity]|].
    eapply ho_cons; [apply pf_merge; vm_compute; reflexivity|].
    eapply ho_cons; [eapply pf_rejected; vm_compute; reflexivity|].
    eapply ho_cons; [apply pf_remove; vm_compute; reflexivity|].
    eapply ho_cons; [apply pf_add; [exists 2; left; reflexivity|vm_compute; reflexivity]|].
    eapply ho_cons; [apply pf_remove; vm_compute; reflexivity|]. constructor.
  - split; [vm_compute; discriminate|]. intros j L. unfold leaf_at. rewrite tget_beyond; [reflexivity|]. cbn. lia.
  - vm_compute. reflexivity.
Qed.

(** ** Once cut, a tree stays cut *)

Lemma step_cut P cs t d op ok t' : shaped t d -> cut_size t d -> performed P cs t op ok t' -> t' = [] \/ exists d', d' <= d /\ shaped t' d' /\ cut_size t' d'.
Proof.
  intros G CS H. pose proof (shaped_usized t d G) as U.
  assert (K : tlen t' = tlen t -> shaped t' d -> t' = [] \/ exists d', d' <= d /\ shaped t' d' /\ cut_size t' d').
  { intros L G'. right. exists d. split; [lia|]. split; [exact G'|]. unfold cut_size in *. congruence. }
  destruct H as [l t' R E|i l t' E|i t' E|i u t' E|i u e t' E].
  - destruct (leftmost_blank t (2 ^ d)) as [A|(i & Li & B & C)].
    + exfalso. destruct R as (d' & R). assert (d' = d) by (apply (size_unique t); [destruct R as [R|[R _]]; [left|right]; exact R|exact (sh_size t d G)]). subst d'.
      destruct R as [R|(_ & i & Li & B)]; [|exact (A i Li B)]. red in R, CS. pose proof (pow2_pos (d + 1)). lia.
    + destruct (add_found_added t d i l U Li B C) as (t2 & E2 & L & _). rewrite E in E2. apply Ok_inj in E2. subst t2. apply K; [exact L|]. eapply add_found_shaped; eassumption.
  - destruct (N.lt_ge_cases i (2 ^ d)) as [L|L]; [|rewrite (update_out t d) in E by assumption; discriminate].
    apply K; [|eapply update_shaped; eassumption]. apply (c19_length P cs t d (sh_size t d G) (sh_small t d G) (sh_unmerged t d G)) in E. exact E.
  - destruct (N.lt_ge_cases i (2 ^ d)) as [L|L]; [|rewrite (remove_out t d) in E by assumption; discriminate].
    destruct (remove_shaped t d i t' G L E) as [->|(e & Le & Ge)]; [auto|].
    destruct (c18 t d i (sh_size t d G) (sh_small t d G) L) as (t2 & E2 & _ & _ & _ & _ & Q). rewrite E in E2. apply Ok_inj in E2. subst t2.
    destruct Q as [[-> _]|[(e' & m & Le' & CS' & _)|(LE & _)]]; [auto| |].
    + assert (e' = e) by (apply (size_unique t'); [right; exact CS'|exact (sh_size t' e Ge)]). subst e'. right. exists e. auto.
    + right. exists e. split; [exact Le|]. split; [exact Ge|]. assert (e = d) by (apply (size_unique t'); [exact (sh_size t' e Ge)|exact (tsized_same _ _ _ LE (sh_size t d G))]). subst e.
      unfold cut_size in *. congruence.
  - destruct (N.lt_ge_cases i (2 ^ d)) as [L|L]; [|rewrite (merge_out P cs t d) in E by assumption; discriminate].
    apply K; [|eapply merge_shaped; eassumption]. apply (c19_length P cs t d (sh_size t d G) (sh_small t d G) (sh_unmerged t d G)) in E. exact E.
  - destruct (N.lt_ge_cases i (2 ^ d)) as [L|L]; [|rewrite (merge_out P cs t d) in E by assumption; discriminate].
    apply K; [|eapply rejected_shaped; eassumption]. apply (c19_length P cs t d (sh_size t d G) (sh_small t d G) (sh_unmerged t d G)) in E. exact E.
Qed.
Lemma history_cut P cs t d h t' : shaped t d -> cut_size t d -> history_of P cs t h t' -> t' = [] \/ exists d', d' <= d /\ shaped t' d' /\ cut_size t' d'.
Proof.
  intros G C H. revert d G C. induction H as [t|t op ok t1 r t2 S H IH]; intros d G C; [right; exists d; split; [lia|auto]|].
  destruct (step_cut P cs t d op ok t1 G C S) as [->|(d1 & L1 & G1 & C1)].
  - inversion H; subst; [auto|]. exfalso. eapply performed_empty; eassumption.
  - destruct (IH d1 G1 C1) as [->|(d2 & L2 & G2 & C2)]; [auto|]. right. exists d2. split; [lia|auto].
Qed.
Lemma history_stuck P cs t d h t' : shaped t d -> cut_size t d -> history_of P cs t h t' ->
  num_leaves t' <= 2 ^ d /\ (forall i l, leaf_at t' i = Some l -> i < 2 ^ d) /\
  forall l t'', tree_add t' l = Ok t'' -> (forall i, i < 2 ^ d -> leaf_at t' i <> None) -> tlen t' < 1073741824 -> forall i, leaf_at t'' i = leaf_at t' i.
Proof.
  intros G C H. destruct (history_cut P cs t d h t' G C H) as [->|(e & L & Ge & Ce)].
  - split; [apply N.le_0_l|]. split; [intros i l E; rewrite empty_members in E; discriminate|]. intros l t'' E. rewrite add_empty in E. discriminate.
  - assert (LE : 2 ^ e <= 2 ^ d) by (apply pow2_mono; exact L). split; [rewrite (usized_leaves t' e (shaped_usized t' e Ge)); exact LE|].
    split; [intros i l E; apply (leaf_inside t' e i l Ge) in E; lia|]. intros l t'' E F Sm i.
    assert (D : e <= 29). { red in Ce. rewrite Ce in Sm. destruct (N.le_gt_cases e 29) as [Q|Q]; [exact Q|]. exfalso. assert (2 ^ 30 <= 2 ^ (e + 1)) by (apply pow2_mono; lia). change (2 ^ 30) with 1073741824 in *. lia. }
    destruct (c16 t' e l Ge D) as [_ N]. destruct N as (t2 & E2 & K & _).
    { intros (d' & R). assert (d' = e) by (apply (size_unique t'); [destruct R as [R|[R _]]; [left|right]; exact R|right; exact Ce]). subst d'.
      destruct R as [R|(_ & j & Lj & B)]; [red in R, Ce; pose proof (pow2_pos (e + 1)); lia|]. apply (F j); [lia|]. apply (leaf_blank t' e j Ge), B. }
    rewrite E in E2. apply Ok_inj in E2. subst t2. unfold leaf_at. rewrite K. reflexivity.
Qed.
Lemma ex_cut_shaped : shaped ex_cut 1 /\ cut_size ex_cut 1 /\ history_of toy Suite1 ex_cut [] ex_cut /\
  (forall i, i < 2 ^ 1 -> leaf_at ex_cut i <> None) /\ exists t'', tree_add ex_cut (ex_leaf x09) = Ok t''.
Proof.
  assert (S : tsized ex_cut 1) by (right; reflexivity).
  destruct (history_shaped toy Suite1 ex_one 0 ex_cut (good_shaped _ _ (good_single _)) ex_cut_history) as [Q|(d & G)]; [discriminate|].
  assert (d = 1) by (apply (size_unique ex_cut); [exact (sh_size _ _ G)|exact S]). subst d. split; [exact G|]. split; [reflexivity|]. split; [constructor|]. split.
  - intros i L. change (2 ^ 1) with 2 in L. assert (i = 0 \/ i = 1) as [->| ->] by lia; vm_compute; discriminate.
  - eexists. vm_compute. reflexivity.
Qed.
