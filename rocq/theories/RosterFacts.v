(** Proofs about rosters (C123). *)
From Verif Require Import SpecRoster TreeInv TreeFacts HashFacts MergeFail TreeMath TreeOps SpecApply ApplyFacts.
Local Open Scope N_scope.

Lemma leaf_blank t d i : shaped t d -> (blank_at t i <-> leaf_at t i = None).
Proof.
  intros G. unfold blank_at, leaf_at. destruct (tget t (2 * i)) as [[l|p]|] eqn:E; [split; discriminate| |tauto].
  exfalso. exact (sh_leaf t d G i p E).
Qed.
Lemma not_path d i j : ~ on_path d i (2 * j).
Proof. intros O. eapply on_path_odd; [exact O|reflexivity]. Qed.
Lemma get_leaf_leaf t i l : get_leaf t i = Ok (Some l) -> leaf_at t i = Some l.
Proof.
  intros E. destruct (N.lt_ge_cases i 2147483648) as [L|L]; [rewrite get_leaf_at in E by assumption; congruence|].
  rewrite get_leaf_beyond in E by assumption. discriminate.
Qed.

Lemma add_roster t d l t' : shaped t d -> has_room t -> tree_add t l = Ok t' ->
  (exists d', shaped t' d') /\ roster_step (leaf_at t) (OAdd l) true (leaf_at t').
Proof.
  intros G R E. split; [destruct (add_shaped t d l t' G R E); eauto|]. pose proof (shaped_usized t d G) as U.
  assert (K : exists d' i, blank_at t i /\ (forall j, j < i -> ~ blank_at t j) /\ added t t' d' i l).
  { destruct (leftmost_blank t (2 ^ d)) as [A|(i & Li & B & C)].
    - destruct R as (d' & R). assert (d' = d) by (apply (size_unique t); [destruct R as [R|[R _]]; [left|right]; exact R|exact (sh_size t d G)]). subst d'.
      destruct R as [R|(_ & i & Li & B)]; [|exfalso; eapply A; eassumption].
      assert (D : d <= 30) by (eapply add_full_30; eauto).
      destruct (add_full_added t d l R D A) as (t2 & E2 & F' & H). rewrite E in E2. apply Ok_inj in E2. subst t2. exists (d + 1), (2 ^ d).
      split; [|split; assumption]. apply tget_beyond. red in R. rewrite R, pow2_S. lia.
    - destruct (add_found_added t d i l U Li B C) as (t2 & E2 & L & H). rewrite E in E2. apply Ok_inj in E2. subst t2. eauto. }
  destruct K as (d' & i & B & C & (A1 & A2 & _)). apply (rs_add _ l i).
  - split; [apply (leaf_blank t d i G), B|]. intros j Lj Q. apply (leaf_blank t d j G) in Q. exact (C j Lj Q).
  - split; [exact (get_leaf_leaf t' i l A1)|]. intros j Ne. unfold leaf_at. rewrite A2 by exact Ne. reflexivity.
Qed.
Lemma rejected_shaped P cs t d i u e t' : shaped t d -> i < 2 ^ d -> merge_update_path P cs t i u = (t', Err e) -> shaped t' d.
Proof.
  intros G Hi E. assert (FP : exists fp, filtered_direct_path t (2 * i) = Ok fp).
  { destruct (c30 t d (2 * i) G) as (path & co & rs & _ & _ & _ & Q); [exact (leaf_in_tree d i Hi)|eauto]. }
  destruct FP as (fp & EF). destruct (c27_exact P cs t d i u t' (Err e) fp G Hi EF E ltac:(discriminate)) as (L & O & K).
  apply (shaped_from t d); [exact G|exact (tsized_same _ _ _ L (sh_size t d G))|rewrite L; exact (sh_small t d G)|].
  intros x nd X. destruct (on_path_dec d i x) as [Q|Q]; [|left; rewrite <- X; symmetry; apply O; assumption].
  destruct (Nat.eqb_spec (length fp) (length (up_nodes u))) as [EL|NL].
  - destruct K as [K1 K2]. destruct (in_dec N.eq_dec x fp) as [I|I]; [|rewrite K1 in X by assumption; discriminate].
    right. right. destruct (nth_error_pair _ _ _ EL I) as (m & n & A & B). destruct (K2 m _ n A B) as [h Hh]. rewrite Hh in X. injection X as <-.
    destruct (on_path_up d i x Q) as (k & j & Ex). eexists k, j, _. split; [exact Ex|]. split; [reflexivity|]. intros u' [].
  - destruct K as [_ K]. rewrite K in X by assumption. discriminate.
Qed.
Lemma step_roster P cs t d op ok t' : shaped t d -> performed P cs t op ok t' ->
  (t' = [] \/ exists d', shaped t' d') /\ roster_step (leaf_at t) op ok (leaf_at t').
Proof.
  intros G H. pose proof (shaped_usized t d G) as U. destruct H as [l t' R E|i l t' E|i t' E|i u t' E|i u e t' E].
  - destruct (add_roster t d l t' G R E) as [A B]. auto.
  - destruct (N.lt_ge_cases i (2 ^ d)) as [L|L]; [|rewrite (update_out t d) in E by assumption; discriminate].
    split; [right; exists d; eapply update_shaped; eassumption|]. destruct (c17 t d i l (sh_size t d G) (sh_small t d G) L) as (t2 & E2 & _ & A & _ & B).
    rewrite E in E2. apply Ok_inj in E2. subst t2. apply rs_update. split; [exact (get_leaf_leaf _ _ _ A)|]. intros j Ne. unfold leaf_at. rewrite B; [reflexivity|lia|apply not_path].
  - destruct (N.lt_ge_cases i (2 ^ d)) as [L|L]; [|rewrite (remove_out t d) in E by assumption; discriminate].
    split; [destruct (remove_shaped t d i t' G L E) as [->|(e & _ & Ge)]; eauto|].
    destruct (c18 t d i (sh_size t d G) (sh_small t d G) L) as (t2 & E2 & A & _ & B & _). rewrite E in E2. apply Ok_inj in E2. subst t2.
    apply rs_remove. split; [unfold leaf_at; red in A; rewrite A; reflexivity|exact B].
  - destruct (N.lt_ge_cases i (2 ^ d)) as [L|L]; [|rewrite (merge_out P cs t d) in E by assumption; discriminate].
    split; [right; exists d; eapply merge_shaped; eassumption|]. apply (merge_iff P cs t d i u t' (sh_unmerged t d G) U L) in E. destruct E as [HL HF HO _].
    apply rs_merge. split; [unfold leaf_at; rewrite HF; reflexivity|]. intros j Ne. unfold leaf_at. rewrite HO; [reflexivity|lia|apply not_path].
  - destruct (N.lt_ge_cases i (2 ^ d)) as [L|L]; [|rewrite (merge_out P cs t d) in E by assumption; discriminate].
    split; [right; exists d; eapply rejected_shaped; eassumption|]. destruct (c27 P cs t d i u t' (Err e) G E ltac:(discriminate)) as [_ O].
    apply rs_rejected. intros j. unfold leaf_at. rewrite O by apply not_path. reflexivity.
Qed.
Lemma performed_empty P cs op ok t' : ~ performed P cs [] op ok t'.
Proof.
  intros H. destruct H as [l t' R E|i l t' E|i t' E|i u t' E|i u e t' E].
  - rewrite add_empty in E. discriminate.
  - rewrite update_empty in E. discriminate.
  - rewrite remove_empty in E. discriminate.
  - rewrite merge_empty in E. discriminate.
  - rewrite merge_empty in E. discriminate.
Qed.
Lemma run_roster P cs t d h t' : shaped t d -> history_of P cs t h t' -> roster_run (leaf_at t) h (leaf_at t') /\ (t' = [] \/ exists d', shaped t' d').
Proof.
  intros G H. revert d G. induction H as [t|t op ok t1 r t2 S H IH]; intros d G; [split; [constructor; reflexivity|eauto]|].
  destruct (step_roster P cs t d op ok t1 G S) as [[->|[d1 G1]] R].
  - inversion H; subst; [|exfalso; eapply performed_empty; eassumption]. split; [|auto]. econstructor; [exact R|constructor; reflexivity].
  - destruct (IH d1 G1) as [A B]. split; [|exact B]. econstructor; eassumption.
Qed.
Lemma roster_history P cs t d h t' : shaped t d -> history_of P cs t h t' -> roster_run (leaf_at t) h (leaf_at t').
Proof. intros G H. exact (proj1 (run_roster P cs t d h t' G H)). Qed.

(** ** About rosters alone *)

Lemma first_free_unique m m' i i' : (forall j, m' j = m j) -> first_free m i -> first_free m' i' -> i = i'.
Proof.
  intros E [A B] [A' B']. destruct (N.lt_total i i') as [L|[Q|L]]; [|exact Q|].
  - exfalso. apply (B' i L). rewrite E. exact A.
  - exfalso. apply (B i' L). rewrite <- E. exact A'.
Qed.
Lemma placed_same m m' i o n n' : (forall j, m' j = m j) -> placed m i o n -> placed m' i o n' -> forall j, n' j = n j.
Proof.
  intros E [A B] [A' B'] j. destruct (N.eq_dec j i) as [->|Ne]; [congruence|]. rewrite B, B' by exact Ne. apply E.
Qed.
Lemma step_same m m' op ok n n' : (forall j, m' j = m j) -> roster_step m op ok n -> roster_step m' op ok n' -> forall j, n' j = n j.
Proof.
  intros E S S'. destruct S as [l i n F Q|i l n Q|i n Q|i u n Q|i u n Q]; inversion S'; subst.
  - assert (i0 = i) by (symmetry; eapply first_free_unique; eassumption). subst i0. eapply placed_same; eassumption.
  - eapply placed_same; eassumption.
  - eapply placed_same; eassumption.
  - eapply placed_same; eassumption.
  - intros j. rewrite Q. rewrite <- E. auto.
Qed.
Lemma run_same m h n : roster_run m h n -> forall m' n', (forall j, m' j = m j) -> roster_run m' h n' -> forall j, n' j = n j.
Proof.
  induction 1 as [m n Q|m op ok m1 r m2 S H IH]; intros m' n' E R.
  - inversion R; subst. intros j. rewrite Q, <- E. auto.
  - inversion R; subst. eapply IH; [|eassumption]. eapply step_same; eassumption.
Qed.
Lemma run_stays m h n i l : roster_run m h n -> m i = Some l -> (forall op, In (op, true) h -> ~ names op i) -> n i = Some l.
Proof.
  induction 1 as [m n Q|m op ok m1 r m2 S H IH]; intros E N; [rewrite Q; exact E|]. apply IH; [|intros op' I; apply N; right; exact I].
  assert (N0 : ok = true -> ~ names op i) by (intros ->; apply N; left; reflexivity).
  destruct S as [l' k n F Q|k l' n Q|k n Q|k u n Q|k u n Q]; try (assert (Ne : i <> k) by (intros ->; exact (N0 eq_refl eq_refl)); rewrite (proj2 Q i Ne); exact E).
  - destruct (N.eq_dec i k) as [->|Ne]; [exfalso; destruct F as [F _]; congruence|]. rewrite (proj2 Q i Ne). exact E.
  - rewrite Q. exact E.
Qed.
Lemma run_origin m h n i l : roster_run m h n -> n i = Some l ->
  (m i = Some l /\ forall op, In (op, true) h -> ~ names op i) \/
  exists before op after, h = (before ++ (op, true) :: after)%list /\ brings op i l /\ forall op', In (op', true) after -> ~ names op' i.
Proof.
  induction 1 as [m n Q|m op ok m1 r m2 S H IH]; intros E; [left; split; [rewrite <- Q; exact E|intros op []]|].
  destruct (IH E) as [[A B]|(b & o & a & -> & A & B)]; [|right; exists ((op, ok) :: b), o, a; auto].
  assert (K : (m i = Some l /\ (ok = true -> ~ names op i)) \/ (ok = true /\ brings op i l)).
  { destruct S as [l' k n F Q|k l' n Q|k n Q|k u n Q|k u n Q]; cbn [names brings].
    - destruct (N.eq_dec i k) as [->|Ne]; [right; split; [reflexivity|]; destruct Q as [Q _]; congruence|]. left. rewrite <- (proj2 Q i Ne). auto.
    - destruct (N.eq_dec k i) as [->|Ne]; [right; repeat split; destruct Q as [Q _]; congruence|]. left. rewrite <- (proj2 Q i) by auto. auto.
    - destruct (N.eq_dec k i) as [->|Ne]; [destruct Q as [Q _]; congruence|]. left. rewrite <- (proj2 Q i) by auto. auto.
    - destruct (N.eq_dec k i) as [->|Ne]; [right; repeat split; destruct Q as [Q _]; congruence|]. left. rewrite <- (proj2 Q i) by auto. auto.
    - left. rewrite <- Q. split; [exact A|discriminate]. }
  destruct K as [[K1 K2]|[-> K]].
  - left. split; [exact K1|]. intros op' [I|I]; [injection I as -> ->; auto|auto].
  - right. exists [], op, r. auto.
Qed.

Lemma history_agree P cs P' cs' t d t' e h a b : shaped t d -> shaped t' e -> (forall i, leaf_at t' i = leaf_at t i) ->
  history_of P cs t h a -> history_of P' cs' t' h b -> forall i, leaf_at b i = leaf_at a i.
Proof.
  intros G G' E H H'. eapply run_same; [exact (roster_history P cs t d h a G H)|exact E|exact (roster_history P' cs' t' e h b G' H')].
Qed.
Lemma history_stays P cs t d h t' i l : shaped t d -> history_of P cs t h t' -> leaf_at t i = Some l ->
  (forall op, In (op, true) h -> ~ names op i) -> leaf_at t' i = Some l.
Proof. intros G H. apply run_stays. exact (roster_history P cs t d h t' G H). Qed.
Lemma history_origin P cs t d h t' i l : shaped t d -> history_of P cs t h t' -> leaf_at t' i = Some l ->
  (leaf_at t i = Some l /\ forall op, In (op, true) h -> ~ names op i) \/
  exists before op after, h = (before ++ (op, true) :: after)%list /\ brings op i l /\ forall op', In (op', true) after -> ~ names op' i.
Proof. intros G H. apply run_origin. exact (roster_history P cs t d h t' G H). Qed.

(** ** An example: two joins, a path, a rejected path, a removal and another join *)

Definition ex_roster_ops : list (operation * bool) :=
  [(OAdd (ex_leaf x02), true); (OAdd (ex_leaf x03), true); (OMerge 0 ex_path3, true);
   (OMerge 2 (MkUpdatePath (ex_leaf_commit x05 []) [MkUpdatePathNode [x99] []]), false); (ORemove 1, true); (OAdd (ex_leaf x09), true)].
Lemma ex_roster : exists t', shaped ex_one 0 /\ history_of toy Suite1 ex_one ex_roster_ops t' /\
  map (leaf_at t') [0; 1; 2; 3] = [Some (up_leaf ex_path3); Some (ex_leaf x09); Some (ex_leaf x03); None].
Proof.
  eexists. split; [exact (good_shaped _ _ (good_single (ex_leaf x01)))|]. split.
  - eapply ho_cons; [apply pf_add; [exists 0; left; reflexivity|vm_compute; reflexivity]|].
    eapply ho_cons; [apply pf_add; [exists 1; left; reflexivity|vm_compute; reflexivity]|].
    eapply ho_cons; [apply pf_merge; vm_compute; reflexivity|].
    eapply ho_cons; [eapply pf_rejected; vm_compute; reflexivity|].
    eapply ho_cons; [apply pf_remove; vm_compute; reflexivity|].
    eapply ho_cons; [apply pf_add; [exists 2; left; reflexivity|vm_compute; reflexivity]|]. constructor.
  - vm_compute. reflexivity.
Qed.
Lemma history_keeps P cs t d h t' : shaped t d -> history_of P cs t h t' -> t' = [] \/ exists d', shaped t' d'.
Proof. intros G H. exact (proj2 (run_roster P cs t d h t' G H)). Qed.
Lemma ex_roster_stays : exists t' l, history_of toy Suite1 ex_one ex_roster_ops t' /\ brings (OMerge 0 ex_path3) 0 l /\ leaf_at t' 0 = Some l.
Proof.
  destruct ex_roster as (t' & _ & H & M). exists t', (up_leaf ex_path3). split; [exact H|]. split; [split; reflexivity|]. cbn [map] in M. congruence.
Qed.

(** ** Whole lists of proposals *)

Lemma history_app P cs t a t1 b t2 : history_of P cs t a t1 -> history_of P cs t1 b t2 -> history_of P cs t (a ++ b) t2.
Proof. induction 1 as [t|t op ok t1 r t3 S H IH]; intros H2; [exact H2|]. cbn. econstructor; [exact S|]. auto. Qed.
Lemma do_updates_history P cs l : forall t t', do_updates t l = Ok t' -> history_of P cs t (map (fun u => (OUpdate (fst u) (snd u), true)) l) t'.
Proof.
  induction l as [|[s lf] l IH]; intros t t' E; cbn in E |- *; [apply Ok_inj in E; subst; constructor|].
  destruct (tree_update t s lf) as [t1| | |] eqn:U; try discriminate. econstructor; [apply pf_update; exact U|]. apply IH, E.
Qed.
Lemma do_removes_history P cs l : forall t t', do_removes t l = Ok t' -> history_of P cs t (map (fun i => (ORemove i, true)) l) t'.
Proof.
  induction l as [|i l IH]; intros t t' E; cbn in E |- *; [apply Ok_inj in E; subst; constructor|].
  destruct (tree_remove t i) as [t1| | |] eqn:U; try discriminate. econstructor; [apply pf_remove; exact U|]. apply IH, E.
Qed.
Lemma has_room_dec t d : shaped t d -> has_room t \/ ~ has_room t.
Proof.
  intros G. destruct (sh_size t d G) as [S|S]; [left; exists d; auto|]. destruct (leftmost_blank t (2 ^ d)) as [A|(i & Li & B & _)].
  - right. intros (d' & R). assert (d' = d) by (apply (size_unique t); [destruct R as [R|[R _]]; [left|right]; exact R|right; exact S]). subst d'.
    destruct R as [R|(_ & i & Li & B)]; [|exact (A i Li B)]. red in R, S. pose proof (pow2_pos (d + 1)). lia.
  - left. exists d. right. eauto.
Qed.
Lemma do_adds_history P cs l : forall t, (t = [] \/ exists d, shaped t d) -> forall t', do_adds t l = Ok t' ->
  history_of P cs t (map (fun lf => (OAdd lf, true)) l) t' \/
  exists before lf after t1, l = (before ++ lf :: after)%list /\ history_of P cs t (map (fun lf => (OAdd lf, true)) before) t1 /\ ~ has_room t1.
Proof.
  induction l as [|lf l IH]; intros t G t' E; cbn in E |- *; [apply Ok_inj in E; subst; left; constructor|].
  destruct (tree_add t lf) as [t1| | |] eqn:U; try discriminate. destruct G as [->|[d G]]; [rewrite add_empty in U; discriminate|].
  destruct (has_room_dec t d G) as [R|R]; [|right; exists [], lf, l, t; repeat split; [constructor|exact R]].
  assert (G1 : t1 = [] \/ exists d', shaped t1 d') by (right; destruct (add_shaped t d lf t1 G R U); eauto).
  destruct (IH t1 G1 t' E) as [H|(b & x & a & t2 & -> & H & N)].
  - left. econstructor; [apply pf_add; eassumption|exact H].
  - right. exists (lf :: b), x, a, t2. split; [reflexivity|]. split; [|exact N]. econstructor; [apply pf_add; eassumption|exact H].
Qed.
Lemma apply_history P cs t d ps s t' : shaped t d -> (length ps <= length s)%nat -> tree_apply t ps s = Ok t' ->
  history_of P cs t (calls_of ps s) t' \/
  exists before l after t1, calls_of ps s = (before ++ (OAdd l, true) :: after)%list /\ history_of P cs t before t1 /\ ~ has_room t1.
Proof.
  intros G L E. rewrite apply_by_kind in E by exact L. destruct (do_updates t _) as [t1| | |] eqn:E1; try discriminate. cbn in E.
  destruct (do_removes t1 _) as [t2| | |] eqn:E2; try discriminate. cbn in E.
  apply (do_updates_history P cs) in E1. apply (do_removes_history P cs) in E2. pose proof (history_app _ _ _ _ _ _ _ E1 E2) as H12.
  unfold calls_of. rewrite app_assoc. destruct (do_adds_history P cs _ t2 (history_keeps _ _ _ _ _ _ G H12) t' E) as [H|(b & x & a & t3 & Q & H & N)].
  - left. eapply history_app; eassumption.
  - right. rewrite Q, map_app. exists ((map (fun u => (OUpdate (fst u) (snd u), true)) (updates_of (combine ps s)) ++ map (fun i => (ORemove i, true)) (removes_of ps)) ++ map (fun lf => (OAdd lf, true)) b)%list, x, (map (fun lf => (OAdd lf, true)) a), t3.
    split; [rewrite <- !app_assoc; reflexivity|]. split; [eapply history_app; eassumption|exact N].
Qed.
