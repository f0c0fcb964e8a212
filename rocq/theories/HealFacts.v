(** Proofs about what ends the use of a stolen state. *)
From Verif Require Import SpecLocked SpecState KnowFacts ForwardFacts TreeFacts TreePaths TreeOps TreeInv MemberFacts LockedFacts StateFacts.
Local Open Scope N_scope.

Lemma c100_update P cs w i l t' q q' : story P cs w -> tree_update (w_tree w) i l = Ok t' -> fresh w (leaf_key l) ->
  (forall m, m <> i -> ~ blank_at (w_tree w) m -> whose w m <> q) -> q' <> q ->
  event P cs w (World t' (seat (whose w) i q') (fun p x => learnt w p x \/ (p = q' /\ x = leaf_key l))) /\
  forall m, ~ blank_at t' m -> seat (whose w) i q' m <> q.
Proof.
  intros S E F N NQ. split; [exact (ev_update P cs w i l t' q' E F)|]. intros m B. destruct (story_exact P cs w S) as [_ [D|[d G]]].
  - exfalso. rewrite D in E. exact (step_empty P cs t' (ts_update P cs [] i l t' E)).
  - pose proof (good_usized _ d G) as U. destruct (N.lt_ge_cases i (2 ^ d)) as [Hi|Hi]; [|rewrite (update_out _ d) in E by assumption; discriminate].
    destruct (c17 _ d i l (g_size _ _ G) (g_small _ _ G) Hi) as (t1 & E1 & _ & _ & _ & A3). assert (t1 = t') by congruence. subst t1.
    destruct (N.eq_dec m i) as [->|M]; [rewrite seat_same; exact NQ|]. rewrite seat_other by exact M. apply N; [exact M|].
    unfold blank_at in *. intros Z. apply B. rewrite <- Z. apply A3; [lia|]. intros O. eapply on_path_odd; [exact O|reflexivity].
Qed.
Lemma c100_commit P cs k init l st i u ss q : group_life P cs k init l -> In st l -> es_path st = Some (i, u, ss) ->
  (forall m, m <> i -> ~ blank_at (w_tree (es_world st)) m -> whose (es_world st) m <> q) -> whose (es_after st) i <> q ->
  absent q st /\ forall m, ~ blank_at (w_tree (es_after st)) m -> whose (es_after st) m <> q.
Proof.
  intros G I EP N NQ. split.
  - intros m B W. destruct (N.eq_dec m i) as [->|M]; [eauto|]. destruct (N m M B W).
  - destruct (life_steps _ _ _ _ _ G st I) as [S [_ O]]. rewrite EP in O. destruct O as (_ & _ & t' & q' & ME & _ & _ & EA). rewrite EA in *. cbn [w_tree whose] in *. intros m B.
    destruct (N.eq_dec m i) as [->|M]; [exact NQ|]. rewrite seat_other by exact M. apply N; [exact M|]. intros Z. apply B.
    destruct (story_exact P cs _ S) as [_ [D|[d Gd]]].
    + exfalso. rewrite D in ME. exact (step_empty P cs t' (ts_merge P cs [] i u t' ME)).
    + pose proof (good_usized _ d Gd) as U. pose proof (good_small _ _ Gd) as SU. destruct (N.lt_ge_cases i (2 ^ d)) as [Hi|Hi]; [|rewrite (merge_out P cs _ d) in ME by assumption; discriminate].
      apply (merge_iff P cs _ d i u t' SU U Hi) in ME. destruct ME as [HL HF HO _]. unfold blank_at in *. rewrite <- Z. apply HO; [lia|]. intros O. eapply on_path_odd; [exact O|reflexivity].
Qed.
Lemma healed_absent P cs k init before st0 during i u ss q : group_life P cs k init (before ++ st0 :: during) -> es_path st0 = Some (i, u, ss) ->
  (forall m, m <> i -> ~ blank_at (w_tree (es_world st0)) m -> whose (es_world st0) m <> q) -> whose (es_after st0) i <> q ->
  (forall st m, In st during -> ~ blank_at (w_tree (es_world st)) m -> whose (es_world st) m <> q) ->
  forall st, In st (st0 :: during) -> absent q st.
Proof.
  intros G EP N NQ ND st [<-|I].
  - apply (c100_commit P cs k init _ st0 i u ss q G); auto. apply in_or_app. right. left. reflexivity.
  - apply seatless. intros m. apply ND, I.
Qed.
Lemma c100_secrets P cs k init before st0 during i u s ss q S D st lab x : p_hpke P cs = Ok k -> group_life P cs k init (before ++ st0 :: during) ->
  es_path st0 = Some (i, u, s :: ss) ->
  (forall m, m <> i -> ~ blank_at (w_tree (es_world st0)) m -> whose (es_world st0) m <> q) -> whose (es_after st0) i <> q ->
  (forall st m, In st during -> ~ blank_at (w_tree (es_world st)) m -> whose (es_world st) m <> q) ->
  (forall st b, In st (st0 :: during) -> secret_of P cs k st b -> ~ S b) ->
  In st (st0 :: during) -> In lab schedule_labels -> derive_secret P cs (er_epoch (es_run st)) lab = Ok x ->
  knows k (fun b => S b \/ exists st, In st (st0 :: during) /\ received st q b) D x ->
  clash k D (life_made k (before ++ st0 :: during)) \/ exists c, In c D /\ call k c = Ok s.
Proof.
  intros K G EP N NQ ND. apply (c98_locked_out P cs k init before st0 during i u s ss q S D st lab x K G); [|exact EP].
  exact (healed_absent P cs k init before st0 during i u (s :: ss) q G EP N NQ ND).
Qed.
Lemma c100_messages P cs k init before st0 during i u s ss q S D st d E t it b : p_hpke P cs = Ok k -> d <= 31 ->
  group_life P cs k init (before ++ st0 :: during) -> es_path st0 = Some (i, u, s :: ss) ->
  (forall m, m <> i -> ~ blank_at (w_tree (es_world st0)) m -> whose (es_world st0) m <> q) -> whose (es_after st0) i <> q ->
  (forall st m, In st during -> ~ blank_at (w_tree (es_world st)) m -> whose (es_world st) m <> q) ->
  (forall st b, In st (st0 :: during) -> secret_of P cs k st b -> ~ S b) ->
  In st (st0 :: during) -> derive_secret P cs (er_epoch (es_run st)) label_encryption = Ok E -> new_secret_tree P cs (2 ^ d) E = Ok t ->
  (forall c x, tree_made k d E c -> call k c = Ok x -> ~ S x) ->
  item_value P cs t it b -> knows k (fun b => S b \/ exists st, In st (st0 :: during) /\ received st q b) D b ->
  clash k D (fun c => life_made k (before ++ st0 :: during) c \/ tree_made k d E c) \/ exists c, In c D /\ call k c = Ok s.
Proof.
  intros K L G EP N NQ ND. apply (c99_locked_out P cs k init before st0 during i u s ss q S D st d E t it b K L G); [|exact EP].
  exact (healed_absent P cs k init before st0 during i u (s :: ss) q G EP N NQ ND).
Qed.
Lemma c100_until P cs k init l st q m lab x : p_hpke P cs = Ok k -> group_life P cs k init l -> In st l ->
  ~ blank_at (w_tree (es_world st)) m -> whose (es_world st) m = q -> (forall i u ss, es_path st = Some (i, u, ss) -> m <> i) ->
  In lab schedule_labels -> derive_secret P cs (er_epoch (es_run st)) lab = Ok x ->
  exists D, knows k (fun b => b = er_before (es_run st) \/ b = psk_or_zero k (er_psk (es_run st)) \/ b = zero_bytes (nh k) \/ received st q b) D x.
Proof.
  intros K G I B W M IL E. destruct (es_path st) as [[[i u] ss]|] eqn:EP.
  - destruct (c98_members P cs k init l st i u ss m lab x K G I EP B (M i u ss eq_refl) IL E) as [D N]. exists D. eapply knows_mono; [| |exact N]; [|intros c J; exact J].
    intros b [H|[H|H]]; [auto|auto|]. rewrite W in H. auto.
  - destruct (c98_needs_path P cs k init l st lab x K G I EP IL E) as [D N]. exists D. eapply knows_mono; [| |exact N]; [|intros c J; exact J]. intros b [H|[H|H]]; auto.
Qed.

(** ** Example *)

From Verif Require Import Examples HashFacts ExProvider.
Import Coq.Strings.Byte.
(** Person 1's state has been stolen. Person 1 starts afresh, as person 4, and commits with a path. *)
Definition ex_hash_top : bytes := ok_or [] (let* th := tree_hash toy Suite1 ex_merged3 5 [] in parent_hash toy Suite1 (MkParentNode [xa2] [] []) th).
Definition ex_hash_low : bytes := ok_or [] (let* th := tree_hash toy Suite1 ex_merged3 0 [] in parent_hash toy Suite1 (MkParentNode [xa1] ex_hash_top []) th).
Definition ex_path_heal : update_path := MkUpdatePath (ex_leaf_commit x07 ex_hash_low) [MkUpdatePathNode [xa1] []; MkUpdatePathNode [xa2] []].
Definition ex_healed : tree := fst (merge_update_path toy Suite1 ex_merged3 1 ex_path_heal).
Definition ex_w_heal : world := World ex_healed (seat (whose ex_w4) 1 4%nat)
  (fun p x => learnt ex_w4 p x \/ (p = 4%nat /\ In x (path_keys ex_path_heal)) \/ told ex_w4 1 ex_path_heal p x).
Definition ex_st_heal : epoch_step :=
  let s := str "heal" in EpochStep ex_w4 (Some (1, ex_path_heal, [s; next_secret s])) ex_w_heal (ex_run (er_init (es_run ex_st1)) (next_secret (next_secret s))).
Lemma ex_step_heal : step_ok ideal Suite2 ideal_hpke ex_st_heal.
Proof.
  split; [split; [reflexivity|]; split; [vm_compute; reflexivity|]; split; vm_compute; reflexivity|]. split; [reflexivity|]. split; [split; vm_compute; reflexivity|].
  exists ex_healed, 4%nat. split; [vm_compute; reflexivity|]. split; [repeat constructor; apply KnowFacts.bytes_out_spec; vm_compute; reflexivity|]. split; [|reflexivity].
  intros k [<-|[<-|[<-|[]]]]; apply (all_fresh _ ex_k4 _ ex_all4), KnowFacts.bytes_out_spec; vm_compute; reflexivity.
Qed.
Lemma ex_life_heal : group_life ideal Suite2 ideal_hpke (str "init") ([ex_st1] ++ [ex_st_heal]).
Proof. apply (gl_next _ _ _ _ [] ex_st1 ex_st_heal); [apply gl_first; [exact ideal_story3|exact ex_step1|reflexivity]|apply ch_none|exact ex_step_heal|reflexivity]. Qed.
Lemma ex_apart_heal b : secret_of ideal Suite2 ideal_hpke ex_st_heal b -> ~ secret_of ideal Suite2 ideal_hpke ex_st1 b.
Proof.
  intros A B. apply secret_listed in A. apply secret_listed in B.
  assert (H : forallb (fun x => negb (KnowFacts.bytes_in x (secret_list ideal Suite2 ideal_hpke ex_st1))) (secret_list ideal Suite2 ideal_hpke ex_st_heal) = true) by (vm_compute; reflexivity).
  rewrite forallb_forall in H. specialize (H b A). apply negb_true_iff, KnowFacts.bytes_out_spec in H. contradiction.
Qed.
Lemma ex_seats4 m : m <> 1 -> ~ blank_at (w_tree ex_w4) m -> whose ex_w4 m <> 1%nat.
Proof.
  intros M B. assert (L : 2 * m < 7). { destruct (N.lt_ge_cases (2 * m) 7) as [L|L]; [exact L|]. exfalso. apply B. apply tget_beyond. exact L. }
  assert (C : m = 0 \/ m = 2 \/ m = 3) by lia. destruct C as [->|[->| ->]]; cbn; discriminate.
Qed.
Lemma c100_example : group_life ideal Suite2 ideal_hpke (str "init") ([ex_st1] ++ [ex_st_heal]) /\ whose (es_world ex_st1) 1 = 1%nat /\
  learnt (es_world ex_st_heal) 1%nat [x88] /\ key_of (w_tree (es_world ex_st_heal)) 3 = Some [x88] /\
  (forall m, m <> 1 -> ~ blank_at (w_tree (es_world ex_st_heal)) m -> whose (es_world ex_st_heal) m <> 1%nat) /\ whose (es_after ex_st_heal) 1 <> 1%nat /\
  (exists D, knows ideal_hpke (fun b => b = str "init" \/ b = zero_bytes 4 \/ received ex_st1 1%nat b) D (ex_enc_of ex_st1)) /\
  (forall D, ~ knows ideal_hpke (fun b => secret_of ideal Suite2 ideal_hpke ex_st1 b \/ exists st, In st [ex_st_heal] /\ received st 1%nat b) D (ex_enc_of ex_st_heal)).
Proof.
  assert (EN : In label_encryption schedule_labels) by (right; right; left; reflexivity).
  split; [exact ex_life_heal|]. split; [reflexivity|]. split.
  { apply (c81_exactly ideal Suite2 ex_w4 (proj1 (life_steps _ _ _ _ _ ex_life_heal ex_st_heal (or_intror (or_introl eq_refl)))) 3 [x88]); [vm_compute; reflexivity|].
    exists 1. split; [reflexivity|]. split; [vm_compute; discriminate|]. right. exists 2, 0, (MkParentNode [x88] [] []). split; [reflexivity|]. split; [reflexivity|]. split; [vm_compute; auto; split; [discriminate|reflexivity]|intros []]. }
  split; [vm_compute; reflexivity|]. split; [exact ex_seats4|]. split; [vm_compute; discriminate|]. split.
  - apply (c98_members ideal Suite2 ideal_hpke (str "init") ([ex_st1] ++ [ex_st_heal]) ex_st1 0 ex_path3 [str "one"; next_secret (str "one")] 1 label_encryption _ eq_refl ex_life_heal);
      [left; reflexivity|reflexivity|vm_compute; discriminate|discriminate|exact EN|vm_compute; reflexivity].
  - intros D N. destruct (c100_secrets ideal Suite2 ideal_hpke (str "init") [ex_st1] ex_st_heal [] 1 ex_path_heal (str "heal") [next_secret (str "heal")] 1%nat
      (secret_of ideal Suite2 ideal_hpke ex_st1) D ex_st_heal label_encryption (ex_enc_of ex_st_heal) eq_refl ex_life_heal eq_refl ex_seats4) as [X|(c & _ & X)];
      [vm_compute; discriminate|intros st m []|intros st b [<-|[]]; apply ex_apart_heal|left; reflexivity|exact EN|vm_compute; reflexivity|exact N| |].
    + exact (ideal_no_clash _ _ _ ideal_injective X).
    + destruct c; discriminate.
Qed.
Lemma c100_update_example : story ideal Suite2 ex_w4 /\ (exists t', tree_update (w_tree ex_w4) 1 (ex_leaf x09) = Ok t') /\ fresh ex_w4 (leaf_key (ex_leaf x09)) /\
  (forall m, m <> 1 -> ~ blank_at (w_tree ex_w4) m -> whose ex_w4 m <> 1%nat) /\ whose ex_w4 1 = 1%nat.
Proof.
  split; [exact (proj1 (life_steps _ _ _ _ _ ex_life_heal ex_st_heal (or_intror (or_introl eq_refl))))|]. split; [eexists; vm_compute; reflexivity|]. split; [|split; [exact ex_seats4|reflexivity]].
  apply (all_fresh _ ex_k4 _ ex_all4), KnowFacts.bytes_out_spec. vm_compute. reflexivity.
Qed.
