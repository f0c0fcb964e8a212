(** Proofs about a group over its epochs. *)
From Verif Require Import SpecLocked KnowFacts ForwardFacts TreeFacts TreePaths.
Local Open Scope N_scope.

Lemma rev_case {A} (l : list A) : l = [] \/ exists l' x, l = l' ++ [x].
Proof. destruct l as [|a l]; [auto|]. right. destruct (@exists_last A (a :: l)) as (l' & x & ->); [discriminate|eauto]. Qed.
Lemma changes_story P cs w w' : story P cs w -> changes P cs w w' -> story P cs w'.
Proof. intros S C. induction C as [w|w w' w'' _ IH E]; [exact S|]. exact (st_event _ _ _ _ (IH S) E). Qed.
Lemma step_after P cs k st : story P cs (es_world st) -> step_ok P cs k st -> story P cs (es_after st).
Proof.
  intros S (_ & O). destruct (es_path st) as [[[i u] ss]|]; [|destruct O as [-> _]; exact S].
  destruct O as (_ & _ & t' & q & M & N & F & ->). exact (st_event _ _ _ _ S (ev_merge P cs _ i u t' q M N F)).
Qed.
Lemma life_steps P cs k init l : group_life P cs k init l -> forall st, In st l -> story P cs (es_world st) /\ step_ok P cs k st.
Proof.
  induction 1 as [st S O _|l st st' _ IH C O _]; intros x I.
  - destruct I as [<-|[]]. auto.
  - apply in_app_or in I as [I|[<-|[]]]; [apply IH, I|]. destruct (IH st ltac:(apply in_or_app; right; left; reflexivity)) as [S O1].
    split; [|exact O]. exact (changes_story _ _ _ _ (step_after _ _ _ _ S O1) C).
Qed.
Lemma life_lifetime P cs k init l : group_life P cs k init l -> lifetime_of P cs init (map es_run l).
Proof.
  induction 1 as [st S (R & _) B|l st st' _ IH C (R & _) B].
  - apply lt_first; assumption.
  - rewrite !map_app in *. cbn [map] in *. apply lt_next; assumption.
Qed.
Lemma lifetime_prefix P cs init l : lifetime_of P cs init l -> forall l1 e l2, l = l1 ++ e :: l2 -> lifetime_of P cs init (l1 ++ [e]).
Proof.
  induction 1 as [e R B|l e e' L IH R B]; intros l1 x l2 Q.
  - destruct l1 as [|y l1]; [injection Q as <- <-; apply lt_first; assumption|destruct l1; discriminate].
  - destruct (rev_case l2) as [->|(l3 & y & ->)].
    + apply app_inj_tail in Q as [<- <-]. apply lt_next; assumption.
    + rewrite app_comm_cons, app_assoc in Q. apply app_inj_tail in Q as [Q _]. exact (IH l1 x l3 Q).
Qed.

(** Someone without a leaf decrypts nothing. *)
Lemma absent_nothing P cs st q b : story P cs (es_world st) -> absent q st -> ~ received st q b.
Proof.
  intros S A (i & u & ss & fp & m & x & s & r & y & ky & EP & F & Nx & OC & R & Iy & Ky & L & _).
  destruct (story_exact P cs _ S) as [X [D|[d G]]]; [unfold key_of in Ky; rewrite D, empty_tget in Ky; discriminate|].
  apply (X y ky Ky) in L as L'. destruct L' as (m0 & W0 & B0 & _). destruct (A m0 B0 W0) as (u0 & ss0 & EP0 & _). rewrite EP in EP0. injection EP0 as <- _ _.
  pose (u' := MkUpdatePath (up_leaf u) (repeat (MkUpdatePathNode [] []) (Datatypes.S m))).
  destruct (told_below _ d i u' q [] G X (good_member_lt _ d i G B0)) as (m1 & _ & _ & _ & M & W1 & B1 & _).
  - exists fp, m, m, x, s, r, y, ky, (MkUpdatePathNode [] []). do 7 (split; [assumption|]). split; [reflexivity|]. split; [|reflexivity].
    unfold u'. cbn [up_nodes]. apply nth_error_repeat. lia.
  - destruct (A m1 B1 W1) as (u1 & ss1 & EP1 & _). rewrite EP in EP1. injection EP1 as E _ _. congruence.
Qed.
Lemma seatless q st : (forall m, ~ blank_at (w_tree (es_world st)) m -> whose (es_world st) m <> q) -> absent q st.
Proof. intros H m B W. destruct (H m B W). Qed.

(** From a path secret to the commit secret, and back. *)
Lemma path_call P cs k s b : p_hpke P cs = Ok k -> derive_secret P cs s (str "path") = Ok b -> call k (CExpand s (kdf_label (str "path") [] (nh k)) (nh k)) = Ok b.
Proof. intros K E. rewrite (derive_expand P cs k) in E by (exact K || reflexivity). exact E. Qed.
Lemma path_forth P cs k S D commit : p_hpke P cs = Ok k -> forall ss, path_secrets P cs ss commit -> forall m b, nth_error ss m = Some b -> can k S D b -> can k S D commit.
Proof.
  intros K. induction ss as [|s [|s' r] IH]; intros H m b E C; [destruct H|..].
  - destruct m as [|m]; [|destruct m; discriminate]. injection E as ->. cbn in H. apply (can_call _ _ _ _ _ (path_call P cs k _ _ K H)). intros y ->. exact C.
  - destruct H as [H H']. destruct m as [|m].
    + injection E as ->. apply (IH H' 0%nat s' eq_refl). apply (can_call _ _ _ _ _ (path_call P cs k _ _ K H)). intros y ->. exact C.
    + exact (IH H' m b E C).
Qed.
Lemma path_back P cs k S D (made : kdf_call -> Prop) commit : p_hpke P cs = Ok k -> ~ S commit -> knows k S D commit -> forall ss, path_secrets P cs ss commit -> (forall s, In s ss -> ~ S s) ->
  (forall s, In s ss -> made (CExpand s (kdf_label (str "path") [] (nh k)) (nh k))) ->
  clash k D made \/ exists s r, ss = s :: r /\ knows k S D s.
Proof.
  intros K NC N. induction ss as [|s [|s' r] IH]; intros H NS M; [destruct H|..].
  - cbn in H. destruct (step_back k S D made _ _ N (M s (or_introl eq_refl)) (path_call P cs k _ _ K H)) as [X|[X|X]]; [contradiction|auto|]. right. exists s, []. split; [reflexivity|apply X; reflexivity].
  - destruct H as [H H']. destruct (IH H') as [X|(z & r' & [= <- <-] & X)]; [intros z I; apply NS; right; exact I|intros z I; apply M; right; exact I|auto|].
    destruct (step_back k S D made _ _ X (M s (or_introl eq_refl)) (path_call P cs k _ _ K H)) as [Y|[Y|Y]]; [destruct (NS s' (or_intror (or_introl eq_refl)) Y)|auto|].
    right. exists s, (s' :: r). split; [reflexivity|apply Y; reflexivity].
Qed.

(** Whoever has nothing of some consecutive epochs needs the commit secret of the first of them, or the init secret if that is the first of all. *)
Lemma enough_commit k S D init l : enough k S D init l -> forall before e0 during, l = before ++ e0 :: during ->
  (forall e, In e (e0 :: during) -> ~ late_leak k S e /\ ~ early_leak k S e) -> (forall e, In e (e0 :: during) -> ~ S (er_init e)) ->
  knows k S D (er_commit e0) /\ (before = [] -> knows k S D init).
Proof.
  assert (LAST : forall l (e : epoch_run) before e0 during, l ++ [e] = before ++ e0 :: during -> (during = [] /\ e = e0 /\ l = before) \/ exists d, during = d ++ [e] /\ l = before ++ e0 :: d).
  { intros l0 e b e0 d Q. destruct (rev_case d) as [->|(d' & y & ->)]; [left; apply app_inj_tail in Q as [-> ->]; auto|]. right.
    rewrite app_comm_cons, app_assoc in Q. apply app_inj_tail in Q as [-> ->]. exists d'. auto. }
  induction 1 as [l e X|l e X _|e X Y _|l e e' X Y _|l e e' _ IH Y _]; intros b e0 d Q NL NI.
  - exfalso. assert (I : In e (e0 :: d)) by (destruct (LAST _ _ _ _ _ Q) as [(_ & -> & _)|(d' & -> & _)]; [left; reflexivity|right; apply in_or_app; right; left; reflexivity]). destruct (NL e I); contradiction.
  - exfalso. assert (I : In e (e0 :: d)) by (destruct (LAST _ _ _ _ _ Q) as [(_ & -> & _)|(d' & -> & _)]; [left; reflexivity|right; apply in_or_app; right; left; reflexivity]). destruct (NL e I); contradiction.
  - destruct b as [|? b]; [|destruct b; discriminate]. injection Q as <- _. auto.
  - destruct (LAST _ _ _ _ _ Q) as [(-> & -> & <-)|(d' & -> & Q')].
    + split; [exact Y|]. intros Z. destruct l; discriminate.
    + exfalso. apply (NI e); [|exact X]. destruct (LAST _ _ _ _ _ Q') as [(-> & -> & _)|(d2 & -> & _)]; [left; reflexivity|]. right. apply in_or_app. left. apply in_or_app. right. left. reflexivity.
  - destruct (LAST _ _ _ _ _ Q) as [(-> & -> & <-)|(d' & -> & Q')].
    + split; [exact Y|]. intros Z. destruct l; discriminate.
    + apply (IH b e0 d' Q'); intros z I; [apply NL|apply NI]; (destruct I as [<-|I]; [left; reflexivity|right; apply in_or_app; left; exact I]).
Qed.

(** What someone without a leaf would have to know. *)
Lemma locked_needs P cs k init before st0 during q S D st lab x : p_hpke P cs = Ok k -> group_life P cs k init (before ++ st0 :: during) ->
  (forall st, In st (st0 :: during) -> absent q st) -> (forall st b, In st (st0 :: during) -> secret_of P cs k st b -> ~ S b) ->
  In st (st0 :: during) -> In lab schedule_labels -> derive_secret P cs (er_epoch (es_run st)) lab = Ok x ->
  knows k (fun b => S b \/ exists st, In st (st0 :: during) /\ received st q b) D x ->
  clash k D (life_made k (before ++ st0 :: during)) \/ (knows k S D (er_commit (es_run st0)) /\ (before = [] -> knows k S D init)).
Proof.
  intros K G A NS I IL E N.
  assert (N' : knows k S D x).
  { eapply knows_mono; [| |exact N]; [|intros c J; exact J]. intros b [X|(s & Is & X)]; [exact X|]. exfalso.
    destruct (life_steps _ _ _ _ _ G s ltac:(apply in_or_app; right; exact Is)) as [St _]. exact (absent_nothing P cs s q b St (A s Is) X). }
  clear N. apply in_split in I as (d1 & d2 & Q). pose proof (life_lifetime _ _ _ _ _ G) as L.
  assert (L' : lifetime_of P cs init (map es_run (before ++ d1) ++ [es_run st])).
  { apply (lifetime_prefix _ _ _ _ L _ _ (map es_run d2)). rewrite Q, app_assoc, !map_app. reflexivity. }
  assert (SUB : forall z, In z (d1 ++ [st]) -> In z (st0 :: during)).
  { intros z Iz. rewrite Q. apply in_app_or in Iz as [Iz|[<-|[]]]; apply in_or_app; [left; exact Iz|right; left; reflexivity]. }
  assert (MADE : forall c, all_made k (map es_run (before ++ d1) ++ [es_run st]) c -> life_made k (before ++ st0 :: during) c).
  { intros c (e & Ie & M). left. exists e. split; [|exact M]. rewrite Q, app_assoc, map_app. apply in_app_or in Ie as [Ie|[<-|[]]]; apply in_or_app; [left; exact Ie|right; left; reflexivity]. }
  assert (HX : ~ S x). { apply (NS st x (SUB st ltac:(apply in_or_app; right; left; reflexivity))). do 5 right. eauto. }
  destruct (c83_only P cs k S D init _ _ lab x K L' IL E N') as [X|[X|X]]; [contradiction| |left; exact (clash_mono _ _ _ _ MADE X)].
  right. destruct d1 as [|z d1].
  - cbn [app] in Q. injection Q as <- ->. rewrite app_nil_r in X. destruct (enough_commit _ _ _ _ _ X (map es_run before) (es_run st0) [] eq_refl) as [Y Z]; [..|split; [exact Y|intros ->; apply Z; reflexivity]].
    + intros e [<-|[]]. pose proof (fun b => NS st0 b (or_introl eq_refl)) as NS0. split.
      * intros [Y|(me & Em & Y)]; refine (NS0 _ _ Y); do 3 right; auto.
      * intros [Y|(ex & Ex & Y)]; refine (NS0 _ _ Y); right; auto.
    + intros e [<-|[]] Y. pose proof (lifetime_runs _ _ _ _ L' (es_run st0) ltac:(apply in_or_app; right; left; reflexivity)) as (_ & _ & _ & R).
      refine (NS st0 _ (or_introl eq_refl) _ Y). do 5 right. exists label_init. split; [left; reflexivity|exact R].
  - cbn [app] in Q. injection Q as <- ->. destruct (enough_commit _ _ _ _ _ X (map es_run before) (es_run st0) (map es_run (d1 ++ [st]))) as [Y Z]; [..|split; [exact Y|intros ->; apply Z; reflexivity]].
    + rewrite !map_app. cbn [map]. rewrite <- app_assoc. reflexivity.
    + intros e Ie. change (In e (map es_run (st0 :: d1 ++ [st]))) in Ie. apply in_map_iff in Ie as (s & <- & Is). pose proof (fun b => NS s b (SUB s Is)) as NS0. split.
      * intros [Y|(me & Em & Y)]; refine (NS0 _ _ Y); do 3 right; auto.
      * intros [Y|(ex & Ex & Y)]; refine (NS0 _ _ Y); right; auto.
    + intros e Ie Y. change (In e (map es_run (st0 :: d1 ++ [st]))) in Ie. apply in_map_iff in Ie as (s & <- & Is).
      destruct (life_steps _ _ _ _ _ G s ltac:(apply in_or_app; right; apply SUB, Is)) as [_ [(_ & _ & _ & R) _]].
      refine (NS s _ (SUB s Is) _ Y). do 5 right. exists label_init. split; [left; reflexivity|exact R].
Qed.

Lemma c98_locked_out P cs k init before st0 during i u s ss q S D st lab x : p_hpke P cs = Ok k -> group_life P cs k init (before ++ st0 :: during) ->
  (forall st, In st (st0 :: during) -> absent q st) -> es_path st0 = Some (i, u, s :: ss) ->
  (forall st b, In st (st0 :: during) -> secret_of P cs k st b -> ~ S b) ->
  In st (st0 :: during) -> In lab schedule_labels -> derive_secret P cs (er_epoch (es_run st)) lab = Ok x ->
  knows k (fun b => S b \/ exists st, In st (st0 :: during) /\ received st q b) D x ->
  clash k D (life_made k (before ++ st0 :: during)) \/ exists c, In c D /\ call k c = Ok s.
Proof.
  intros K G A EP NS I IL E N. destruct (locked_needs P cs k init before st0 during q S D st lab x K G A NS I IL E N) as [X|[X _]]; [auto|].
  assert (I0 : In st0 (before ++ st0 :: during)) by (apply in_or_app; right; left; reflexivity).
  destruct (life_steps _ _ _ _ _ G st0 I0) as [_ [_ O]]. rewrite EP in O. destruct O as (_ & H & _).
  destruct (path_back P cs k S D (life_made k (before ++ st0 :: during)) (er_commit (es_run st0)) K) with (ss := s :: ss) as [Y|(z & r & [= <- <-] & Y)]; try assumption; [..|auto|].
  - apply (NS st0 _ (or_introl eq_refl)). left. exists i, u, (s :: ss). auto.
  - intros z Iz. apply (NS st0 _ (or_introl eq_refl)). left. exists i, u, (s :: ss). auto.
  - intros z Iz. right. exists st0, i, u, (s :: ss), z. auto.
  - right. destruct Y as [b Y|c b J _ Y]; [|eauto]. exfalso. refine (NS st0 b (or_introl eq_refl) _ Y). left. exists i, u, (b :: ss). split; [exact EP|]. left. left. reflexivity.
Qed.
Lemma c98_before_joining P cs k init st0 during q S D st lab x : p_hpke P cs = Ok k -> group_life P cs k init (st0 :: during) ->
  (forall st, In st (st0 :: during) -> absent q st) -> ~ S init -> (forall st b, In st (st0 :: during) -> secret_of P cs k st b -> ~ S b) ->
  In st (st0 :: during) -> In lab schedule_labels -> derive_secret P cs (er_epoch (es_run st)) lab = Ok x ->
  knows k (fun b => S b \/ exists st, In st (st0 :: during) /\ received st q b) D x ->
  clash k D (life_made k (st0 :: during)) \/ exists c, In c D /\ call k c = Ok init.
Proof.
  intros K G A NI NS I IL E N. destruct (locked_needs P cs k init [] st0 during q S D st lab x K G A NS I IL E N) as [X|[_ X]]; [auto|]. right.
  destruct (X eq_refl) as [b Y|c b J _ Y]; [contradiction|eauto].
Qed.

(** Members. *)
Lemma can_derived P cs k S e lab x : p_hpke P cs = Ok k -> runs P cs e -> In lab schedule_labels -> derive_secret P cs (er_epoch e) lab = Ok x ->
  can k S [] (er_before e) -> can k S [] (er_commit e) -> can k S [] (psk_or_zero k (er_psk e)) -> exists D, knows k S D x.
Proof.
  intros K R I E A B C. pose proof (can_epoch P cs k S [] e K R (or_intror (or_intror (conj A (conj B C))))) as Z.
  rewrite (derive_expand P cs k) in E by (exact K || apply schedule_fits, I). destruct (can_call k S [] _ _ E) as (D' & _ & N); [intros y ->; exact Z|eauto].
Qed.
Lemma c98_members P cs k init l st i u ss m lab x : p_hpke P cs = Ok k -> group_life P cs k init l -> In st l -> es_path st = Some (i, u, ss) ->
  ~ blank_at (w_tree (es_world st)) m -> m <> i -> In lab schedule_labels -> derive_secret P cs (er_epoch (es_run st)) lab = Ok x ->
  exists D, knows k (fun b => b = er_before (es_run st) \/ b = psk_or_zero k (er_psk (es_run st)) \/ received st (whose (es_world st) m) b) D x.
Proof.
  intros K G I EP B M IL E. destruct (life_steps _ _ _ _ _ G st I) as [St [R O]]. rewrite EP in O. destruct O as (LS & H & t' & q & ME & _).
  destruct ss as [|s ss]; [destruct H|]. destruct (nth_error (up_nodes u) (length (up_nodes u) - 1)) as [n|] eqn:En; [|apply nth_error_None in En; rewrite <- LS in En; cbn [length] in En; lia].
  destruct (c81_reaches P cs _ i u t' m n St ME B M En) as (fp & a & a' & y & sx & r & z & kz & n' & F & Na & OC & RS & Iz & Kz & Lz & Le & Na' & _).
  destruct (nth_error (s :: ss) a) as [b|] eqn:Eb; [|apply nth_error_None in Eb; assert (a' < length (up_nodes u))%nat by (apply nth_error_Some; rewrite Na'; discriminate); lia].
  apply (can_derived P cs k _ (es_run st) lab x K R IL E); [apply can_given; auto| |apply can_given; auto].
  apply (path_forth P cs k _ [] _ K (s :: ss) H a b Eb). apply can_given. right. right. exists i, u, (s :: ss), fp, a, y, sx, r, z, kz. auto 10.
Qed.
Lemma c98_needs_path P cs k init l st lab x : p_hpke P cs = Ok k -> group_life P cs k init l -> In st l -> es_path st = None ->
  In lab schedule_labels -> derive_secret P cs (er_epoch (es_run st)) lab = Ok x ->
  exists D, knows k (fun b => b = er_before (es_run st) \/ b = psk_or_zero k (er_psk (es_run st)) \/ b = zero_bytes (nh k)) D x.
Proof.
  intros K G I EP IL E. destruct (life_steps _ _ _ _ _ G st I) as [St [R O]]. rewrite EP in O. destruct O as [_ O].
  apply (can_derived P cs k _ (es_run st) lab x K R IL E); apply can_given; auto.
Qed.

(** Removal. *)
From Verif Require Import TreeOps TreeInv MemberFacts.
Lemma c98_removed P cs w i t' q : story P cs w -> tree_remove (w_tree w) i = Ok t' -> (forall m, m <> i -> ~ blank_at (w_tree w) m -> whose w m <> q) ->
  event P cs w (World t' (whose w) (learnt w)) /\ forall m, ~ blank_at t' m -> whose w m <> q.
Proof.
  intros S E N. split; [exact (ev_remove P cs w i t' E)|]. intros m B. destruct (story_exact P cs w S) as [_ [D|[d G]]].
  - exfalso. rewrite D in E. unfold tree_remove in E. destruct (node_index_cases i) as [Q|[Q _]]; rewrite Q in E; cbn in E; discriminate.
  - pose proof (good_usized _ d G) as U. destruct (N.lt_ge_cases i (2 ^ d)) as [Hi|Hi]; [|rewrite (remove_out _ d) in E by assumption; discriminate].
    destruct (c18 _ d i (g_size _ _ G) (g_small _ _ G) Hi) as (t1 & E1 & Bi & A1 & _ & A3 & _). assert (t1 = t') by congruence. subst t1.
    assert (M : m <> i) by (intros ->; contradiction). apply N; [exact M|]. unfold blank_at in *. intros Z. apply B. rewrite <- Z. apply A3; [|lia|apply path_not_leaf].
    destruct (N.lt_ge_cases (2 * m) (tlen t')) as [Q|Q]; [exact Q|]. exfalso. apply B, tget_beyond, Q.
Qed.
Lemma c98_ideal P cs k init before st0 during i u s ss q S D st lab x : p_hpke P cs = Ok k -> group_life P cs k init (before ++ st0 :: during) ->
  (forall c c' x, call k c = Ok x -> call k c' = Ok x -> c = c') -> (forall c, call k c <> Ok s) ->
  (forall st, In st (st0 :: during) -> absent q st) -> es_path st0 = Some (i, u, s :: ss) ->
  (forall st b, In st (st0 :: during) -> secret_of P cs k st b -> ~ S b) ->
  In st (st0 :: during) -> In lab schedule_labels -> derive_secret P cs (er_epoch (es_run st)) lab = Ok x ->
  ~ knows k (fun b => S b \/ exists st, In st (st0 :: during) /\ received st q b) D x.
Proof.
  intros K G INJ NE A EP NS I IL E N. destruct (c98_locked_out P cs k init before st0 during i u s ss q S D st lab x K G A EP NS I IL E N) as [X|(c & _ & X)];
    [exact (ideal_no_clash _ _ _ INJ X)|exact (NE c X)].
Qed.

(** ** Example *)

From Verif Require Import Examples HashFacts ExProvider KnowFacts.
Lemma ideal_merge3 : merge_update_path ideal Suite2 ex_three 0 ex_path3 = (ex_merged3, Ok tt).
Proof. vm_compute. reflexivity. Qed.
Lemma ideal_story3 : story ideal Suite2 ex_w3.
Proof.
  apply (st_event _ _ ex_w2).
    { apply (st_event _ _ ex_w1); [apply st_create|]. unfold ex_w2. apply ev_add; [exists 0; left; reflexivity|vm_compute; reflexivity|reflexivity|vm_compute; reflexivity|]. apply (all_fresh _ ex_k1 _ ex_all1), bytes_out_spec. vm_compute. reflexivity. }
    unfold ex_w3. apply ev_add; [exists 1; left; reflexivity|vm_compute; reflexivity|reflexivity|vm_compute; reflexivity|]. apply (all_fresh _ ex_k2 _ ex_all2), bytes_out_spec. vm_compute. reflexivity.
Qed.
Lemma ideal_changes : changes ideal Suite2 ex_w4 ex_w6.
Proof.
  apply (ch_more _ _ _ ex_w5).
  - apply (ch_more _ _ _ ex_w4); [apply ch_none|]. unfold ex_w5. apply ev_add; [exists 2; left; reflexivity|vm_compute; reflexivity|reflexivity|vm_compute; reflexivity|]. apply (all_fresh _ ex_k4 _ ex_all4), bytes_out_spec. vm_compute. reflexivity.
  - unfold ex_w6. apply (ev_remove _ _ ex_w5 1). vm_compute. reflexivity.
Qed.

Definition ex_run (before commit : bytes) : epoch_run :=
  let j := ok_or [] (extract_joiner_secret ideal ex_gc before commit) in let e := ok_or [] (extract_epoch_secret ideal ex_gc j []) in
  EpochRun ex_gc before commit [] j e (ok_or [] (derive_secret ideal Suite2 e label_init)).
Definition next_secret (s : bytes) : bytes := ok_or [] (derive_secret ideal Suite2 s (str "path")).
(** Person 0 commits with a path when persons 0, 1 and 2 are in. Then person 3 comes in, person 1 is removed, and person 0 commits with a
    path again. *)
Definition ex_st1 : epoch_step :=
  let s := str "one" in EpochStep ex_w3 (Some (0, ex_path3, [s; next_secret s])) ex_w4 (ex_run (str "init") (next_secret (next_secret s))).
Definition ex_hash6 : bytes := ok_or [] (let* th := tree_hash toy Suite1 (w_tree ex_w6) 5 [] in parent_hash toy Suite1 (MkParentNode [x99] [] []) th).
Definition ex_path6 : update_path := MkUpdatePath (ex_leaf_commit x06 ex_hash6) [MkUpdatePathNode [x99] []].
Definition ex_merged6 : tree := fst (merge_update_path toy Suite1 (w_tree ex_w6) 0 ex_path6).
Definition ex_w7 : world := World ex_merged6 (seat (whose ex_w6) 0 0%nat) (fun p x => learnt ex_w6 p x \/ (p = 0%nat /\ In x (path_keys ex_path6)) \/ told ex_w6 0 ex_path6 p x).
Definition ex_st2 : epoch_step :=
  let s := str "two" in EpochStep ex_w6 (Some (0, ex_path6, [s])) ex_w7 (ex_run (er_init (es_run ex_st1)) (next_secret s)).
Definition ex_k5 : list bytes := ex_k4 ++ [leaf_key (ex_leaf x04)].
Lemma ex_all5 : all_keys ex_w5 ex_k5.
Proof. apply (all_event ex_w4); [exact ex_all4|intros q k [Q|[_ ->]]; [auto|right; left; reflexivity]|apply incl_spec; vm_compute; reflexivity]. Qed.
Lemma ex_all6 : all_keys ex_w6 ex_k5.
Proof. split; [exact (proj1 ex_all5)|]. intros x k Q. apply keys_of_tree in Q. revert Q. apply incl_spec. vm_compute. reflexivity. Qed.
Lemma ex_step1 : step_ok ideal Suite2 ideal_hpke ex_st1.
Proof.
  split; [split; [reflexivity|]; split; [vm_compute; reflexivity|]; split; vm_compute; reflexivity|]. split; [reflexivity|]. split; [split; vm_compute; reflexivity|].
  exists ex_merged3, 0%nat. split; [exact ideal_merge3|]. split; [repeat constructor; apply bytes_out_spec; vm_compute; reflexivity|]. split; [|reflexivity].
  intros k [<-|[<-|[<-|[]]]]; apply (all_fresh _ ex_k3 _ ex_all3), bytes_out_spec; vm_compute; reflexivity.
Qed.
Lemma ex_step2 : step_ok ideal Suite2 ideal_hpke ex_st2.
Proof.
  split; [split; [reflexivity|]; split; [vm_compute; reflexivity|]; split; vm_compute; reflexivity|]. split; [reflexivity|]. split; [vm_compute; reflexivity|].
  exists ex_merged6, 0%nat. split; [vm_compute; reflexivity|]. split; [repeat constructor; apply bytes_out_spec; vm_compute; reflexivity|]. split; [|reflexivity].
  intros k [<-|[<-|[]]]; apply (all_fresh _ ex_k5 _ ex_all6), bytes_out_spec; vm_compute; reflexivity.
Qed.
Lemma ex_life : group_life ideal Suite2 ideal_hpke (str "init") [ex_st1; ex_st2].
Proof. apply (gl_next _ _ _ _ [] ex_st1 ex_st2); [apply gl_first; [exact ideal_story3|exact ex_step1|reflexivity]|exact ideal_changes|exact ex_step2|reflexivity]. Qed.

(** All secrets of an epoch. *)
Definition secret_list (P : provider) (cs : cipher_suite) (k : hpke_alg) (st : epoch_step) : list bytes :=
  let e := es_run st in
  match es_path st with Some (_, _, ss) => ss ++ [er_commit e] | None => [] end ++
  [ok_or [] (k_extract k (er_commit e) (er_before e)); er_joiner e; ok_or [] (k_extract k (psk_or_zero k (er_psk e)) (er_joiner e)); er_epoch e] ++
  map (fun lab => ok_or [] (derive_secret P cs (er_epoch e) lab)) schedule_labels.
Lemma secret_listed P cs k st b : secret_of P cs k st b -> In b (secret_list P cs k st).
Proof.
  unfold secret_list. intros [(i & u & ss & -> & H)|[H|[->|[H|[->|(lab & I & H)]]]]].
  - apply in_or_app. left. apply in_or_app. destruct H as [H| ->]; [left; exact H|right; left; reflexivity].
  - apply in_or_app. right. apply in_or_app. left. left. rewrite H. reflexivity.
  - apply in_or_app. right. apply in_or_app. left. right. left. reflexivity.
  - apply in_or_app. right. apply in_or_app. left. right. right. left. rewrite H. reflexivity.
  - apply in_or_app. right. apply in_or_app. left. right. right. right. left. reflexivity.
  - apply in_or_app. right. apply in_or_app. right. apply in_map_iff. exists lab. rewrite H. auto.
Qed.
Lemma ex_apart b : secret_of ideal Suite2 ideal_hpke ex_st2 b -> ~ secret_of ideal Suite2 ideal_hpke ex_st1 b.
Proof.
  intros A B. apply secret_listed in A. apply secret_listed in B.
  assert (H : forallb (fun x => negb (bytes_in x (secret_list ideal Suite2 ideal_hpke ex_st1))) (secret_list ideal Suite2 ideal_hpke ex_st2) = true) by (vm_compute; reflexivity).
  rewrite forallb_forall in H. specialize (H b A). apply negb_true_iff, bytes_out_spec in H. contradiction.
Qed.
Definition ex_enc_of (st : epoch_step) : bytes := ok_or [] (derive_secret ideal Suite2 (er_epoch (es_run st)) label_encryption).
Lemma c98_example : group_life ideal Suite2 ideal_hpke (str "init") [ex_st1; ex_st2] /\
  derive_secret ideal Suite2 (er_epoch (es_run ex_st2)) label_encryption = Ok (ex_enc_of ex_st2) /\
  whose (es_world ex_st1) 1 = 1%nat /\ ~ blank_at (w_tree (es_world ex_st1)) 1 /\ absent 1%nat ex_st2 /\
  (forall D, ~ knows ideal_hpke (fun b => secret_of ideal Suite2 ideal_hpke ex_st1 b \/ exists st, In st [ex_st2] /\ received st 1%nat b) D (ex_enc_of ex_st2)) /\
  whose (es_world ex_st2) 2 = 2%nat /\ ~ blank_at (w_tree (es_world ex_st2)) 2 /\
  exists D, knows ideal_hpke (fun b => b = er_init (es_run ex_st1) \/ b = zero_bytes 4 \/ received ex_st2 2%nat b) D (ex_enc_of ex_st2).
Proof.
  assert (E : derive_secret ideal Suite2 (er_epoch (es_run ex_st2)) label_encryption = Ok (ex_enc_of ex_st2)) by (vm_compute; reflexivity).
  assert (EN : In label_encryption schedule_labels) by (right; right; left; reflexivity).
  assert (A : absent 1%nat ex_st2) by exact (seatless _ ex_st2 (proj1 (proj2 (proj2 (proj2 (proj2 (proj2 c81_example))))))).
  split; [exact ex_life|]. split; [exact E|]. split; [reflexivity|]. split; [vm_compute; discriminate|]. split; [exact A|]. split; [|split; [reflexivity|split; [vm_compute; discriminate|]]].
  - intros D. apply (c98_ideal ideal Suite2 ideal_hpke (str "init") [ex_st1] ex_st2 [] 0 ex_path6 (str "two") [] 1%nat _ D ex_st2 label_encryption _ eq_refl ex_life ideal_injective);
      [intros []; discriminate|intros st [<-|[]]; exact A|reflexivity|intros st b [<-|[]]; apply ex_apart|left; reflexivity|exact EN|exact E].
  - apply (c98_members ideal Suite2 ideal_hpke (str "init") [ex_st1; ex_st2] ex_st2 0 ex_path6 [str "two"] 2 label_encryption _ eq_refl ex_life); [right; left; reflexivity|reflexivity|vm_compute; discriminate|discriminate|exact EN|exact E].
Qed.
