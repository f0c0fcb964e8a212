(** Proofs about the order of operations on a tree. *)
From Verif Require Import CodecLib TreeMathProofs SpecTree SpecRatchet Examples TreePaths TreeMore TreeOps TreeInv TreeFacts HashFacts Verified RosterFacts.
Local Open Scope N_scope.

Lemma member_in t d i : good t d -> ~ blank_at t i -> i < 2 ^ d.
Proof.
  intros G N. unfold blank_at in N. destruct (tget t (2 * i)) as [nd|] eqn:T; [|contradiction]. pose proof (g_in t d G _ _ T) as I. unfold in_tree in I. pose proof (pow2_S d). lia.
Qed.
Lemma path_shallow d e i x : e <= d -> in_tree e x -> (on_path d i x <-> on_path e i x).
Proof.
  intros L I. split; intros (k & j & Hk & -> & C); exists k, j; (split; [|auto]).
  - pose proof (in_tree_level e k j I). lia.
  - lia.
Qed.

(** The update of [i] and the blanking of [j], node by node. *)
Lemma commute_get t a b d e i j l x : i <> j -> e <= d -> in_tree e x ->
  (forall x, (x = 2 * i -> tget a x = Some (Leaf l)) /\ (on_path d i x -> tget a x = None) /\ (x <> 2 * i -> ~ on_path d i x -> tget a x = tget t x)) ->
  (forall y, in_tree e y -> (y = 2 * i -> tget b y = Some (Leaf l)) /\ (on_path e i y -> tget b y = None) /\ (y <> 2 * i -> ~ on_path e i y -> tget b y = tget (blanked t d j) y)) ->
  tget (blanked a d j) x = tget b x.
Proof.
  intros Ne Le I A B. destruct (A x) as (A1 & A2 & A3), (B x I) as (B1 & B2 & B3), (blanked_get a d j x) as [C1 C2], (blanked_get t d j x) as [D1 D2].
  rewrite <- (path_shallow d e i x Le I) in B2, B3.
  destruct (N.eq_dec x (2 * i)) as [Q|Q].
  - rewrite B1 by exact Q. assert (x <> 2 * j) by lia. assert (~ on_path d j x) by (rewrite Q; apply not_path). rewrite C2, A1 by assumption. reflexivity.
  - destruct (on_path_dec d i x) as [O|O].
    + rewrite B2 by exact O. destruct (N.eq_dec x (2 * j)) as [Q'|Q']; [apply C1; auto|]. destruct (on_path_dec d j x) as [O'|O']; [apply C1; auto|]. rewrite C2, A2 by assumption. reflexivity.
    + rewrite B3 by assumption. destruct (N.eq_dec x (2 * j)) as [Q'|Q']; [rewrite C1, D1 by auto; reflexivity|].
      destruct (on_path_dec d j x) as [O'|O']; [rewrite C1, D1 by auto; reflexivity|]. rewrite C2, D2, A3 by assumption. reflexivity.
Qed.

Lemma update_remove t d i j l : good t d -> i <> j -> ~ blank_at t i ->
  (let* t1 := tree_update t i l in tree_remove t1 j) = (let* t1 := tree_remove t j in tree_update t1 i l).
Proof.
  intros G Ne M. pose proof (good_usized t d G) as U. pose proof (member_in t d i G M) as Li.
  destruct (update_ok t d i l U Li) as (a & E & La & A). rewrite E. cbn [bind]. pose proof (usized_same _ _ _ La U) as Ua. pose proof (update_good t d i l a G Li E) as Ga.
  destruct (N.lt_ge_cases j (2 ^ d)) as [Lj|Lj]; [|rewrite (remove_out a d), (remove_out t d) by assumption; reflexivity].
  assert (Ai : forall k, tget a (2 * k) = if k =? i then Some (Leaf l) else tget t (2 * k)).
  { intros k. destruct (A (2 * k)) as (A1 & A2 & A3). destruct (N.eqb_spec k i) as [->|N]; [apply A1; reflexivity|]. apply A3; [lia|apply not_path]. }
  assert (BL : forall k, blank_at (blanked a d j) k <-> blank_at (blanked t d j) k).
  { intros k. unfold blank_at. destruct (blanked_get a d j (2 * k)) as [C1 C2], (blanked_get t d j (2 * k)) as [D1 D2].
    destruct (N.eq_dec k j) as [->|N]; [rewrite C1, D1 by auto; tauto|]. rewrite C2, D2 by (first [lia|apply not_path]). rewrite Ai.
    destruct (N.eqb_spec k i) as [->|]; [|tauto]. split; [discriminate|]. intros Q. exfalso. apply M, Q. }
  assert (Mi : ~ blank_at (blanked t d j) i). { unfold blank_at. destruct (blanked_get t d j (2 * i)) as [_ D2]. rewrite D2; [exact M|lia|apply not_path]. }
  destruct (remove_eq t d j U Lj) as [[_ X]|(m & Lm & NB & After & Er)]; [exfalso; apply Mi, X, Li|].
  destruct (remove_eq a d j Ua Lj) as [[_ X]|(m' & Lm' & NB' & After' & Er')]; [exfalso; apply Mi, BL, X, Li|].
  assert (m' = m). { destruct (N.lt_trichotomy m m') as [Q|[Q|Q]]; [exfalso; apply NB', BL, After; auto|auto|exfalso; apply NB, BL, After'; auto]. } subst m'.
  pose proof Er as Er0. pose proof Er' as Er0'. rewrite Er, Er'. cbn [bind]. destruct (N.ltb_spec (N.size m) d) as [Lc|Lc].
  - set (e := N.size m) in *. set (b := firstn (N.to_nat (2 ^ (e + 1))) (blanked t d j)) in *. set (c := firstn (N.to_nat (2 ^ (e + 1))) (blanked a d j)) in *.
    assert (K : 2 ^ (e + 1) <= tlen t). { pose proof (usized_len t d U). assert (2 ^ (e + 1) <= 2 ^ d) by (apply pow2_mono; lia). pose proof (pow2_S d). pose proof (pow2_pos d). lia. }
    assert (Tb : tlen b = 2 ^ (e + 1)). { unfold b, tlen. rewrite firstn_length. pose proof (blanked_len t d j) as Q. unfold tlen in *. lia. }
    assert (Tc : tlen c = 2 ^ (e + 1)). { unfold c, tlen. rewrite firstn_length. pose proof (blanked_len a d j) as Q. unfold tlen in *. lia. }
    assert (Gb : good b e). { destruct (remove_good t d j b G Lj Er0) as [Q|(e2 & _ & G2)]; [rewrite Q in Tb; cbn in Tb; pose proof (pow2_pos (e + 1)); lia|].
      rewrite (size_unique b e e2); [exact G2|right; exact Tb|exact (g_size _ _ G2)]. }
    assert (Gc : good c e). { destruct (remove_good a d j c Ga Lj Er0') as [Q|(e2 & _ & G2)]; [rewrite Q in Tc; cbn in Tc; pose proof (pow2_pos (e + 1)); lia|].
      rewrite (size_unique c e e2); [exact G2|right; exact Tc|exact (g_size _ _ G2)]. }
    assert (Le : i < 2 ^ e). { assert (i <= m) by (destruct (N.le_gt_cases i m) as [|Q]; [assumption|exfalso; apply Mi, After; auto]). pose proof (N.size_gt m). unfold e. lia. }
    destruct (update_ok b e i l (good_usized b e Gb) Le) as (b' & Eb & Lb & B). rewrite Eb. f_equal. pose proof (update_good b e i l b' Gb Le Eb) as Gb'.
    apply tree_ext; [congruence|]. intros x Lx. rewrite Tc in Lx. destruct (N.lt_ge_cases x (2 ^ (e + 1) - 1)) as [I|I].
    + unfold c. rewrite tget_firstn. destruct (N.ltb_spec x (2 ^ (e + 1))); [|lia]. apply (commute_get t a b' d e i j l x Ne); [lia|exact I|exact A|].
      intros y Iy. destruct (B y) as (B1 & B2 & B3). split; [exact B1|]. split; [exact B2|]. intros N1 N2. rewrite B3 by assumption. unfold b. rewrite tget_firstn.
      destruct (N.ltb_spec y (2 ^ (e + 1))) as [|Q]; [reflexivity|]. unfold in_tree in Iy. lia.
    + destruct (tget c x) as [nd|] eqn:T; [pose proof (g_in c e Gc _ _ T) as Q; unfold in_tree in Q; lia|].
      destruct (tget b' x) as [nd|] eqn:T'; [pose proof (g_in b' e Gb' _ _ T') as Q; unfold in_tree in Q; lia|reflexivity].
  - assert (Ub : usized (blanked t d j) d) by (eapply usized_same; [apply blanked_len|exact U]).
    destruct (update_ok (blanked t d j) d i l Ub Li) as (b' & Eb & Lb & B). rewrite Eb. f_equal.
    assert (Gb : good (blanked t d j) d) by (apply blanked_good; assumption). assert (Gc : good (blanked a d j) d) by (apply blanked_good; assumption). pose proof (update_good _ d i l b' Gb Li Eb) as Gb'.
    apply tree_ext; [rewrite Lb, !blanked_len; congruence|]. intros x Lx. destruct (N.lt_ge_cases x (2 ^ (d + 1) - 1)) as [I|I].
    + apply (commute_get t a b' d d i j l x Ne); [lia|exact I|exact A|]. intros y _. apply B.
    + destruct (tget (blanked a d j) x) as [nd|] eqn:T; [pose proof (g_in _ d Gc _ _ T) as Q; unfold in_tree in Q; lia|].
      destruct (tget b' x) as [nd|] eqn:T'; [pose proof (g_in b' d Gb' _ _ T') as Q; unfold in_tree in Q; lia|reflexivity].
Qed.

Lemma update_add t d i l n : shaped t d -> tlen t < 4294967295 -> has_room t -> i < 2 ^ d -> ~ blank_at t i ->
  (let* t1 := tree_update t i l in tree_add t1 n) = (let* t1 := tree_add t n in tree_update t1 i l).
Proof.
  intros G Lt R Li M. pose proof (shaped_usized t d G) as U. destruct (update_ok t d i l U Li) as (a & E & La & A). rewrite E. cbn [bind]. pose proof (usized_same _ _ _ La U) as Ua.
  assert (Ai : forall k, tget a (2 * k) = if k =? i then Some (Leaf l) else tget t (2 * k)).
  { intros k. destruct (A (2 * k)) as (A1 & A2 & A3). destruct (N.eqb_spec k i) as [->|N]; [apply A1; reflexivity|]. apply A3; [lia|apply not_path]. }
  assert (BL : forall k, blank_at a k <-> blank_at t k).
  { intros k. unfold blank_at. rewrite Ai. destruct (N.eqb_spec k i) as [->|]; [|tauto]. split; [discriminate|]. intros Q. exfalso. apply M, Q. }
  destruct (leftmost_blank t (2 ^ d)) as [Full|(p & Lp & Bp & Before)].
  - destruct R as (d' & R). assert (d' = d) by (apply (size_unique t); [destruct R as [R|[R _]]; [left|right]; exact R|exact (sh_size t d G)]). subst d'.
    destruct R as [F|[_ (k & Lk & Bk)]]; [|exfalso; exact (Full k Lk Bk)].
    assert (Hd : d <= 30). { unfold full_size in F. pose proof (usized_31 t d U). destruct (N.eq_dec d 31) as [->|]; [|lia]. rewrite F in Lt. vm_compute in Lt. discriminate. }
    destruct (add_full t d n F Hd Full) as (b & Eb & Fb & B). rewrite Eb. cbn [bind].
    assert (Fa : full_size a d) by (unfold full_size in *; congruence).
    destruct (add_full a d n Fa Hd) as (c & Ec & Fc & C); [intros k Lk Q; apply BL in Q; exact (Full k Lk Q)|]. rewrite Ec.
    assert (Ub : usized b (d + 1)) by (left; split; [exact Fb|lia]). assert (Li' : i < 2 ^ (d + 1)) by (pose proof (pow2_S d); lia).
    destruct (update_ok b (d + 1) i l Ub Li') as (b' & Eb' & Lb & B'). rewrite Eb'. f_equal. apply tree_ext; [unfold full_size in *; congruence|]. intros x Lx. rewrite C.
    destruct (B' x) as (B1 & B2 & B3), (A x) as (A1 & A2 & A3). destruct (N.eqb_spec x (2 * 2 ^ d)) as [Q|Q].
    + rewrite B3, B; [destruct (N.eqb_spec x (2 * 2 ^ d)); [reflexivity|contradiction]|lia|rewrite Q; apply not_path].
    + destruct (N.eq_dec x (2 * i)) as [Q'|Q']; [rewrite A1, B1 by exact Q'; reflexivity|]. destruct (on_path_dec (d + 1) i x) as [O|O].
      * rewrite B2 by exact O. destruct (on_path_dec d i x) as [O'|O']; [apply A2, O'|]. rewrite A3 by assumption. apply tget_beyond. rewrite F.
        destruct O as (k & j & Hk & -> & Cv). destruct (N.eq_dec k (d + 1)) as [->|]; [|exfalso; apply O'; exists k, j; split; [lia|auto]].
        unfold node_at. pose proof (pow2_S (d + 1)). pose proof (pow2_pos (d + 1)). nia.
      * assert (O' : ~ on_path d i x) by (intros (k & j & Hk & Ex & Cv); apply O; exists k, j; split; [lia|auto]). rewrite A3, B3, B by assumption.
        destruct (N.eqb_spec x (2 * 2 ^ d)); [contradiction|reflexivity].
  - destruct (add_found t d p n U Lp Bp Before) as (b & Eb & Lb & B). rewrite Eb. cbn [bind].
    destruct (add_found a d p n Ua Lp) as (c & Ec & Lc & C); [apply BL, Bp|intros k Lk Q; apply BL in Q; exact (Before k Lk Q)|]. rewrite Ec.
    destruct (update_ok b d i l (usized_same _ _ _ Lb U) Li) as (b' & Eb' & Lb' & B'). rewrite Eb'. f_equal. apply tree_ext; [congruence|]. intros x Lx.
    assert (Ne : p <> i) by (intros ->; contradiction).
    destruct (B' x) as (B1 & B2 & B3), (B x) as (D1 & D2 & D3), (A x) as (A1 & A2 & A3), (C x) as (C1 & C2 & C3).
    destruct (N.eq_dec x (2 * p)) as [Q|Q].
    + rewrite C1 by exact Q. rewrite B3, D1; [reflexivity|exact Q|lia|rewrite Q; apply not_path].
    + destruct (N.eq_dec x (2 * i)) as [Q'|Q'].
      * rewrite B1 by exact Q'. rewrite C3, A1; [reflexivity|exact Q'|exact Q|rewrite Q'; apply not_path].
      * destruct (on_path_dec d i x) as [O|O].
        -- rewrite B2 by exact O. destruct (on_path_dec d p x) as [O'|O']; [rewrite C2, A2 by assumption; reflexivity|rewrite C3, A2 by assumption; reflexivity].
        -- rewrite B3 by assumption. destruct (on_path_dec d p x) as [O'|O']; [rewrite C2, D2, A3 by assumption; reflexivity|rewrite C3, D3, A3 by assumption; reflexivity].
Qed.

Lemma remove_remove t d i j : good t d -> i <> j -> ~ blank_at t i -> ~ blank_at t j ->
  (let* t1 := tree_remove t i in tree_remove t1 j) = (let* t1 := tree_remove t j in tree_remove t1 i).
Proof.
  intros G Ne Mi Mj. assert (Q : removes t [i; j] = removes t [j; i]).
  { apply (removes_perm t d); [exact G| | |].
    - constructor; [intros [Q|[]]; congruence|constructor; [intros []|constructor]].
    - intros k [<-|[<-|[]]]; assumption.
    - constructor. }
  cbn [removes] in Q. assert (B : forall A (m : res A), bind m Ok = m) by (intros A [?|?| |]; reflexivity).
  assert (S : forall m : res tree, (let* t1 := m in let* t2 := tree_remove t1 j in Ok t2) = let* t1 := m in tree_remove t1 j) by (intros [?|?| |]; cbn [bind]; auto).
  assert (S' : forall m : res tree, (let* t1 := m in let* t2 := tree_remove t1 i in Ok t2) = let* t1 := m in tree_remove t1 i) by (intros [?|?| |]; cbn [bind]; auto).
  rewrite S, S' in Q. exact Q.
Qed.

(* ------------------------------------------------------------------------------------------- *)
(** * Adds and removals *)

Lemma remove_leaves t d j t1 : good t d -> j < 2 ^ d -> tree_remove t j = Ok t1 -> forall k, tget t1 (2 * k) = if k =? j then None else tget t (2 * k).
Proof.
  intros G Lj E k. pose proof (good_usized t d G) as U.
  assert (BG : tget (blanked t d j) (2 * k) = if k =? j then None else tget t (2 * k)).
  { destruct (blanked_get t d j (2 * k)) as [D1 D2]. destruct (N.eqb_spec k j) as [->|N]; [apply D1; auto|]. apply D2; [lia|apply not_path]. }
  destruct (N.lt_ge_cases k (2 ^ d)) as [Lk|Lk].
  - destruct (remove_eq t d j U Lj) as [[E2 A]|(m & Lm & NB & A & E2)]; rewrite E in E2; apply Ok_inj in E2; subst t1.
    + rewrite <- BG. rewrite (tget_beyond []) by (cbn; lia). symmetry. apply A, Lk.
    + destruct (N.ltb_spec (N.size m) d); [|exact BG]. rewrite tget_firstn. destruct (N.ltb_spec (2 * k) (2 ^ (N.size m + 1))) as [|Q]; [exact BG|].
      rewrite <- BG. symmetry. apply A. split; [|exact Lk]. pose proof (N.size_gt m). rewrite pow2_S in Q. lia.
  - destruct (tget t (2 * k)) as [nd|] eqn:T; [pose proof (g_in t d G _ _ T) as I; unfold in_tree in I; pose proof (pow2_S d); lia|].
    transitivity (@None node); [|destruct (k =? j); reflexivity]. destruct (tget t1 (2 * k)) as [nd|] eqn:T1; [|reflexivity].
    destruct (remove_good t d j t1 G Lj E) as [->|(e & Le & G1)]; [rewrite tget_beyond in T1 by (cbn; lia); discriminate|].
    pose proof (g_in t1 e G1 _ _ T1) as I. unfold in_tree in I. pose proof (pow2_S e). assert (2 ^ e <= 2 ^ d) by (apply pow2_mono; exact Le). lia.
Qed.
Lemma add_place t d l : good t d -> has_room t -> d <= 29 -> exists t' d' p, tree_add t l = Ok t' /\ good t' d' /\ d' <= d + 1 /\ blank_at t p /\ p < 2 ^ d' /\
  (forall k, k < p -> ~ blank_at t k) /\ (forall k, tget t' (2 * k) = if k =? p then Some (Leaf l) else tget t (2 * k)).
Proof.
  intros G R Hd. pose proof (good_usized t d G) as U. destruct (leftmost_blank t (2 ^ d)) as [Full|(p & Lp & Bp & Before)].
  - destruct R as (d' & R). assert (d' = d) by (apply (size_unique t); [destruct R as [R|[R _]]; [left|right]; exact R|exact (g_size t d G)]). subst d'.
    destruct R as [F|[_ (k & Lk & Bk)]]; [|exfalso; exact (Full k Lk Bk)]. destruct (add_full t d l F ltac:(lia) Full) as (b & Eb & Fb & B). exists b, (d + 1), (2 ^ d).
    split; [exact Eb|]. split; [eapply add_full_good; eassumption|]. split; [lia|]. split.
    { unfold blank_at. apply tget_beyond. rewrite F. pose proof (pow2_S d). lia. }
    split; [pose proof (pow2_S d); pose proof (pow2_pos d); lia|]. split; [exact Full|]. intros k. rewrite B.
    destruct (N.eqb_spec (2 * k) (2 * 2 ^ d)), (N.eqb_spec k (2 ^ d)); first [reflexivity|lia].
  - destruct (add_found t d p l U Lp Bp Before) as (b & Eb & Lb & B). exists b, d, p. split; [exact Eb|]. split; [eapply add_found_good; eassumption|]. split; [lia|]. split; [exact Bp|]. split; [exact Lp|].
    split; [exact Before|]. intros k. destruct (B (2 * k)) as (B1 & B2 & B3). destruct (N.eqb_spec k p) as [->|N]; [apply B1; reflexivity|]. apply B3; [lia|apply not_path].
Qed.
Lemma room_dec t d : good t d -> has_room t \/ ~ has_room t.
Proof.
  intros G. destruct (g_size t d G) as [S|S]; [left; exists d; left; exact S|]. destruct (leftmost_blank t (2 ^ d)) as [Q|(i & Li & Q & _)].
  - right. intros (d' & [F|(C & i & Li & Bi)]).
    + assert (d' = d) by (apply (size_unique t); [left; exact F|right; exact S]). subst d'. red in F, S. pose proof (pow2_pos (d + 1)). lia.
    + assert (d' = d) by (apply (size_unique t); right; assumption). subst d'. exact (Q i Li Bi).
  - left. exists d. right. eauto.
Qed.
Lemma small_depth t d : good t d -> tlen t < 1073741824 -> d <= 29.
Proof.
  intros G L. destruct (N.le_gt_cases d 29); [assumption|]. assert (2 ^ 31 <= 2 ^ (d + 1)) by (apply pow2_mono; lia). change (2 ^ 31) with 2147483648 in *.
  destruct (g_size t d G) as [S|S]; red in S; lia.
Qed.

Lemma order_differs t d j l t1 : good t d -> has_room t -> tlen t < 1073741824 -> ~ blank_at t j -> tree_remove t j = Ok t1 ->
  (let* a := tree_add t l in tree_remove a j) = tree_add t1 l -> (exists p, p < j /\ blank_at t p) /\ has_room t1.
Proof.
  intros G R Lt M E Q. pose proof (small_depth t d G Lt) as Hd. pose proof (member_in t d j G M) as Lj. pose proof (remove_leaves t d j t1 G Lj E) as K.
  destruct (add_place t d l G R Hd) as (a & da & p & Ea & Ga & _ & Bp & Lp & Before & Pa). rewrite Ea in Q. cbn [bind] in Q.
  assert (Mj : ~ blank_at a j). { unfold blank_at. rewrite Pa. destruct (j =? p); [discriminate|exact M]. }
  assert (Np : p <> j) by (intros ->; contradiction). pose proof (member_in a da j Ga Mj) as Lja.
  destruct (tree_remove a j) as [c|e| |] eqn:Ec.
  2-4: exfalso; destruct (remove_eq a da j (good_usized a da Ga) Lja) as [[Y _]|(m & _ & _ & _ & Y)]; rewrite Ec in Y; discriminate.
  pose proof (remove_leaves a da j c Ga Lja Ec) as Kc.
  assert (Cp : tget c (2 * p) = Some (Leaf l)). { rewrite Kc, Pa, N.eqb_refl. destruct (N.eqb_spec p j); [contradiction|reflexivity]. }
  assert (Cj : tget c (2 * j) = None). { rewrite Kc, N.eqb_refl. reflexivity. }
  assert (T1p : tget t1 (2 * p) = None). { rewrite K. destruct (p =? j); [reflexivity|exact Bp]. }
  assert (T1j : blank_at t1 j). { unfold blank_at. rewrite K, N.eqb_refl. reflexivity. }
  destruct (remove_good t d j t1 G Lj E) as [->|(e & Le & G1)]; [vm_compute in Q; discriminate|].
  destruct (room_dec t1 e G1) as [R1|R1].
  - split; [|exact R1]. destruct (leftmost_blank t j) as [None_|(k & Lk & Bk & _)]; [exfalso|eauto].
    destruct (add_place t1 e l G1 R1 ltac:(lia)) as (b & db & p1 & Eb & _ & _ & Bp1 & _ & Before1 & Pb).
    assert (p1 = j). { destruct (N.lt_trichotomy p1 j) as [X|[X|X]]; [exfalso|exact X|exfalso; exact (Before1 j X T1j)].
      apply (None_ p1 X). unfold blank_at in *. rewrite K in Bp1. destruct (N.eqb_spec p1 j); [lia|exact Bp1]. }
    subst p1. rewrite Eb in Q. apply Ok_inj in Q. subst c. rewrite Pb, N.eqb_refl in Cj. discriminate.
  - exfalso. destruct (c16 t1 e l (good_shaped t1 e G1) ltac:(lia)) as [_ X]. destruct (X R1) as (b & Eb & Same & _). rewrite Eb in Q. apply Ok_inj in Q. subst c.
    rewrite Same in Cp. congruence.
Qed.

(** The removal of [j] and an add at [p], node by node. *)
Lemma add_remove_get t a b d e p j l x : p <> j -> e <= d -> in_tree e x ->
  (forall x, (x = 2 * p -> tget a x = Some (Leaf l)) /\ (on_path d p x -> tget a x = add_unmerged p (tget t x)) /\ (x <> 2 * p -> ~ on_path d p x -> tget a x = tget t x)) ->
  (forall y, in_tree e y -> (y = 2 * p -> tget b y = Some (Leaf l)) /\ (on_path e p y -> tget b y = add_unmerged p (tget (blanked t d j) y)) /\
     (y <> 2 * p -> ~ on_path e p y -> tget b y = tget (blanked t d j) y)) ->
  tget (blanked a d j) x = tget b x.
Proof.
  intros Ne Le I A B. destruct (A x) as (A1 & A2 & A3), (B x I) as (B1 & B2 & B3), (blanked_get a d j x) as [C1 C2], (blanked_get t d j x) as [D1 D2].
  rewrite <- (path_shallow d e p x Le I) in B2, B3.
  destruct (N.eq_dec x (2 * p)) as [Q|Q].
  - rewrite B1 by exact Q. assert (x <> 2 * j) by lia. assert (~ on_path d j x) by (rewrite Q; apply not_path). rewrite C2, A1 by assumption. reflexivity.
  - assert (Y : x = 2 * j \/ on_path d j x \/ (x <> 2 * j /\ ~ on_path d j x)).
    { destruct (N.eq_dec x (2 * j)); [auto|]. destruct (on_path_dec d j x); auto. }
    destruct (on_path_dec d p x) as [O|O].
    + rewrite B2 by exact O. destruct Y as [Y|[Y|[Y Y']]]; [rewrite C1, D1 by auto; reflexivity..|]. rewrite C2, D2, A2 by assumption. reflexivity.
    + rewrite B3 by assumption. destruct Y as [Y|[Y|[Y Y']]]; [rewrite C1, D1 by auto; reflexivity..|]. rewrite C2, D2, A3 by assumption. reflexivity.
Qed.

Lemma order_agrees t d j l t1 q : good t d -> ~ blank_at t j -> tree_remove t j = Ok t1 -> q < j -> blank_at t q -> has_room t1 ->
  (let* a := tree_add t l in tree_remove a j) = tree_add t1 l.
Proof.
  intros G M E Lq Bq R1. pose proof (good_usized t d G) as U. pose proof (member_in t d j G M) as Lj. pose proof (remove_leaves t d j t1 G Lj E) as K.
  destruct (leftmost_blank t (2 ^ d)) as [Full|(p & Lp & Bp & Before)]; [exfalso; apply (Full q); [lia|exact Bq]|].
  assert (Pj : p < j). { destruct (N.lt_ge_cases q p) as [X|X]; [exfalso; exact (Before q X Bq)|lia]. }
  destruct (add_found t d p l U Lp Bp Before) as (a & Ea & La & A). rewrite Ea. cbn [bind]. pose proof (usized_same _ _ _ La U) as Ua. pose proof (add_found_good t d p l a G Lp Bp Before Ea) as Ga.
  assert (Al : forall k, tget a (2 * k) = if k =? p then Some (Leaf l) else tget t (2 * k)).
  { intros k. destruct (A (2 * k)) as (A1 & A2 & A3). destruct (N.eqb_spec k p) as [->|N]; [apply A1; reflexivity|]. apply A3; [lia|apply not_path]. }
  assert (Bt : forall k, tget (blanked t d j) (2 * k) = if k =? j then None else tget t (2 * k)).
  { intros k. destruct (blanked_get t d j (2 * k)) as [D1 D2]. destruct (N.eqb_spec k j) as [->|N]; [apply D1; auto|]. apply D2; [lia|apply not_path]. }
  assert (Ba : forall k, tget (blanked a d j) (2 * k) = if k =? j then None else tget a (2 * k)).
  { intros k. destruct (blanked_get a d j (2 * k)) as [D1 D2]. destruct (N.eqb_spec k j) as [->|N]; [apply D1; auto|]. apply D2; [lia|apply not_path]. }
  assert (Bap : ~ blank_at (blanked a d j) p). { unfold blank_at. rewrite Ba, Al, N.eqb_refl. destruct (N.eqb_spec p j); [lia|discriminate]. }
  destruct (remove_eq t d j U Lj) as [[Er _]|(m & Lm & NB & After & Er)].
  { exfalso. rewrite E in Er. apply Ok_inj in Er. subst t1. destruct R1 as (e & [F|[F _]]); red in F; cbn in F; pose proof (pow2_pos (e + 1)); pose proof (pow2_S e); pose proof (pow2_pos e); lia. }
  destruct (remove_eq a d j Ua Lj) as [[_ X]|(m' & Lm' & NB' & After' & Er')]; [exfalso; apply Bap, X, Lp|].
  assert (Mm : ~ blank_at t m /\ m <> j). { unfold blank_at in *. rewrite Bt in NB. destruct (N.eqb_spec m j); [exfalso; apply NB; reflexivity|auto]. } destruct Mm as [Mm Nmj].
  assert (Nmp : m <> p) by (intros ->; contradiction).
  assert (Hm' : m' = N.max m p).
  { assert (Z : forall k, k < 2 ^ d -> ~ blank_at (blanked a d j) k <-> (k = p \/ ~ blank_at (blanked t d j) k)).
    { intros k _. unfold blank_at. rewrite Ba, Bt, Al. destruct (N.eqb_spec k j) as [->|]; [split; [tauto|intros [X|X]; [lia|tauto]]|]. destruct (N.eqb_spec k p) as [->|]; [split; [auto|discriminate]|tauto]. }
    apply N.le_antisymm.
    - destruct (proj1 (Z m' Lm') NB') as [->|X]; [lia|]. destruct (N.le_gt_cases m' m) as [|Y]; [lia|exfalso; apply X, After; auto].
    - assert (m <= m') by (destruct (N.le_gt_cases m m') as [|Y]; [assumption|exfalso; exact (proj2 (Z m Lm) (or_intror NB) (After' m (conj Y Lm)))]).
      assert (p <= m') by (destruct (N.le_gt_cases p m') as [|Y]; [assumption|exfalso; exact (Bap (After' p (conj Y Lp)))]). lia. }
  pose proof Er as Er0. rewrite E in Er0. apply Ok_inj in Er0. rewrite Er'.
  destruct (N.ltb_spec (N.size m) d) as [Lc|Lc].
  - set (e := N.size m) in *. assert (Kl : 2 ^ (e + 1) <= tlen t). { pose proof (usized_len t d U). assert (2 ^ (e + 1) <= 2 ^ d) by (apply pow2_mono; lia). pose proof (pow2_S d). pose proof (pow2_pos d). lia. }
    assert (Tb : cut_size t1 e). { red. rewrite Er0. unfold tlen. rewrite firstn_length. pose proof (blanked_len t d j) as Q. unfold tlen in *. lia. }
    assert (Pe : p < 2 ^ e).
    { destruct R1 as (e' & R1). assert (e' = e) by (apply (size_unique t1); [destruct R1 as [R|[R _]]; [left|right]; exact R|right; exact Tb]). subst e'.
      destruct R1 as [F|[_ (k & Lk & Bk)]]; [red in F, Tb; pose proof (pow2_pos (e + 1)); lia|]. destruct (N.lt_ge_cases p (2 ^ e)) as [|Y]; [assumption|exfalso].
      unfold blank_at in Bk. rewrite K in Bk. destruct (N.eqb_spec k j); [lia|]. exact (Before k ltac:(lia) Bk). }
    assert (Es : N.size m' = e).
    { assert (Gt : m' < 2 ^ e) by (pose proof (N.size_gt m); unfold e in *; lia). apply N.le_antisymm.
      - destruct (N.eq_dec m' 0) as [->|Nz]; [cbn; lia|]. rewrite N.size_log2 by exact Nz. assert (N.log2 m' < e) by (apply N.log2_lt_pow2; lia). lia.
      - unfold e. destruct (N.eq_dec m 0) as [->|Nz]; [cbn; lia|]. rewrite !N.size_log2 by lia. assert (N.log2 m <= N.log2 m') by (apply N.log2_le_mono; lia). lia. }
    rewrite Es in *. destruct (N.ltb_spec e d) as [_|]; [|lia].
    set (c := firstn (N.to_nat (2 ^ (e + 1))) (blanked a d j)) in *.
    assert (Tc : tlen c = 2 ^ (e + 1)). { unfold c, tlen. rewrite firstn_length. pose proof (blanked_len a d j) as Q. unfold tlen in *. lia. }
    assert (G1 : good t1 e). { destruct (remove_good t d j t1 G Lj E) as [Q|(e2 & _ & G2)]; [rewrite Q in Tb; cbn in Tb; red in Tb; cbn in Tb; pose proof (pow2_pos (e + 1)); lia|].
      rewrite (size_unique t1 e e2); [exact G2|right; exact Tb|exact (g_size _ _ G2)]. }
    assert (Gc : good c e). { destruct (remove_good a d j c Ga Lj Er') as [Q|(e2 & _ & G2)]; [rewrite Q in Tc; cbn in Tc; pose proof (pow2_pos (e + 1)); lia|].
      rewrite (size_unique c e e2); [exact G2|right; exact Tc|exact (g_size _ _ G2)]. }
    assert (B1p : blank_at t1 p). { unfold blank_at. rewrite K. destruct (p =? j); [reflexivity|exact Bp]. }
    assert (Before1 : forall k, k < p -> ~ blank_at t1 k). { intros k Lk. unfold blank_at. rewrite K. destruct (N.eqb_spec k j); [lia|]. exact (Before k Lk). }
    destruct (add_found t1 e p l (good_usized t1 e G1) Pe B1p Before1) as (b & Eb & Lb & B). rewrite Eb. f_equal. pose proof (add_found_good t1 e p l b G1 Pe B1p Before1 Eb) as Gb.
    apply tree_ext; [red in Tb; congruence|]. intros x Lx. rewrite Tc in Lx. destruct (N.lt_ge_cases x (2 ^ (e + 1) - 1)) as [I|I].
    + unfold c. rewrite tget_firstn. destruct (N.ltb_spec x (2 ^ (e + 1))); [|lia]. apply (add_remove_get t a b d e p j l x); [lia|lia|exact I|exact A|].
      intros y Iy. assert (Ty : tget t1 y = tget (blanked t d j) y). { rewrite Er0, tget_firstn. destruct (N.ltb_spec y (2 ^ (e + 1))) as [|Q]; [reflexivity|]. unfold in_tree in Iy. lia. }
      rewrite <- Ty. apply B.
    + destruct (tget c x) as [nd|] eqn:T; [pose proof (g_in c e Gc _ _ T) as Q; unfold in_tree in Q; lia|].
      destruct (tget b x) as [nd|] eqn:T'; [pose proof (g_in b e Gb _ _ T') as Q; unfold in_tree in Q; lia|reflexivity].
  - assert (N.size m' >= d). { destruct (N.eq_dec m 0) as [->|Nz]; [cbn in Lc; lia|]. rewrite N.size_log2 in Lc by exact Nz. rewrite N.size_log2 by lia. assert (N.log2 m <= N.log2 m') by (apply N.log2_le_mono; lia). lia. }
    destruct (N.ltb_spec (N.size m') d) as [|_]; [lia|]. assert (G1 : good t1 d) by (rewrite Er0; apply blanked_good; assumption).
    assert (B1p : blank_at t1 p). { unfold blank_at. rewrite K. destruct (p =? j); [reflexivity|exact Bp]. }
    assert (Before1 : forall k, k < p -> ~ blank_at t1 k). { intros k Lk. unfold blank_at. rewrite K. destruct (N.eqb_spec k j); [lia|]. exact (Before k Lk). }
    destruct (add_found t1 d p l (good_usized t1 d G1) Lp B1p Before1) as (b & Eb & Lb & B). rewrite Eb. f_equal. pose proof (add_found_good t1 d p l b G1 Lp B1p Before1 Eb) as Gb.
    assert (Gc : good (blanked a d j) d) by (apply blanked_good; assumption).
    apply tree_ext; [rewrite blanked_len, La, Lb, Er0, blanked_len; reflexivity|]. intros x Lx. destruct (N.lt_ge_cases x (2 ^ (d + 1) - 1)) as [I|I].
    + apply (add_remove_get t a b d d p j l x); [lia|lia|exact I|exact A|]. intros y _. rewrite <- Er0. apply B.
    + destruct (tget (blanked a d j) x) as [nd|] eqn:T; [pose proof (g_in _ d Gc _ _ T) as Q; unfold in_tree in Q; lia|].
      destruct (tget b x) as [nd|] eqn:T'; [pose proof (g_in b d Gb _ _ T') as Q; unfold in_tree in Q; lia|reflexivity].
Qed.

Lemma add_remove t d j l t1 : good t d -> has_room t -> tlen t < 1073741824 -> ~ blank_at t j -> tree_remove t j = Ok t1 ->
  ((let* a := tree_add t l in tree_remove a j) = tree_add t1 l <-> (exists p, p < j /\ blank_at t p) /\ has_room t1).
Proof.
  intros G R L M E. split; [intros Q; eapply order_differs; eassumption|]. intros [(p & Lp & Bp) R1]. eapply order_agrees; eassumption.
Qed.

(* ------------------------------------------------------------------------------------------- *)
(** * Examples *)

Lemma step_good t d t' : good t d -> (exists l, tree_add t l = Ok t' /\ has_room t) \/ (exists i, i < 2 ^ d /\ tree_remove t i = Ok t' /\ t' <> []) -> exists e, good t' e.
Proof.
  intros G [(l & E & R)|(i & L & E & N)]; [destruct (add_good t d l t' G R E); eauto|]. destruct (remove_good t d i t' G L E) as [X|(e & _ & X)]; [contradiction|eauto].
Qed.
Lemma good_depth t d e : good t e -> tsized t d -> good t d.
Proof. intros G S. rewrite (size_unique t d e S (g_size t e G)). exact G. Qed.

Definition ex_four : tree := ok_or [] (tree_add ex_three (ex_leaf x04)).
Definition ex_five : tree := ok_or [] (tree_add ex_four (ex_leaf x05)).
Definition ex_five_gap : tree := ok_or [] (tree_remove ex_five 1).
Definition ex_three_gap : tree := ok_or [] (tree_remove ex_three 1).
Lemma ex_four_eq : tree_add ex_three (ex_leaf x04) = Ok ex_four.
Proof. vm_compute. reflexivity. Qed.
Lemma ex_five_eq : tree_add ex_four (ex_leaf x05) = Ok ex_five.
Proof. vm_compute. reflexivity. Qed.
Lemma ex_five_gap_eq : tree_remove ex_five 1 = Ok ex_five_gap.
Proof. vm_compute. reflexivity. Qed.
Lemma ex_three_gap_eq : tree_remove ex_three 1 = Ok ex_three_gap.
Proof. vm_compute. reflexivity. Qed.
Lemma ex_sizes : full_size ex_three 2 /\ full_size ex_four 2 /\ full_size ex_five 3 /\ full_size ex_five_gap 3 /\ full_size ex_three_gap 2.
Proof. split; [vm_compute; reflexivity|]. split; [vm_compute; reflexivity|]. split; [vm_compute; reflexivity|]. split; vm_compute; reflexivity. Qed.
Lemma ex_three_gap_good : good ex_three_gap 2.
Proof.
  destruct ex_sizes as (S3 & S4 & S5 & S5' & S3'). destruct (step_good ex_three 2 ex_three_gap ex_three_good) as (e & G); [|eapply good_depth; [exact G|left; exact S3']].
  right. exists 1. split; [vm_compute; reflexivity|]. split; [exact ex_three_gap_eq|]. intros Q. red in S3'. rewrite Q in S3'. vm_compute in S3'. discriminate S3'.
Qed.
Lemma ex_five_gap_good : good ex_five_gap 3.
Proof.
  destruct ex_sizes as (S3 & S4 & S5 & S5' & S3').
  destruct (step_good ex_three 2 ex_four ex_three_good) as (e & G4); [left; exists (ex_leaf x04); split; [exact ex_four_eq|exists 2; left; exact S3]|].
  destruct (step_good ex_four e ex_five G4) as (f & G5); [left; exists (ex_leaf x05); split; [exact ex_five_eq|exists 2; left; exact S4]|].
  pose proof (good_depth ex_five 3 f G5 (or_introl S5)) as G.
  destruct (step_good ex_five 3 ex_five_gap G) as (g & G').
  { right. exists 1. split; [vm_compute; reflexivity|]. split; [exact ex_five_gap_eq|]. intros Q. red in S5'. rewrite Q in S5'. vm_compute in S5'. discriminate S5'. }
  exact (good_depth ex_five_gap 3 g G' (or_introl S5')).
Qed.

Lemma ex_add_remove : exists t d j l t1 t2 u1 u2, good t d /\ ~ blank_at t j /\ tree_add t l = Ok t1 /\ tree_remove t1 j = Ok t2 /\
  tree_remove t j = Ok u1 /\ tree_add u1 l = Ok u2 /\ t2 <> u2 /\ leaf_at t2 3 = Some l /\ leaf_at u2 0 = Some l.
Proof.
  exists ex_three, 2, 0, (ex_leaf x04). eexists _, _, _, _. split; [exact ex_three_good|]. split; [discriminate|].
  split; [vm_compute; reflexivity|]. split; [vm_compute; reflexivity|]. split; [vm_compute; reflexivity|]. split; [vm_compute; reflexivity|]. split; [vm_compute; discriminate|]. split; vm_compute; reflexivity.
Qed.
Lemma ex_no_room : exists t d j l t1 t2 u1 u2, good t d /\ ~ blank_at t j /\ (exists p, p < j /\ blank_at t p) /\ tree_add t l = Ok t1 /\ tree_remove t1 j = Ok t2 /\
  tree_remove t j = Ok u1 /\ tree_add u1 l = Ok u2 /\ leaf_at t2 1 = Some l /\ forall i, leaf_at u2 i <> Some l.
Proof.
  exists ex_three_gap, 2, 2, (ex_leaf x04). eexists _, _, _, _. split; [exact ex_three_gap_good|]. split; [vm_compute; discriminate|]. split; [exists 1; split; [reflexivity|vm_compute; reflexivity]|].
  split; [vm_compute; reflexivity|]. split; [vm_compute; reflexivity|]. split; [vm_compute; reflexivity|]. split; [vm_compute; reflexivity|]. split; [vm_compute; reflexivity|].
  intros i. unfold leaf_at. assert (C : i = 0 \/ i = 1 \/ i = 2 \/ 5 <= 2 * i) by lia. destruct C as [-> |[-> |[-> |C]]]; [vm_compute; discriminate..|].
  rewrite tget_beyond; [discriminate|]. exact C.
Qed.
Lemma ex_path_update : exists P cs t d i u t1 t2 j l v, good t d /\ i <> j /\ merge_update_path P cs t i u = (t1, Ok tt) /\ tree_update t1 j l = Ok t2 /\
  tree_update t j l = Ok v /\ forall v', merge_update_path P cs v i u <> (v', Ok tt).
Proof.
  exists toy, Suite1, ex_three, 2, 0, ex_path3. eexists _, _. exists 1, (ex_leaf x09). eexists. split; [exact ex_three_good|]. split; [discriminate|].
  split; [vm_compute; reflexivity|]. split; [vm_compute; reflexivity|]. split; [vm_compute; reflexivity|]. intros v'. vm_compute. discriminate.
Qed.
Lemma ex_commute : good ex_three 2 /\ has_room ex_three /\ ~ blank_at ex_three 0 /\ ~ blank_at ex_three 2 /\
  (exists t1 t2, tree_update ex_three 0 (ex_leaf x09) = Ok t1 /\ tree_remove t1 2 = Ok t2 /\ tlen t2 = 4) /\
  (exists t1 t2, tree_update ex_three 0 (ex_leaf x09) = Ok t1 /\ tree_add t1 (ex_leaf x04) = Ok t2 /\ leaf_at t2 3 = Some (ex_leaf x04)).
Proof.
  split; [exact ex_three_good|]. split; [exists 2; left; exact (proj1 ex_sizes)|]. split; [discriminate|]. split; [discriminate|].
  split; eexists _, _; (split; [vm_compute; reflexivity|]); (split; [vm_compute; reflexivity|]); vm_compute; reflexivity.
Qed.
Lemma ex_gap : exists t t1, good t 3 /\ has_room t /\ tlen t = 15 /\ ~ blank_at t 4 /\ blank_at t 1 /\ tree_remove t 4 = Ok t1 /\ tlen t1 = 8 /\ has_room t1.
Proof.
  destruct ex_sizes as (S3 & S4 & S5 & S5' & S3').
  exists ex_five_gap. eexists. split; [exact ex_five_gap_good|]. split; [exists 3; left; exact S5'|]. split; [vm_compute; reflexivity|]. split; [vm_compute; discriminate|]. split; [vm_compute; reflexivity|].
  split; [vm_compute; reflexivity|]. split; [vm_compute; reflexivity|]. exists 2. right. split; [vm_compute; reflexivity|]. exists 1. split; vm_compute; reflexivity.
Qed.
