(** Proof that an accepted list of proposals is carried out only if there is room. *)
From Verif Require Import ApplyFacts.
From Verif Require Import SpecApply TreeMath TreeOps TreeInv TreeMore TreeFacts ProposalFacts.
Local Open Scope N_scope.

Lemma fold_push_blank li x : forall path t, tget t x = None -> tget (fold_left (push_unmerged li) path t) x = None.
Proof.
  induction path as [|p path IH]; intros t H; cbn [fold_left]; [exact H|]. apply IH. rewrite push_get. destruct (N.eqb_spec x p); [|exact H]. rewrite H. reflexivity.
Qed.
(** [add] fills at most one position. *)
Lemma add_one t l t' : tree_add t l = Ok t' -> exists i, forall j, j <> i -> blank_at t j -> blank_at t' j.
Proof.
  intros E. unfold tree_add in E. destruct (find_blank (length t) t 0) as [[[li ni] fd]| | |]; cbn [bind] in E; try discriminate.
  assert (Q : exists n t1, (forall x, tget t1 x = tget t x) /\ (let* path := climb 33 (num_leaves t1) n in Ok (tset (fold_left (push_unmerged li) path t1) n (Some (Leaf l)))) = Ok t').
  { destruct fd; cbn [bind] in E; [exists ni, t; auto|]. destruct (add32 (tlen32 t) 1) as [n| | |]; cbn [bind] in E; try discriminate.
    exists n, (t ++ repeat None (S (length t)))%list. split; [intros x; apply tget_app_blank|exact E]. }
  clear E. destruct Q as (n & t1 & G & E). destruct (climb 33 (num_leaves t1) n) as [path| | |]; cbn [bind] in E; try discriminate. apply Ok_inj in E. subst t'.
  exists (n / 2). intros j J B. unfold blank_at in *. rewrite tget_tset_other; [|intros Q; apply J; subst n; rewrite N.mul_comm, N.div_mul; [reflexivity|discriminate]].
  apply fold_push_blank. rewrite G. exact B.
Qed.
Lemma adds_few : forall ls t t' pos, do_adds t ls = Ok t' -> NoDup pos -> (forall x, In x pos -> blank_at t x /\ ~ blank_at t' x) -> (length pos <= length ls)%nat.
Proof.
  induction ls as [|l ls IH]; intros t t' pos E ND H; cbn [do_adds] in E.
  - apply Ok_inj in E. subst t'. destruct pos as [|x pos]; [reflexivity|]. exfalso. destruct (H x (or_introl eq_refl)); contradiction.
  - destruct (tree_add t l) as [t1| | |] eqn:A; cbn [bind] in E; try discriminate. destruct (add_one t l t1 A) as (i & O). cbn [length].
    destruct (in_dec N.eq_dec i pos) as [I|NI].
    + apply in_split in I as (p1 & p2 & ->). pose proof (NoDup_remove_1 _ _ _ ND) as ND1. pose proof (NoDup_remove_2 _ _ _ ND) as ND2.
      rewrite app_length. cbn [length]. rewrite Nat.add_succ_r, <- app_length. apply le_n_S. apply (IH t1 t' (p1 ++ p2) E ND1). intros x Ix.
      destruct (H x) as [X1 X2]; [apply in_app_or in Ix; apply in_or_app; cbn; tauto|]. split; [|exact X2]. apply O; [intros ->; contradiction|exact X1].
    + apply le_S, (IH t1 t' pos E ND). intros x Ix. destruct (H x Ix) as [X1 X2]. split; [|exact X2]. apply O; [intros ->; contradiction|exact X1].
Qed.
(** On an array with one slot too many and too few blank leaves, one new member is lost. *)
Lemma adds_lost : forall ls t d t' pos free, shaped t d -> cut_size t d -> d <= 29 -> do_adds t ls = Ok t' ->
  (forall x, x < 2 ^ d -> blank_at t x -> In x free) -> (length free < length ls)%nat ->
  NoDup pos -> (forall x, In x pos -> blank_at t x /\ ~ blank_at t' x) -> (length pos < length ls)%nat.
Proof.
  induction ls as [|l ls IH]; intros t d t' pos free G C D E F L ND H; [cbn in L; lia|]. cbn [do_adds length] in *.
  destruct (leftmost_blank t (2 ^ d)) as [A|(i & Li & B & Lt)].
  - destruct (add_cut_full t d l C D A) as (t1 & E1 & _ & _ & K). rewrite E1 in E. cbn [bind] in E. apply Nat.lt_succ_r. apply (adds_few ls t1 t' pos E ND).
    intros x Ix. destruct (H x Ix) as [X1 X2]. split; [|exact X2]. unfold blank_at. rewrite K. exact X1.
  - destruct (add_found t d i l (shaped_usized t d G) Li B Lt) as (t1 & E1 & L1 & J). rewrite E1 in E. cbn [bind] in E.
    pose proof (add_found_shaped t d i l t1 G Li B Lt E1) as G1.
    assert (B1 : forall x, blank_at t1 x <-> x <> i /\ blank_at t x).
    { intros x. unfold blank_at. destruct (N.eq_dec x i) as [->|Ne]; [rewrite (proj1 (J (2 * i)) eq_refl); split; [discriminate|tauto]|].
      rewrite (proj2 (proj2 (J (2 * x)))); [tauto|lia|]. intros O. eapply on_path_odd; [exact O|reflexivity]. }
    pose proof (F i Li B) as If. apply in_split in If as (f1 & f2 & ->). rewrite app_length in L. cbn [length] in L.
    assert (R : forall p, NoDup p -> (forall x, In x p -> blank_at t1 x /\ ~ blank_at t' x) -> (length p < length ls)%nat).
    { intros p NDp Hp. apply (IH t1 d t' p (f1 ++ f2) G1); [red in C; red; congruence|exact D|exact E| |rewrite app_length; lia|exact NDp|exact Hp].
      intros x Lx Bx. apply B1 in Bx as [Nx Bx]. specialize (F x Lx Bx). apply in_app_or in F as [F|[F|F]]; [apply in_or_app; auto|congruence|apply in_or_app; auto]. }
    destruct (in_dec N.eq_dec i pos) as [I|NI].
    + apply in_split in I as (p1 & p2 & ->). pose proof (NoDup_remove_1 _ _ _ ND) as ND1. pose proof (NoDup_remove_2 _ _ _ ND) as ND2.
      rewrite app_length. cbn [length]. rewrite Nat.add_succ_r, <- app_length. apply -> Nat.succ_lt_mono. apply R; [exact ND1|]. intros x Ix.
      destruct (H x) as [X1 X2]; [apply in_app_or in Ix; apply in_or_app; cbn; tauto|]. split; [|exact X2]. apply B1. split; [intros ->; contradiction|exact X1].
    + apply Nat.lt_lt_succ_r, R; [exact ND|]. intros x Ix. destruct (H x Ix) as [X1 X2]. split; [|exact X2]. apply B1. split; [intros ->; contradiction|exact X1].
Qed.

Definition blanks (t : tree) (n : N) : list N := filter (fun x => match tget t (2 * x) with None => true | _ => false end) (map N.of_nat (seq 0 (N.to_nat n))).
Lemma blanks_in t n x : In x (blanks t n) <-> x < n /\ blank_at t x.
Proof.
  unfold blanks. rewrite filter_In, in_map_iff. unfold blank_at. split.
  - intros [(k & <- & I) H]. apply in_seq in I. split; [lia|]. destruct (tget t (2 * N.of_nat k)); [discriminate|reflexivity].
  - intros [L B]. rewrite B. split; [|reflexivity]. exists (N.to_nat x). split; [lia|]. apply in_seq. lia.
Qed.
Lemma blanks_NoDup t n : NoDup (blanks t n).
Proof. apply NoDup_filter, FinFun.Injective_map_NoDup; [intros a b Q; lia|apply seq_NoDup]. Qed.

Lemma room_needed t d ps senders committer t' : shaped t d -> length ps = length senders -> one_touch ps senders ->
  (forall n p s, at_ ps senders n p s -> touched_leaf p s <> Some committer) -> names_members t ps senders committer ->
  2 ^ d + N.of_nat (length (adds_of ps)) <= 1073741824 -> tree_apply t ps senders = Ok t' -> applied t ps senders t' -> room_for t d ps.
Proof.
  intros G L OT NC [Mc Mt] SZ E AP. rewrite apply_by_kind in E by lia.
  assert (UM : forall x, In x (map fst (updates_of (combine ps senders))) -> ~ blank_at t x).
  { intros x I. apply in_updates_fst in I as (l & n & u & A & _). eapply Mt; [exact A|reflexivity]. }
  destruct (updates_ok shaped (fun t d H => H) update_shaped remove_shaped add_found_shaped add_full_shaped (updates_of (combine ps senders)) t d G (updates_NoDup _ _ OT)) as (t1 & E1 & G1 & L1 & U1 & K1).
  { intros i I. apply (shaped_member_lt t d i G), UM, I. }
  rewrite E1 in E. cbn [bind] in E.
  assert (B1 : forall x, blank_at t1 x <-> blank_at t x).
  { intros x. destruct (in_dec N.eq_dec x (map fst (updates_of (combine ps senders)))) as [I|NI].
    - pose proof (UM x I) as NB. apply in_updates_fst in I as (l & I). apply in_updates, U1 in I. unfold leaf_at in I. unfold blank_at in *.
      split; [intros Q; rewrite Q in I; discriminate|tauto].
    - unfold blank_at. rewrite K1 by exact NI. reflexivity. }
  assert (RMm : forall i, In i (removes_of ps) -> ~ blank_at t1 i).
  { intros i I Q. apply in_removes in I. apply B1 in Q. destruct (removed_at ps senders i L I) as (n & p & s & A & T). exact (Mt n (PRemove p) s i A T Q). }
  pose proof (removes_NoDup ps senders L OT) as NDr.
  assert (RMl : forall i, In i (removes_of ps) -> i < 2 ^ d /\ ~ blank_at t1 i) by (intros i I; split; [apply (shaped_member_lt t1 d i G1)|]; apply RMm, I).
  destruct (removes_ok (removes_of ps) t1 d (shaped_usized t1 d G1) NDr RMl) as (t2 & E2 & J2).
  rewrite <- removes_do, E2 in E. cbn [bind] in E.
  assert (B2 : forall x, blank_at t2 x <-> vacant t ps x).
  { intros x. unfold blank_at at 1. rewrite J2. unfold vacant. rewrite <- in_removes. destruct (in_dec N.eq_dec x (removes_of ps)) as [I|I]; [tauto|].
    fold (blank_at t1 x). rewrite B1. tauto. }
  assert (ST : forall x, ~ blank_at t2 x -> stays t ps x) by (intros x; rewrite B2; unfold vacant, stays; tauto).
  assert (C2 : ~ blank_at t2 committer).
  { rewrite B2. intros [Q|Q]; [tauto|]. destruct (removed_at ps senders committer L Q) as (n & p & s & A & T). exact (NC n (PRemove p) s A T). }
  destruct (removes_stay shaped (fun t d H => H) update_shaped remove_shaped add_found_shaped add_full_shaped _ t1 d t2 G1 RMm NDr E2) as [->|(d2 & Ld & G2)]; [exfalso; apply C2, tget_beyond; cbn; lia|].
  assert (P2 : 2 ^ d2 <= 2 ^ d) by (apply pow2_mono, Ld).
  assert (CUT : cut_size t2 d2 -> exists free, NoDup free /\ length free = length (adds_of ps) /\ forall x, In x free -> x < 2 ^ d2 /\ vacant t ps x).
  { intros C. destruct (Nat.le_gt_cases (length (adds_of ps)) (length (blanks t2 (2 ^ d2)))) as [Q|Q].
    - exists (firstn (length (adds_of ps)) (blanks t2 (2 ^ d2))). split; [|split; [apply firstn_length_le, Q|]].
      + pose proof (blanks_NoDup t2 (2 ^ d2)) as ND. rewrite <- (firstn_skipn (length (adds_of ps))) in ND. revert ND. clear. generalize (skipn (length (adds_of ps)) (blanks t2 (2 ^ d2))). induction (firstn (length (adds_of ps)) (blanks t2 (2 ^ d2))) as [|a l IH]; intros r ND; [constructor|].
        inversion ND as [|? ? NI ND']; subst. constructor; [intros I; apply NI, in_or_app; left; exact I|exact (IH r ND')].
      + intros x I. assert (I' : In x (blanks t2 (2 ^ d2))) by (rewrite <- (firstn_skipn (length (adds_of ps))); apply in_or_app; left; exact I).
        apply blanks_in in I' as [X1 X2]. split; [exact X1|apply B2, X2].
    - exfalso. destruct (ap_added _ _ _ _ AP) as (pos & S & Lp & HA & HV & _). assert (D2 : d2 <= 29).
      { destruct (N.le_gt_cases d2 29) as [X|X]; [exact X|]. assert (2 ^ 30 <= 2 ^ d2) by (apply pow2_mono; lia). change (2 ^ 30) with 1073741824 in *. lia. }
      pose proof (fun NDp H => adds_lost (adds_of ps) t2 d2 t' pos (blanks t2 (2 ^ d2)) G2 C D2 E (fun x Lx Bx => proj2 (blanks_in t2 (2 ^ d2) x) (conj Lx Bx)) Q NDp H) as X.
      assert (length pos < length (adds_of ps))%nat; [|lia]. apply X.
      + clear - S. induction S as [|a l S IH F]; constructor; [|exact IH]. intros I. rewrite Forall_forall in F. specialize (F a I). lia.
      + intros x I. split; [apply B2, HV, I|]. apply In_nth_error in I as (n & In_). destruct (nth_error (adds_of ps) n) as [l|] eqn:El.
        * specialize (HA n x l In_ El). unfold leaf_at in HA. unfold blank_at. intros Z. rewrite Z in HA. discriminate.
        * apply nth_error_None in El. assert (n < length pos)%nat by (apply nth_error_Some; congruence). lia. }
  assert (RC : removes_of ps = [] \/ removes_of ps <> []) by (destruct (removes_of ps); [left; reflexivity|right; discriminate]).
  destruct RC as [R|R].
  - (* nobody is removed *)
    rewrite R in E2. cbn in E2. apply Ok_inj in E2. subst t2. assert (d2 = d) as -> by exact (size_unique t1 d2 d (sh_size _ _ G2) (sh_size _ _ G1)).
    destruct (sh_size _ _ G1) as [F|F]; [left; split; [red; red in F; congruence|left; exact R]|].
    right. destruct (CUT F) as (free & A & B & C). exists d, free. auto 10.
  - destruct (removes_len _ t1 d t2 G1 E2 RMl NDr R) as [->|(m & Nm & Xm & Lx)]; [exfalso; apply C2, tget_beyond; cbn; lia|].
    destruct (size_bounds m) as [SB SB']. destruct (N.ltb_spec (N.size m) d) as [Q|Q].
    + assert (C : cut_size t2 (N.size m)) by exact Lx. assert (d2 = N.size m) as Ed by exact (size_unique t2 _ _ (sh_size _ _ G2) (or_intror C)). rewrite <- Ed in C.
      right. destruct (CUT C) as (free & X & Y & Z). exists d2, free. split; [exact X|]. split; [exact Y|]. split; [exact Z|]. right. exists m. split; [apply ST, Nm|].
      destruct SB' as [->|SB']; [left; exact Ed|right; rewrite Ed; exact SB'].
    + assert (D0 : d <> 0).
      { intros ->. destruct (removes_of ps) as [|r rs] eqn:RE; [congruence|]. destruct (RMl r (or_introl eq_refl)) as [Lr _]. assert (d2 = 0) by lia. subst d2.
        pose proof (shaped_member_lt t2 0 m G2 Nm) as Lm. change (2 ^ 0) with 1 in *. assert (r = m) by lia. subst r. destruct (ST m Nm) as [_ N]. apply N, in_removes. rewrite RE. left. reflexivity. }
      assert (Hm : 2 ^ d <= 2 * m).
      { destruct SB' as [->|SB']; [cbn in Q; lia|]. assert (2 ^ d <= 2 ^ N.size m) by (apply pow2_mono, Q). lia. }
      destruct (sh_size _ _ G) as [F|F]; [left; split; [exact F|right; exists m; split; [apply ST, Nm|exact Hm]]|].
      assert (C : cut_size t2 d) by (red in F; red; congruence). assert (d2 = d) as -> by exact (size_unique t2 _ _ (sh_size _ _ G2) (or_intror C)).
      right. destruct (CUT C) as (free & X & Y & Z). exists d, free. split; [exact X|]. split; [exact Y|]. split; [exact Z|]. right. exists m. split; [apply ST, Nm|right; exact Hm].
Qed.
Lemma c69_exact t d ps senders committer : shaped t d -> psks_wf ps -> verify_proposal_list ps senders committer = Ok tt ->
  names_members t ps senders committer -> 2 ^ d + N.of_nat (length (adds_of ps)) <= 1073741824 ->
  ((exists t', tree_apply t ps senders = Ok t' /\ applied t ps senders t') <-> room_for t d ps).
Proof.
  intros G W V M SZ. split.
  - intros (t' & E & A). apply c48_iff in V; [|exact W]. destruct V. eapply room_needed; eassumption.
  - intros R. destruct (c69 t d ps senders committer G W V M SZ R) as (t' & _ & E & _ & _ & A). eauto.
Qed.
