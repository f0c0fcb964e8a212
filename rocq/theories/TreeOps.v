(** Lemmas about the array operations and the evolution methods of the ratchet tree. *)
From Verif Require Export TreeMathProofs SpecRatchet.
From Verif Require Import TreeCodec.
From Coq Require Import ZifyBool ZifyNat ZifyN.
Local Open Scope N_scope.

(** * get and set *)

Lemma tget_beyond t i : tlen t <= i -> tget t i = None.
Proof. intros H. unfold tget. destruct (N.ltb_spec i (tlen t)); [lia|reflexivity]. Qed.

Lemma tget_nth t i : tget t i = nth (N.to_nat i) t None.
Proof.
  unfold tget. destruct (N.ltb_spec i (tlen t)) as [H|H]; [reflexivity|].
  rewrite nth_overflow; [reflexivity|]. unfold tlen in H. lia.
Qed.

Lemma tlen_tset t i v : tlen (tset t i v) = tlen t.
Proof.
  unfold tset. destruct (N.ltb_spec i (tlen t)) as [H|H]; [|reflexivity]. unfold tlen in *.
  rewrite app_length. cbn [length]. rewrite firstn_length, skipn_length. lia.
Qed.

Lemma tget_tset t i v x : tget (tset t i v) x = if (x =? i) && (i <? tlen t) then v else tget t x.
Proof.
  rewrite !tget_nth. unfold tset. destruct (N.ltb_spec i (tlen t)) as [H|H]; [|rewrite andb_false_r; reflexivity].
  rewrite andb_true_r. assert (L : length (firstn (N.to_nat i) t) = N.to_nat i).
  { rewrite firstn_length. unfold tlen in H. lia. }
  destruct (N.eqb_spec x i) as [->|E].
  - rewrite app_nth2 by lia. rewrite L, Nat.sub_diag. reflexivity.
  - destruct (N.lt_ge_cases x i) as [B|B].
    + rewrite app_nth1 by lia. rewrite <- (firstn_skipn (N.to_nat i) t) at 2. rewrite app_nth1 by lia. reflexivity.
    + rewrite app_nth2 by lia. rewrite L. replace (N.to_nat x - N.to_nat i)%nat with (S (N.to_nat x - N.to_nat i - 1)) by lia.
      cbn [nth]. rewrite <- (firstn_skipn (S (N.to_nat i)) t) at 2.
      assert (L' : length (firstn (S (N.to_nat i)) t) = S (N.to_nat i)). { rewrite firstn_length. unfold tlen in H. lia. }
      rewrite app_nth2 by lia. rewrite L'. f_equal. lia.
Qed.

Lemma tget_tset_same t i v : i < tlen t -> tget (tset t i v) i = v.
Proof. intros H. rewrite tget_tset, N.eqb_refl. destruct (N.ltb_spec i (tlen t)); [reflexivity|lia]. Qed.
Lemma tget_tset_other t i v x : x <> i -> tget (tset t i v) x = tget t x.
Proof. intros H. rewrite tget_tset. destruct (N.eqb_spec x i); [contradiction|reflexivity]. Qed.

Lemma tree_ext t t' : tlen t = tlen t' -> (forall x, x < tlen t -> tget t x = tget t' x) -> t = t'.
Proof.
  intros L H. unfold tlen in L. apply (nth_ext t t' None None); [lia|]. intros n Hn.
  specialize (H (N.of_nat n)). rewrite !tget_nth, Nat2N.id in H. apply H. unfold tlen. lia.
Qed.

Lemma tget_app_l t u x : x < tlen t -> tget (t ++ u) x = tget t x.
Proof. intros H. rewrite !tget_nth, app_nth1; [reflexivity|]. unfold tlen in H. lia. Qed.
Lemma tget_app_blank t k x : tget (t ++ repeat None k) x = tget t x.
Proof.
  destruct (N.lt_ge_cases x (tlen t)) as [H|H]; [apply tget_app_l, H|]. rewrite (tget_beyond t x H), tget_nth.
  rewrite app_nth2 by (unfold tlen in H; lia). generalize (N.to_nat x - length t)%nat as m. clear. induction k as [|k IH]; intros [|m]; cbn; auto.
Qed.
Lemma tlen_app t u : tlen (t ++ u) = tlen t + tlen u.
Proof. unfold tlen. rewrite app_length. lia. Qed.
Lemma tlen_repeat k : tlen (repeat None k) = N.of_nat k.
Proof. unfold tlen. rewrite repeat_length. reflexivity. Qed.
Lemma tlen_firstn k t : k <= tlen t -> tlen (firstn (N.to_nat k) t) = k.
Proof. unfold tlen. intros H. rewrite firstn_length. lia. Qed.
Lemma tget_firstn k t x : tget (firstn (N.to_nat k) t) x = if x <? k then tget t x else None.
Proof.
  rewrite !tget_nth. destruct (N.ltb_spec x k) as [H|H].
  - rewrite <- (firstn_skipn (N.to_nat k) t) at 2. destruct (Nat.lt_ge_cases (N.to_nat x) (length (firstn (N.to_nat k) t))) as [L|L].
    + rewrite app_nth1 by exact L. reflexivity.
    + rewrite nth_overflow by exact L. symmetry. apply nth_overflow. rewrite firstn_skipn. rewrite firstn_length in L. lia.
  - apply nth_overflow. rewrite firstn_length. lia.
Qed.

(** * Sizes *)

Lemma num_leaves_sized t d : d <= 30 -> tsized t d -> num_leaves t = 2 ^ d.
Proof.
  intros Hd H. unfold num_leaves, tlen32. pose proof (pow2_pos d) as P. pose proof (pow2_S d) as S.
  assert (2 ^ d <= 2 ^ 30) by (apply pow2_mono, Hd). change (2 ^ 30) with 1073741824 in *.
  unfold num_leaves_of_width. destruct H as [H|H]; red in H; rewrite H.
  - rewrite N.mod_small by lia. destruct (N.eqb_spec (2 ^ (d + 1) - 1) 0); [lia|].
    replace (2 ^ (d + 1) - 1 - 1) with ((2 ^ d - 1) * 2) by lia. rewrite N.div_mul by lia. lia.
  - rewrite N.mod_small by lia. destruct (N.eqb_spec (2 ^ (d + 1)) 0); [lia|].
    replace (2 ^ (d + 1) - 1) with (1 + (2 ^ d - 1) * 2) by lia. rewrite N.div_add by lia. change (1 / 2) with 0. lia.
Qed.
Lemma num_leaves_full t d : d <= 31 -> full_size t d -> num_leaves t = 2 ^ d.
Proof.
  intros Hd H. red in H. unfold num_leaves, tlen32. pose proof (pow2_pos d) as P. pose proof (pow2_S d) as S.
  assert (2 ^ d <= 2 ^ 31) by (apply pow2_mono, Hd). change (2 ^ 31) with 2147483648 in *.
  unfold num_leaves_of_width. rewrite H, N.mod_small by lia. destruct (N.eqb_spec (2 ^ (d + 1) - 1) 0); [lia|].
  replace (2 ^ (d + 1) - 1 - 1) with ((2 ^ d - 1) * 2) by lia. rewrite N.div_mul by lia. lia.
Qed.
(** Either way of being tsized, within what u32 indices can address. *)
Definition usized (t : tree) (d : N) : Prop := (full_size t d /\ d <= 31) \/ (cut_size t d /\ d <= 30).
Lemma usized_leaves t d : usized t d -> num_leaves t = 2 ^ d.
Proof. intros [[H L]|[H L]]; [apply num_leaves_full; assumption|apply num_leaves_sized; [assumption|right; assumption]]. Qed.
Lemma usized_31 t d : usized t d -> d <= 31.
Proof. intros [[_ L]|[_ L]]; lia. Qed.
Lemma usized_len t d : usized t d -> 2 ^ (d + 1) - 1 <= tlen t.
Proof. intros [[H _]|[H _]]; red in H; lia. Qed.
Lemma usized_same t t' d : tlen t' = tlen t -> usized t d -> usized t' d.
Proof. unfold usized, full_size, cut_size. intros ->. exact (fun x => x). Qed.
Lemma sized_usized t d : d <= 30 -> tsized t d -> usized t d.
Proof. intros L [H|H]; [left|right]; split; auto. lia. Qed.
Lemma usized_sized t d : usized t d -> tsized t d.
Proof. intros [[H _]|[H _]]; [left|right]; exact H. Qed.

Lemma node_index_ok d i : d <= 31 -> i < 2 ^ d -> node_index i = Ok (2 * i).
Proof.
  intros Hd Hi. unfold node_index, mul32, u32_max. assert (2 ^ d <= 2 ^ 31) by (apply pow2_mono, Hd). change (2 ^ 31) with 2147483648 in *.
  destruct (N.leb_spec (2 * i) 4294967295); [reflexivity|lia].
Qed.
Lemma leaf_in_tree d i : i < 2 ^ d -> in_tree d (2 * i).
Proof. intros H. rewrite <- node_at_leaf. apply in_tree_iff. rewrite N.sub_0_r. split; [lia|exact H]. Qed.
Lemma leaf_in_tlen t d i : usized t d -> i < 2 ^ d -> 2 * i < tlen t.
Proof. intros H Hi. apply usized_len in H. apply leaf_in_tree in Hi. unfold in_tree in Hi. lia. Qed.

(** * The climb of the evolution methods *)

Definition up d i := path_up (N.to_nat d) 0 i.
Lemma climb_leaf t d i : usized t d -> i < 2 ^ d -> climb 33 (num_leaves t) (2 * i) = Ok (up d i).
Proof.
  intros H Hi. pose proof (usized_31 _ _ H) as Hd. rewrite (usized_leaves t d H). d31.
  pose proof (direct_path_in (2 ^ d) 0 i) as D. unfold direct_path in D. rewrite node_at_leaf in D. rewrite D; [|assumption|assumption|].
  - rewrite depth_pow2, N.sub_0_r. reflexivity.
  - rewrite depth_pow2. apply leaf_in_tree, Hi.
Qed.
Lemma in_up d i x : In x (up d i) <-> on_path d i x.
Proof.
  unfold up. rewrite path_up_in. split.
  - intros (k & Hk & ->). exists k, (i / 2 ^ k). rewrite covers_div. repeat split; lia.
  - intros (k & j & Hk & -> & C). apply covers_div in C. exists k. split; [lia|]. subst j. reflexivity.
Qed.
Lemma NoDup_up d i : NoDup (up d i).
Proof.
  apply NoDup_nth_error. intros a b La E. unfold up in *. rewrite path_up_length in La.
  destruct (Nat.lt_ge_cases b (N.to_nat d)) as [Lb|Lb].
  - rewrite !path_up_nth in E by assumption. injection E as E. apply node_at_inj in E. lia.
  - rewrite path_up_nth in E by assumption. rewrite (proj2 (nth_error_None _ _)) in E; [discriminate|]. rewrite path_up_length. exact Lb.
Qed.
Lemma on_path_in d i x : i < 2 ^ d -> on_path d i x -> in_tree d x.
Proof.
  intros Hi (k & j & Hk & -> & C). apply in_tree_iff. split; [lia|]. apply covers_div in C. subst j.
  apply N.div_lt_upper_bound; [pose proof (pow2_pos k); lia|]. rewrite <- N.pow_add_r. replace (k + (d - k)) with d by lia. exact Hi.
Qed.
Lemma on_path_odd d i x y : on_path d i x -> x <> 2 * y.
Proof.
  intros (k & j & Hk & -> & _) E. rewrite <- node_at_leaf in E. apply node_at_inj in E. lia.
Qed.
Lemma on_path_dec d i x : {on_path d i x} + {~ on_path d i x}.
Proof. destruct (in_dec N.eq_dec x (up d i)) as [H|H]; [left|right]; rewrite <- in_up; exact H. Qed.

Lemma fold_blank_len path : forall t, tlen (fold_left blank path t) = tlen t.
Proof. induction path as [|p path IH]; intros t; cbn; [reflexivity|]. rewrite IH. unfold blank. apply tlen_tset. Qed.
Lemma fold_blank_get path : forall t x, tget (fold_left blank path t) x = if in_dec N.eq_dec x path then None else tget t x.
Proof.
  induction path as [|p path IH]; intros t x; cbn [fold_left]; [reflexivity|]. rewrite IH.
  destruct (in_dec N.eq_dec x path) as [H|H].
  - destruct (in_dec N.eq_dec x (p :: path)) as [_|H']; [reflexivity|]. exfalso. apply H'. right. exact H.
  - destruct (in_dec N.eq_dec x (p :: path)) as [[->|H']|H'].
    + unfold blank. rewrite tget_tset. rewrite N.eqb_refl. cbn. destruct (N.ltb_spec x (tlen t)); [reflexivity|]. apply tget_beyond; assumption.
    + contradiction.
    + unfold blank. apply tget_tset_other. intros ->. apply H'. left. reflexivity.
Qed.

Definition add_unmerged (li : N) (n : option node) : option node :=
  match n with Some (Parent p) => Some (Parent (with_unmerged p (pn_unmerged p ++ [li])%list)) | o => o end.
Lemma push_get li t p x : tget (push_unmerged li t p) x = if x =? p then add_unmerged li (tget t x) else tget t x.
Proof.
  unfold push_unmerged. destruct (N.eqb_spec x p) as [->|E].
  - destruct (tget t p) as [[l|q]|] eqn:G; cbn; rewrite ?G; try reflexivity.
    rewrite tget_tset_same; [reflexivity|]. destruct (N.lt_ge_cases p (tlen t)) as [L|L]; [exact L|]. rewrite tget_beyond in G by exact L. discriminate.
  - destruct (tget t p) as [[l|q]|]; try reflexivity. apply tget_tset_other, E.
Qed.
Lemma push_len li t p : tlen (push_unmerged li t p) = tlen t.
Proof. unfold push_unmerged. destruct (tget t p) as [[l|q]|]; try reflexivity. apply tlen_tset. Qed.
Lemma fold_push_len li path : forall t, tlen (fold_left (push_unmerged li) path t) = tlen t.
Proof. induction path as [|p path IH]; intros t; cbn; [reflexivity|]. rewrite IH. apply push_len. Qed.
Lemma fold_push_get li path : forall t x, NoDup path ->
  tget (fold_left (push_unmerged li) path t) x = if in_dec N.eq_dec x path then add_unmerged li (tget t x) else tget t x.
Proof.
  induction path as [|p path IH]; intros t x ND; cbn [fold_left]; [reflexivity|]. inversion ND as [|? ? NI ND']; subst. rewrite IH by assumption.
  destruct (in_dec N.eq_dec x path) as [H|H].
  - destruct (in_dec N.eq_dec x (p :: path)) as [_|H']; [|exfalso; apply H'; right; exact H]. rewrite push_get.
    destruct (N.eqb_spec x p) as [->|_]; [contradiction|reflexivity].
  - rewrite push_get. destruct (N.eqb_spec x p) as [->|E].
    + destruct (in_dec N.eq_dec p (p :: path)) as [_|H']; [reflexivity|]. exfalso. apply H'. left. reflexivity.
    + destruct (in_dec N.eq_dec x (p :: path)) as [[->|H']|H']; [contradiction|contradiction|reflexivity].
Qed.

(** * update *)

Lemma update_ok t d i l : usized t d -> i < 2 ^ d -> exists t', tree_update t i l = Ok t' /\ tlen t' = tlen t /\
  forall x, (x = 2 * i -> tget t' x = Some (Leaf l)) /\ (on_path d i x -> tget t' x = None) /\
            (x <> 2 * i -> ~ on_path d i x -> tget t' x = tget t x).
Proof.
  intros H Hi. unfold tree_update. rewrite (node_index_ok d) by (eauto using usized_31). cbn [bind].
  rewrite (climb_leaf _ d); [|eapply usized_same; [apply tlen_tset|exact H]|exact Hi]. cbn [bind]. eexists. split; [reflexivity|].
  split; [rewrite fold_blank_len; apply tlen_tset|]. intros x. rewrite fold_blank_get.
  destruct (in_dec N.eq_dec x (up d i)) as [I|I]; rewrite in_up in I.
  - split; [|tauto]. intros ->. exfalso. eapply on_path_odd; [exact I|reflexivity].
  - split; [|split; [tauto|]].
    + intros ->. apply tget_tset_same. eapply leaf_in_tlen; eauto.
    + intros E _. apply tget_tset_other, E.
Qed.

(** * add *)

Lemma find_blank_found t d i : usized t d -> i < 2 ^ d -> blank_at t i -> (forall j, j < i -> ~ blank_at t j) ->
  forall m li, li + m = i -> forall fuel, m <= N.of_nat fuel -> find_blank fuel t li = Ok (i, 2 * i, true).
Proof.
  intros H Hi Bi Lt m. induction m as [|m IH] using N.peano_ind; intros li E fuel F.
  - replace li with i by lia. assert (X : 2 * i < tlen t) by (eapply leaf_in_tlen; eauto).
    destruct fuel; cbn [find_blank]; rewrite (node_index_ok d) by (eauto using usized_31); cbn [bind];
      (destruct (N.leb_spec (tlen t) (2 * i)); [lia|]); red in Bi; rewrite Bi; reflexivity.
  - assert (L : li < i) by lia. assert (X : 2 * li < tlen t) by (eapply leaf_in_tlen; [eauto|lia]).
    destruct fuel as [|fuel]; [lia|]. cbn [find_blank]. rewrite (node_index_ok d) by (eauto using usized_31; lia). cbn [bind].
    destruct (N.leb_spec (tlen t) (2 * li)); [lia|]. specialize (Lt li L) as N1. unfold blank_at in N1.
    destruct (tget t (2 * li)) eqn:G; [|contradiction]. unfold add32, u32_max.
    assert (i < 4294967296). { eapply N.lt_le_trans; [exact Hi|]. change 4294967296 with (2 ^ 32). apply pow2_mono. pose proof (usized_31 _ _ H). lia. }
    destruct (N.leb_spec (li + 1) 4294967295); [|lia]. cbn [bind]. apply IH; lia.
Qed.

Lemma add_found t d i l : usized t d -> i < 2 ^ d -> blank_at t i -> (forall j, j < i -> ~ blank_at t j) ->
  exists t', tree_add t l = Ok t' /\ tlen t' = tlen t /\
  forall x, (x = 2 * i -> tget t' x = Some (Leaf l)) /\ (on_path d i x -> tget t' x = add_unmerged i (tget t x)) /\
            (x <> 2 * i -> ~ on_path d i x -> tget t' x = tget t x).
Proof.
  intros H Hi Bi Lt. unfold tree_add. rewrite (find_blank_found t d i H Hi Bi Lt i 0) by
    (try lia; pose proof (leaf_in_tlen t d i H Hi) as X; unfold tlen in X; lia).
  cbn [bind]. rewrite (climb_leaf _ d) by assumption. cbn [bind]. eexists. split; [reflexivity|].
  split; [rewrite tlen_tset; apply fold_push_len|]. intros x.
  pose proof (leaf_in_tlen t d i H Hi) as X. rewrite tget_tset, fold_push_len, fold_push_get by apply NoDup_up.
  destruct (N.ltb_spec (2 * i) (tlen t)); [|lia]. rewrite andb_true_r.
  destruct (N.eqb_spec x (2 * i)) as [->|E].
  - repeat split; try tauto. intros O. exfalso. eapply on_path_odd; [exact O|reflexivity].
  - destruct (in_dec N.eq_dec x (up d i)) as [I|I]; rewrite in_up in I; tauto.
Qed.

Lemma find_blank_none t d : usized t d -> (forall j, j < 2 ^ d -> ~ blank_at t j) ->
  forall m li, li + m = 2 ^ d -> forall fuel, m <= N.of_nat fuel -> tlen t <= 2 ^ (d + 1) -> 2 ^ (d + 1) <= u32_max ->
  find_blank fuel t li = Ok (2 ^ d, 2 ^ (d + 1), false).
Proof.
  intros H Lt m. induction m as [|m IH] using N.peano_ind; intros li E fuel F Lm M32; pose proof (pow2_S d) as S.
  - assert (li = 2 ^ d) as -> by lia. replace (2 ^ (d + 1)) with (2 * 2 ^ d) in * by lia.
    destruct fuel; cbn [find_blank]; unfold node_index, mul32;
      (destruct (N.leb_spec (2 * 2 ^ d) u32_max); [|lia]); cbn [bind]; (destruct (N.leb_spec (tlen t) (2 * 2 ^ d)); [|lia]); reflexivity.
  - assert (L : li < 2 ^ d) by lia. assert (X : 2 * li < tlen t) by (eapply leaf_in_tlen; [eauto|lia]).
    destruct fuel as [|fuel]; [lia|]. cbn [find_blank]. rewrite (node_index_ok d) by (eauto using usized_31). cbn [bind].
    destruct (N.leb_spec (tlen t) (2 * li)); [lia|]. specialize (Lt li L) as N1. unfold blank_at in N1.
    destruct (tget t (2 * li)) eqn:G; [|contradiction]. unfold add32, u32_max in *.
    destruct (N.leb_spec (li + 1) 4294967295); [|lia]. cbn [bind]. apply IH; lia.
Qed.

Lemma add_full t d l : full_size t d -> d <= 30 -> (forall j, j < 2 ^ d -> ~ blank_at t j) ->
  exists t', tree_add t l = Ok t' /\ full_size t' (d + 1) /\
  forall x, tget t' x = if x =? 2 * 2 ^ d then Some (Leaf l) else tget t x.
Proof.
  intros H Hd Lt. assert (U : usized t d) by (left; split; [exact H|lia]). pose proof (pow2_S d) as S1. pose proof (pow2_S (d + 1)) as S2. pose proof (pow2_pos d) as P.
  assert (M : 2 ^ d <= 2 ^ 30) by (apply pow2_mono, Hd). change (2 ^ 30) with 1073741824 in M. red in H.
  unfold tree_add. rewrite (find_blank_none t d U Lt (2 ^ d) 0); [|lia|unfold tlen in H; lia|lia|unfold u32_max; lia].
  cbn [bind]. unfold tlen32. rewrite H, N.mod_small by lia. unfold add32, u32_max.
  destruct (N.leb_spec (2 ^ (d + 1) - 1 + 1) 4294967295); [|lia]. cbn [bind].
  replace (2 ^ (d + 1) - 1 + 1) with (2 * 2 ^ d) by lia.
  set (t1 := (t ++ repeat None (S (length t)))%list).
  assert (L1 : tlen t1 = 2 ^ (d + 1 + 1) - 1). { unfold t1. rewrite tlen_app, tlen_repeat. unfold tlen in *. lia. }
  assert (U1 : usized t1 (d + 1)) by (left; split; [exact L1|lia]).
  rewrite (climb_leaf t1 (d + 1) (2 ^ d) U1) by lia. cbn [bind]. eexists. split; [reflexivity|]. split.
  { red. rewrite tlen_tset, fold_push_len. exact L1. }
  intros x. rewrite tget_tset, fold_push_len, L1. destruct (N.eqb_spec x (2 * 2 ^ d)) as [->|E].
  { destruct (N.ltb_spec (2 * 2 ^ d) (2 ^ (d + 1 + 1) - 1)); [reflexivity|lia]. }
  cbn [andb]. rewrite fold_push_get by apply NoDup_up. destruct (in_dec N.eq_dec x (up (d + 1) (2 ^ d))) as [I|I]; [|apply tget_app_blank].
  rewrite in_up in I. unfold t1. rewrite tget_app_blank. rewrite tget_beyond; [reflexivity|].
  destruct I as (k & j & Hk & -> & C). rewrite H. pose proof (node_at_S k j) as NS. destruct (N.eq_dec j 0) as [->|J].
  - destruct C as [_ C]. assert (K : 2 ^ d < 2 ^ k) by lia. apply pow2_lt_inv in K. assert (k = d + 1) by lia. subst k.  lia.
  - destruct C as [C1 C2]. assert (2 ^ d < (j + 1) * 2 ^ k) by exact C2. assert (K : k <= d). { destruct (N.le_gt_cases k d); [assumption|]. assert (k = d + 1) by lia. subst k. rewrite S1 in *. nia. }
    assert (Q : 2 ^ d = 2 ^ k * 2 ^ (d - k)) by (rewrite <- N.pow_add_r; f_equal; lia). pose proof (pow2_pos k).
    assert (j = 2 ^ (d - k)) by nia. subst j. nia.
Qed.

(** [remove] leaves arrays with one slot too many; [add] on such an array without a blank leaf. *)
Lemma add_cut_full t d l : cut_size t d -> d <= 29 -> (forall j, j < 2 ^ d -> ~ blank_at t j) ->
  exists t', tree_add t l = Ok t' /\ tlen t' = 2 * tlen t + 1 /\ tget t' (tlen t + 1) = Some (Leaf l) /\
  (forall j, tget t' (2 * j) = tget t (2 * j)).
Proof.
  intros H Hd Lt. assert (U : usized t d) by (right; split; [exact H|lia]). pose proof (pow2_S d) as S1. pose proof (pow2_S (d + 1)) as S2. pose proof (pow2_pos d) as P.
  assert (M : 2 ^ d <= 2 ^ 29) by (apply pow2_mono, Hd). change (2 ^ 29) with 536870912 in M. red in H.
  unfold tree_add. rewrite (find_blank_none t d U Lt (2 ^ d) 0); [|lia|unfold tlen in H; lia|lia|unfold u32_max; lia].
  cbn [bind]. unfold tlen32. rewrite H, N.mod_small by lia. unfold add32, u32_max.
  destruct (N.leb_spec (2 ^ (d + 1) + 1) 4294967295); [|lia]. cbn [bind].
  set (t1 := (t ++ repeat None (S (length t)))%list).
  assert (L1 : tlen t1 = 2 * 2 ^ (d + 1) + 1). { unfold t1. rewrite tlen_app, tlen_repeat. unfold tlen in *. lia. }
  assert (N1 : num_leaves t1 = 2 ^ (d + 1) + 1).
  { unfold num_leaves, tlen32. rewrite L1, N.mod_small by lia. unfold num_leaves_of_width. destruct (N.eqb_spec (2 * 2 ^ (d + 1) + 1) 0); [lia|].
    replace (2 * 2 ^ (d + 1) + 1 - 1) with (2 ^ (d + 1) * 2) by lia. rewrite N.div_mul by lia. reflexivity. }
  rewrite N1. set (n := 2 ^ (d + 1) + 1) in *.
  assert (Hn : 0 < n) by lia. assert (Ln : n <= 2147483648) by lia.
  assert (It : in_tree (depth n) n).
  { unfold in_tree. pose proof (depth_bounds n Hn) as [B _]. rewrite pow2_S. lia. }
  destruct (node_decomp n) as (k & j & E).
  assert (It' : in_tree (depth n) (node_at k j)) by (rewrite <- E; exact It).
  pose proof (direct_path_in n k j Hn Ln It') as D. unfold direct_path in D.
  assert (D' : climb 33 n n = Ok (path_up (N.to_nat (depth n - k)) k j)) by exact (eq_ind_r (fun y => climb 33 n y = _) D E).
  rewrite D'. cbn [bind]. eexists. split; [reflexivity|].
  split; [rewrite tlen_tset, fold_push_len, L1; lia|]. split.
  { apply tget_tset_same. rewrite fold_push_len, L1. unfold n. lia. }
  intros j'. assert (Ne : 2 * j' <> n). { unfold n. lia. }
  rewrite tget_tset_other by exact Ne.
  assert (G : forall path t0, (forall x, In x path -> x <> 2 * j') -> tget (fold_left (push_unmerged (2 ^ d)) path t0) (2 * j') = tget t0 (2 * j')).
  { induction path as [|p path IH]; intros t0 Hp; cbn [fold_left]; [reflexivity|]. rewrite IH by (intros; apply Hp; right; assumption).
    rewrite push_get. destruct (N.eqb_spec (2 * j') p) as [Ep|_]; [|reflexivity]. exfalso. apply (Hp p); [left; reflexivity|auto]. }
  rewrite G; [apply tget_app_blank|]. intros x Ix. apply path_up_in in Ix as (i & Hi & ->). rewrite <- node_at_leaf. intros Ex. apply node_at_inj in Ex. lia.
Qed.

Lemma add_empty l : tree_add [] l = Panic.
Proof. reflexivity. Qed.

(** * remove *)

Lemma scan_down_blank t d : usized t d -> forall k lp, N.of_nat k < 2 ^ d -> (forall j, j <= N.of_nat k -> blank_at t j) ->
  scan_down k t lp = Ok None.
Proof.
  intros H k. induction k as [|k IH]; intros lp Hk B; cbn [scan_down]; rewrite (node_index_ok d) by (eauto using usized_31); cbn [bind].
  - rewrite (B (N.of_nat 0)) by lia. reflexivity.
  - rewrite (B (N.of_nat (S k))) by lia. apply IH; [lia|]. intros j Hj. apply B. lia.
Qed.

Lemma size_bounds m : m < 2 ^ N.size m /\ (m = 0 \/ 2 ^ N.size m <= 2 * m).
Proof.
  split; [apply N.size_gt|]. destruct (N.eq_dec m 0) as [->|E]; [left; reflexivity|right].
  rewrite N.size_log2 by exact E. rewrite N.pow_succ_r'. pose proof (N.log2_spec m ltac:(lia)). lia.
Qed.

Lemma scan_down_some t d m : usized t d -> ~ blank_at t m -> forall k lp, N.of_nat k < 2 ^ d -> m <= N.of_nat k ->
  (forall j, m < j <= N.of_nat k -> blank_at t j) ->
  scan_down k t lp = Ok (Some (if 2 ^ N.size m <=? N.of_nat k then 2 * 2 ^ N.size m else lp)).
Proof.
  intros H NB k. destruct (size_bounds m) as [B1 B2]. induction k as [|k IH]; intros lp Hk Hm B; cbn [scan_down]; rewrite (node_index_ok d) by (eauto using usized_31); cbn [bind].
  - assert (m = 0) by lia. subst m. unfold blank_at in NB. change (2 * N.of_nat 0) with (2 * 0). destruct (tget t (2 * 0)); [|contradiction]. reflexivity.
  - destruct (N.eq_dec m (N.of_nat (S k))) as [E|E].
    + rewrite <- E in *. unfold blank_at in NB. destruct (tget t (2 * m)); [|contradiction].
      destruct (N.leb_spec (2 ^ N.size m) m); [lia|reflexivity].
    + rewrite (B (N.of_nat (S k))) by lia. rewrite IH by (try (intros; apply B); lia).
      do 2 f_equal. destruct (N.leb_spec (2 ^ N.size m) (N.of_nat k)).
      { destruct (N.leb_spec (2 ^ N.size m) (N.of_nat (S k))); [reflexivity|lia]. }
      assert (B2' : 2 ^ N.size m < 2 * (m + 1)). { destruct B2 as [->|B2]; [reflexivity|lia]. }
      destruct (is_power_of_two (2 * N.of_nat (S k))) eqn:Ep.
      * apply is_power_of_two_spec in Ep as [e Ep]. destruct (N.eq_dec e 0) as [->|E0]; [cbn in Ep; lia|].
        replace e with (e - 1 + 1) in Ep by lia. rewrite pow2_S in Ep.
        destruct (N.leb_spec (2 ^ N.size m) (N.of_nat (S k))) as [L|L]; [lia|]. exfalso.
        assert (X : 2 ^ (e - 1) < 2 ^ N.size m) by lia. apply pow2_lt_inv in X.
        assert (Y : 2 ^ N.size m < 2 ^ (e - 1 + 1)) by (rewrite pow2_S; lia). apply pow2_lt_inv in Y. lia.
      * destruct (N.leb_spec (2 ^ N.size m) (N.of_nat (S k))) as [L|L]; [|reflexivity]. exfalso.
        assert (X : is_power_of_two (2 * N.of_nat (S k)) = true); [|congruence]. apply is_power_of_two_spec. exists (N.size m + 1).
        rewrite pow2_S. lia.
Qed.

(** The last non-blank leaf, if any. *)
Lemma last_nonblank t k : (forall j, j <= N.of_nat k -> blank_at t j) \/
  exists m, m <= N.of_nat k /\ ~ blank_at t m /\ forall j, m < j <= N.of_nat k -> blank_at t j.
Proof.
  induction k as [|k IH].
  - destruct (tget t (2 * 0)) eqn:E.
    + right. exists 0. split; [lia|]. split; [unfold blank_at; rewrite E; discriminate|]. intros; lia.
    + left. intros j Hj. replace j with 0 by lia. exact E.
  - destruct (tget t (2 * N.of_nat (S k))) eqn:E.
    + right. exists (N.of_nat (S k)). split; [lia|]. split; [unfold blank_at; rewrite E; discriminate|]. intros; lia.
    + destruct IH as [IH|(m & L & NB & B)].
      * left. intros j Hj. destruct (N.eq_dec j (N.of_nat (S k))) as [->|]; [exact E|apply IH; lia].
      * right. exists m. split; [lia|]. split; [exact NB|]. intros j Hj. destruct (N.eq_dec j (N.of_nat (S k))) as [->|]; [exact E|apply B; lia].
Qed.

(** The tree after blanking leaf [i] and its ancestors. *)
Definition blanked (t : tree) (d i : N) : tree := fold_left blank (2 * i :: up d i) t.
Lemma blanked_len t d i : tlen (blanked t d i) = tlen t.
Proof. apply fold_blank_len. Qed.
Lemma blanked_get t d i x : (x = 2 * i \/ on_path d i x -> tget (blanked t d i) x = None) /\
  (x <> 2 * i -> ~ on_path d i x -> tget (blanked t d i) x = tget t x).
Proof.
  unfold blanked. rewrite fold_blank_get. destruct (in_dec N.eq_dec x (2 * i :: up d i)) as [I|I]; cbn [In] in I; rewrite in_up in I.
  - split; [reflexivity|]. intros A B. exfalso. destruct I as [I|I]; [apply A; auto|contradiction].
  - split; [|reflexivity]. intros [A|A]; exfalso; apply I; auto.
Qed.

Lemma remove_eq t d i : usized t d -> i < 2 ^ d ->
  (tree_remove t i = Ok [] /\ forall j, j < 2 ^ d -> blank_at (blanked t d i) j) \/
  (exists m, m < 2 ^ d /\ ~ blank_at (blanked t d i) m /\ (forall j, m < j < 2 ^ d -> blank_at (blanked t d i) j) /\
     tree_remove t i = Ok (if N.size m <? d then firstn (N.to_nat (2 ^ (N.size m + 1))) (blanked t d i) else blanked t d i)).
Proof.
  intros H Hi. pose proof (pow2_pos d) as P. unfold tree_remove. rewrite (node_index_ok d) by (eauto using usized_31). cbn [bind].
  rewrite (climb_leaf t d) by assumption. cbn [bind]. fold (blanked t d i). rewrite (usized_leaves t d H).
  unfold sub32. destruct (N.ltb_spec (2 ^ d) 1); [lia|]. cbn [bind].
  set (b := blanked t d i). assert (Hb : usized b d) by (eapply usized_same; [apply blanked_len|exact H]).
  destruct (last_nonblank b (N.to_nat (2 ^ d - 1))) as [A|(m & Lm & NB & B)]; rewrite ?N2Nat.id in *.
  - left. rewrite (scan_down_blank b d Hb) by (rewrite ?N2Nat.id; try lia; assumption). split; [reflexivity|]. intros j Hj. apply A. lia.
  - right. exists m. split; [lia|]. split; [exact NB|]. split; [intros; apply B; lia|].
    rewrite (scan_down_some b d m Hb NB) by (rewrite ?N2Nat.id; try lia; assumption). rewrite N2Nat.id. cbn [bind]. f_equal.
    pose proof (usized_len b d Hb) as UL. rewrite pow2_S in UL |- *.
    destruct (N.leb_spec (2 ^ N.size m) (2 ^ d - 1)) as [L|L].
    + assert (X : 2 ^ N.size m < 2 ^ d) by lia. apply pow2_lt_inv in X. destruct (N.ltb_spec (N.size m) d); [|lia].
      assert (Y : 2 ^ (N.size m + 1) <= 2 ^ d) by (apply pow2_mono; lia). rewrite pow2_S in Y.
      destruct (N.ltb_spec (2 * 2 ^ N.size m) (tlen b)) as [_|Z]; [reflexivity|]. exfalso. lia.
    + assert (X : 2 ^ d <= 2 ^ N.size m) by lia. apply pow2_le_inv in X. destruct (N.ltb_spec (N.size m) d); [lia|].
      destruct (N.ltb_spec (tlen b) (tlen b)); [lia|reflexivity].
Qed.

Definition member (t : tree) (j : N) : Prop := ~ blank_at t j.

Lemma remove_ok t d i : usized t d -> i < 2 ^ d -> exists t', tree_remove t i = Ok t' /\
  blank_at t' i /\ (forall x, on_path d i x -> tget t' x = None) /\
  (forall j, j < 2 ^ d -> j <> i -> tget t' (2 * j) = tget t (2 * j)) /\
  (forall x, x < tlen t' -> x <> 2 * i -> ~ on_path d i x -> tget t' x = tget t x) /\
  ( (t' = [] /\ forall j, j < 2 ^ d -> j <> i -> blank_at t j)
    \/ (exists e m, e < d /\ cut_size t' e /\ m < 2 ^ e /\ m <> i /\ ~ blank_at t m /\ (e = 0 \/ 2 ^ e <= 2 * m) /\
                    (forall j, j < 2 ^ d -> j <> i -> ~ blank_at t j -> j < 2 ^ e))
    \/ (tlen t' = tlen t /\ exists m, m < 2 ^ d /\ m <> i /\ ~ blank_at t m /\ 2 ^ d <= 2 * m) ).
Proof.
  intros H Hi. set (b := blanked t d i).
  assert (Hother : forall j, j <> i -> tget b (2 * j) = tget t (2 * j)).
  { intros j J. apply blanked_get; [lia|]. intros O. eapply on_path_odd; [exact O|reflexivity]. }
  destruct (remove_eq t d i H Hi) as [[E A]|(m & Lm & NB & B & E)]; [fold b in A|fold b in NB, B, E].
  - exists []. split; [exact E|]. split; [apply tget_beyond; cbn; lia|]. split; [intros; apply tget_beyond; cbn; lia|].
    split. { intros j Lj J. rewrite <- Hother by exact J. rewrite (A j Lj). apply tget_beyond. cbn. lia. }
    split; [cbn; intros; lia|]. left. split; [reflexivity|]. intros j Lj J. red. rewrite <- Hother by exact J. apply A, Lj.
  - assert (Mi : m <> i). { intros ->. apply NB. apply blanked_get. left. reflexivity. }
    assert (NBt : ~ blank_at t m). { unfold blank_at. rewrite <- Hother by exact Mi. exact NB. }
    destruct (size_bounds m) as [B1 B2]. eexists. split; [exact E|].
    destruct (N.ltb_spec (N.size m) d) as [L|L].
    + set (w := 2 ^ (N.size m + 1)) in *.
      assert (W : w <= tlen b). { unfold b. rewrite blanked_len. pose proof (usized_len t d H). assert (w <= 2 ^ d) by (apply pow2_mono; lia). rewrite pow2_S in *. pose proof (pow2_pos d). lia. }
      assert (Gw : forall x, tget (firstn (N.to_nat w) b) x = if x <? w then tget b x else None) by (intros; apply tget_firstn).
      split. { red. rewrite Gw. destruct (N.ltb_spec (2 * i) w); [|reflexivity]. apply blanked_get. left. reflexivity. }
      split. { intros x O. rewrite Gw. destruct (N.ltb_spec x w); [|reflexivity]. apply blanked_get. right. exact O. }
      split. { intros j Lj J. rewrite Gw. destruct (N.ltb_spec (2 * j) w) as [X|X]; [apply Hother, J|].
        rewrite <- Hother by exact J. symmetry. apply B. unfold w in X. rewrite pow2_S in X. lia. }
      split. { intros x Lx X O. rewrite tlen_firstn in Lx by exact W. rewrite Gw. destruct (N.ltb_spec x w); [|lia]. apply blanked_get; assumption. }
      right. left. exists (N.size m), m. split; [exact L|]. split; [apply tlen_firstn; exact W|]. split; [exact B1|]. split; [exact Mi|]. split; [exact NBt|].
      split. { destruct B2 as [->|B2]; [left; reflexivity|right; exact B2]. }
      intros j Lj J NBj. destruct (N.lt_ge_cases m j) as [X|X]; [|lia]. exfalso. apply NBj. red. rewrite <- Hother by exact J. apply B. lia.
    + split. { apply blanked_get. left. reflexivity. }
      split. { intros x O. apply blanked_get. right. exact O. }
      split. { intros j Lj J. apply Hother, J. }
      split. { intros x Lx X O. apply blanked_get; assumption. }
      right. right. split; [apply blanked_len|]. exists m. split; [exact Lm|]. split; [exact Mi|]. split; [exact NBt|].
      assert (X : 2 ^ d <= 2 ^ N.size m) by (apply pow2_mono, L). destruct B2 as [->|B2]; [|lia].
      cbn in L. assert (d = 0) by lia. subst d. cbn in *. lia.
Qed.
