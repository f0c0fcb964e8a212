(** Ratchet-tree encoding: blank trimming and padding. *)
From Verif Require Export WireCodecs.
Local Open Scope N_scope.

Lemma pow2_pos k : 0 < 2 ^ k.
Proof. apply N.neq_0_lt_0, N.pow_nonzero. lia. Qed.

Lemma is_power_of_two_spec x : is_power_of_two x = true <-> exists k, x = 2 ^ k.
Proof.
  unfold is_power_of_two. rewrite andb_true_iff, negb_true_iff, N.eqb_neq, N.eqb_eq. split.
  - intros [Hx Hl]. exists (N.log2 x). destruct (N.eq_dec x (2 ^ N.log2 x)) as [E|E]; [exact E|exfalso].
    assert (L : 2 ^ N.log2 x <= x < 2 ^ N.succ (N.log2 x)) by (apply N.log2_spec; lia).
    assert (B : N.testbit (N.land x (x - 1)) (N.log2 x) = true).
    { rewrite N.land_spec, N.bit_log2 by exact Hx. cbn [andb].
      replace (N.log2 x) with (N.log2 (x - 1)) by (apply N.log2_unique; lia).
      apply N.bit_log2. pose proof (pow2_pos (N.log2 x)). lia. }
    rewrite Hl, N.bits_0 in B. discriminate.
  - intros [k ->]. pose proof (pow2_pos k). split; [lia|].
    replace (2 ^ k - 1) with (N.ones k) by (rewrite N.ones_equiv; lia).
    rewrite N.land_ones. apply N.mod_same. lia.
Qed.

(** A list of nodes whose last entry is not blank. *)
Definition no_trailing_blank (t : ratchet_tree) : Prop := forall t', t <> t' ++ [None].

Lemma trim_blank_spec t : exists m, t = trim_blank t ++ repeat None m.
Proof.
  induction t as [|x t [m IH]]; [exists O; reflexivity|]. cbn [trim_blank]. destruct x as [x|].
  - exists m. cbn. congruence.
  - destruct (trim_blank t) as [|y r] eqn:E.
    + exists (S m). cbn. cbn in IH. congruence.
    + exists m. cbn. cbn in IH. congruence.
Qed.

Lemma last_app_inv {A} (l : list A) x t y : t ++ [y] = x :: l -> l = [] /\ x = y /\ t = [] \/ exists t', t = x :: t' /\ l = t' ++ [y].
Proof. destruct t as [|z t]; cbn; intros H; inversion H; subst; [left; auto|right; eauto]. Qed.

Lemma trim_blank_no_trailing t : no_trailing_blank (trim_blank t).
Proof.
  induction t as [|x t IH]; cbn [trim_blank].
  - intros t' H. destruct t'; discriminate.
  - assert (G : forall r, trim_blank t = r -> forall y : node, no_trailing_blank (Some y :: r)).
    { intros r <- y t' H. symmetry in H. apply last_app_inv in H as [(_ & H & _)|(t'' & _ & H)]; [discriminate|].
      exact (IH t'' H). }
    destruct x as [y|]; [apply (G _ eq_refl)|].
    destruct (trim_blank t) as [|z r] eqn:E.
    + intros t' H. destruct t'; discriminate.
    + intros t' H. symmetry in H. apply last_app_inv in H as [(H & _)|(t'' & _ & H)]; [discriminate|].
      exact (IH t'' H).
Qed.

Lemma trim_blank_unique c m : no_trailing_blank c -> trim_blank (c ++ repeat None m) = c.
Proof.
  intros H. assert (R : trim_blank (repeat None m) = []).
  { induction m as [|m IH]; [reflexivity|]. cbn. rewrite IH. reflexivity. }
  revert H. induction c as [|x c IH]; intros H; cbn [app trim_blank]; [exact R|].
  assert (Hc : no_trailing_blank c) by (intros t' E; apply (H (x :: t')); cbn; congruence).
  rewrite (IH Hc). destruct x as [x|]; [reflexivity|].
  destruct c as [|y c]; [exfalso; apply (H []); reflexivity|reflexivity].
Qed.

Lemma wf_trim t : wf_tree t -> wf_tree (trim_blank t).
Proof.
  intros W. destruct (trim_blank_spec t) as [m E]. unfold wf_tree in *. rewrite E in W.
  apply Forall_app in W. tauto.
Qed.

(** [padded l t]: [t] is [l] followed by the least number of blanks that make the length 2^k - 1. *)
Definition padded (l t : ratchet_tree) : Prop :=
  exists n k, t = l ++ repeat None n /\ N.of_nat (length t) + 1 = 2 ^ k /\
              forall j, N.of_nat (length l) + 1 <= 2 ^ j -> k <= j.

Lemma pad_blank_ok fuel : forall l t, pad_blank fuel l = Ok t -> padded l t.
Proof.
  assert (Base : forall l, is_power_of_two (N.of_nat (length l) + 1) = true -> padded l l).
  { intros l H. apply is_power_of_two_spec in H as [k Hk]. exists O, k. cbn. rewrite app_nil_r.
    split; [reflexivity|]. split; [exact Hk|]. intros j Hj. rewrite Hk in Hj.
    apply N.pow_le_mono_r_iff in Hj; lia. }
  induction fuel as [|fuel IH]; intros l t H; cbn [pad_blank] in H;
    destruct (is_power_of_two (N.of_nat (length l) + 1)) eqn:E; try discriminate.
  - inversion H; subst. auto.
  - inversion H; subst. auto.
  - apply IH in H as (n & k & -> & L & Least). exists (S n), k. rewrite <- app_assoc. cbn. split; [reflexivity|].
    split; [rewrite <- app_assoc in L; exact L|]. intros j Hj. apply Least. rewrite app_length; cbn [length].
    destruct (N.eq_dec (N.of_nat (length l) + 1) (2 ^ j)) as [K|K]; [|lia].
    exfalso. assert (is_power_of_two (N.of_nat (length l) + 1) = true) by (apply is_power_of_two_spec; eauto).
    congruence.
Qed.

Lemma pad_blank_total fuel : forall l k, N.of_nat (length l) + 1 <= 2 ^ k ->
  2 ^ k <= N.of_nat (length l) + 1 + N.of_nat fuel -> exists t, pad_blank fuel l = Ok t.
Proof.
  induction fuel as [|fuel IH]; intros l k H1 H2; cbn [pad_blank].
  - assert (E : N.of_nat (length l) + 1 = 2 ^ k) by lia.
    rewrite E. replace (is_power_of_two (2 ^ k)) with true by (symmetry; apply is_power_of_two_spec; eauto). eauto.
  - destruct (is_power_of_two (N.of_nat (length l) + 1)) eqn:E; [eauto|].
    apply (IH _ k); rewrite app_length; cbn [length].
    + destruct (N.eq_dec (N.of_nat (length l) + 1) (2 ^ k)) as [K|K]; [|lia].
      exfalso. assert (is_power_of_two (N.of_nat (length l) + 1) = true) by (apply is_power_of_two_spec; eauto).
      congruence.
    + lia.
Qed.

Lemma pad_blank_returns l : exists t, pad_blank (length l + 1) l = Ok t /\ padded l t.
Proof.
  set (x := N.of_nat (length l) + 1).
  assert (H : exists k, x <= 2 ^ k /\ 2 ^ k < 2 * x).
  { destruct (is_power_of_two x) eqn:E.
    - apply is_power_of_two_spec in E as [k Hk]. exists k. pose proof (pow2_pos k). lia.
    - assert (L : 2 ^ N.log2 x <= x < 2 ^ N.succ (N.log2 x)) by (apply N.log2_spec; lia).
      exists (N.succ (N.log2 x)). rewrite N.pow_succ_r' in *.
      assert (2 ^ N.log2 x <> x) by (intros K; assert (is_power_of_two x = true) by (apply is_power_of_two_spec; eauto); congruence).
      lia. }
  destruct H as (k & H1 & H2).
  destruct (pad_blank_total (length l + 1) l k) as [t Ht]; [exact H1|lia|].
  exists t. split; [exact Ht|]. eapply pad_blank_ok; eassumption.
Qed.

Lemma padded_fun l t t' : padded l t -> padded l t' -> t = t'.
Proof.
  intros (n & k & -> & L & Lst) (n' & k' & -> & L' & Lst').
  rewrite app_length, repeat_length in L, L'.
  assert (k <= k') by (apply Lst; lia). assert (k' <= k) by (apply Lst'; lia).
  assert (k = k') by lia. subst. replace n' with n by lia. reflexivity.
Qed.

Lemma codec_tree_list : codec (Forall (opt_P wf_node)) (se_vector (se_option se_node)) (de_vector (de_option de_node)).
Proof. exact (codec_vector _ _ _ (codec_option _ _ _ codec_node) (ne_option _)). Qed.

Lemma tree_roundtrip t p rest : wf_tree t -> se_ratchet_tree t = Ok p ->
  exists t', de_ratchet_tree (p ++ rest) = Ok (t', rest) /\ padded (trim_blank t) t'.
Proof.
  intros W H. unfold se_ratchet_tree in H. unfold de_ratchet_tree.
  rewrite (codec_rt codec_tree_list _ _ rest (wf_trim t W) H). cbn [bind].
  destruct (pad_blank_returns (trim_blank t)) as (t' & E & P). rewrite E. exists t'. auto.
Qed.

Lemma tree_decode bs t rest : de_ratchet_tree bs = Ok (t, rest) ->
  wf_tree t /\ exists l p, se_vector (se_option se_node) l = Ok p /\ bs = p ++ rest /\ padded l t.
Proof.
  unfold de_ratchet_tree. intros H. apply bind_ok in H as ([l r] & Hl & H).
  apply (codec_can codec_tree_list) in Hl as (W & p & Hp & ->).
  apply bind_ok in H as (t' & Ht & H). inversion H; subst.
  apply pad_blank_ok in Ht. split; [|eauto].
  destruct Ht as (n & k & -> & _). unfold wf_tree. apply Forall_app. split; [exact W|].
  clear. induction n as [|n IH]; cbn [repeat]; constructor; [exact I|exact IH].
Qed.

#[export] Instance safe_ratchet_tree : desafe false de_ratchet_tree.
Proof.
  intros bs. unfold de_ratchet_tree. safe_step; [safe_step|].
  destruct (pad_blank_returns l) as (t & -> & _). exact I.
Qed.
#[export] Instance sizing_ratchet_tree : sizing fits_ratchet_tree se_ratchet_tree.
Proof. intros t. unfold fits_ratchet_tree, se_ratchet_tree. sized_step. Qed.

Lemma tree_identity t p : wf_tree t -> se_ratchet_tree t = Ok p ->
  (de_ratchet_tree p = Ok (t, []) <-> padded (trim_blank t) t).
Proof.
  intros W H. destruct (tree_roundtrip t p [] W H) as (t' & E & P). rewrite app_nil_r in E. rewrite E. split.
  - intros K. inversion K; subst. exact P.
  - intros K. rewrite (padded_fun _ _ _ P K). reflexivity.
Qed.
Lemma tree_identity_form t p : wf_tree t -> se_ratchet_tree t = Ok p ->
  (de_ratchet_tree p = Ok (t, []) <-> exists c n k, t = c ++ repeat None n /\ (forall c', c <> c' ++ [None]) /\
     N.of_nat (length t) + 1 = 2 ^ k /\ (forall j, N.of_nat (length c) + 1 <= 2 ^ j -> k <= j)).
Proof.
  intros W H. rewrite (tree_identity t p W H). split.
  - intros (n & k & E & L & M). exists (trim_blank t), n, k. repeat split; auto. apply trim_blank_no_trailing.
  - intros (c & n & k & E & T & L & M). rewrite E at 1. rewrite (trim_blank_unique c n T). exists n, k. auto.
Qed.
