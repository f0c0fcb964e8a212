(** Proofs about the key schedule. *)
From Coq Require Import ZifyBool ZifyNat ZifyN.
From Verif Require Import CodecLib WireCodecs CodecFacts SecretFacts SpecSecrets ExProvider Examples.
Local Open Scope N_scope.

Lemma expand_iff P cs k s l c n b : p_hpke P cs = Ok k -> fits30 (mls_label l) ->
  (expand_with_label P cs s l c n = Ok b <-> fits30 c /\ expand_label k s l c n = Ok b).
Proof.
  intros K L. split.
  - intros H. apply expand_ok in H as (k' & K' & _ & C & H). rewrite K in K'. apply Ok_inj in K'. subst k'. auto.
  - intros [C H]. rewrite (c38_expand P cs k); assumption.
Qed.

(** ** Joiner, epoch and welcome secrets *)
Lemma joiner_iff P g k init commit s : p_hpke P (gc_suite g) = Ok k ->
  (extract_joiner_secret P g init commit = Ok s <-> joiner_secret k g init commit s).
Proof.
  intros K. unfold extract_joiner_secret, joiner_secret. rewrite K. cbn [bind]. split.
  - intros H. apply bind_ok in H as (e & E & H). apply bind_ok in H as (raw & R & H).
    apply (expand_iff P _ k) in H as [F H]; [|exact K|reflexivity]. exists e, raw. auto.
  - intros (e & raw & E & R & F & H). rewrite E, R. cbn [bind]. apply (expand_iff P _ k); [exact K|reflexivity|auto].
Qed.
Lemma epoch_iff P g k joiner psk s : p_hpke P (gc_suite g) = Ok k ->
  (extract_epoch_secret P g joiner psk = Ok s <-> epoch_secret k g joiner psk s).
Proof.
  intros K. unfold extract_epoch_secret, epoch_secret. rewrite K. cbn [bind]. change zeros with zero_bytes. fold (psk_or_zero k psk). split.
  - intros H. apply bind_ok in H as (e & E & H). apply bind_ok in H as (raw & R & H).
    apply (expand_iff P _ k) in H as [F H]; [|exact K|reflexivity]. exists e, raw. auto.
  - intros (e & raw & E & R & F & H). rewrite E, R. cbn [bind]. apply (expand_iff P _ k); [exact K|reflexivity|auto].
Qed.
Lemma welcome_iff P cs k joiner psk s : p_hpke P cs = Ok k ->
  (extract_welcome_secret P cs joiner psk = Ok s <-> welcome_secret k joiner psk s).
Proof.
  intros K. unfold extract_welcome_secret, welcome_secret, derive_secret. rewrite K. cbn [bind]. change zeros with zero_bytes. fold (psk_or_zero k psk). split.
  - intros H. apply bind_ok in H as (e & E & H).
    apply (expand_iff P _ k) in H as [F H]; [|exact K|reflexivity]. exists e. auto.
  - intros (e & E & H). rewrite E. cbn [bind]. apply (expand_iff P _ k); [exact K|reflexivity|]. split; [reflexivity|exact H].
Qed.

Lemma collide_or {f a b a' b' o} : f a b = Ok o -> f a' b' = Ok o -> (a = a' /\ b = b') \/ collide f a b a' b'.
Proof.
  intros H H'. destruct (list_eq_dec Byte.byte_eq_dec a a') as [->|N]; [destruct (list_eq_dec Byte.byte_eq_dec b b') as [->|N]|].
  - auto.
  - right. split; [congruence|eauto].
  - right. split; [congruence|eauto].
Qed.
Lemma expand_collide {k l raw raw' e e' s} : fits30 (mls_label l) -> fits30 raw -> fits30 raw' ->
  expand_label k e l raw (nh k) = Ok s -> expand_label k e' l raw' (nh k) = Ok s ->
  (e = e' /\ raw = raw') \/ collide (fun s i => k_expand k s i (nh k)) e (kdf_label l raw (nh k)) e' (kdf_label l raw' (nh k)).
Proof.
  intros L F F' H H'. destruct (collide_or (f := fun s i => k_expand k s i (nh k)) H H') as [[E1 E2]|C]; [|auto]. left. split; [exact E1|].
  assert (N : nh k < 65536) by (apply N.mod_lt; lia). apply (kdf_label_inj _ _ _ _ _ _ L F L F' N N E2).
Qed.

Lemma c40_binds k g g' j j' psk psk' s : wf_group_context g -> wf_group_context g' ->
  epoch_secret k g j psk s -> epoch_secret k g' j' psk' s ->
  (g = g' /\ j = j' /\ psk_or_zero k psk = psk_or_zero k psk') \/
  collide (k_extract k) (psk_or_zero k psk) j (psk_or_zero k psk') j' \/
  exists e e' raw raw', k_extract k (psk_or_zero k psk) j = Ok e /\ k_extract k (psk_or_zero k psk') j' = Ok e' /\
    se_group_context g = Ok raw /\ se_group_context g' = Ok raw' /\
    collide (fun s i => k_expand k s i (nh k)) e (kdf_label (str "epoch") raw (nh k)) e' (kdf_label (str "epoch") raw' (nh k)).
Proof.
  intros W W' (e & raw & E & R & F & H) (e' & raw' & E' & R' & F' & H').
  destruct (expand_collide (l := str "epoch") eq_refl F F' H H') as [[Q1 Q2]|C].
  - subst e' raw'. destruct (collide_or E E') as [[Q3 Q4]|C]; [|auto]. left.
    split; [exact (codec_inj codec_group_context g g' raw W W' R R')|auto].
  - right. right. exists e, e', raw, raw'. auto.
Qed.
Lemma c40_joiner_binds k g g' i i' c c' s : wf_group_context g -> wf_group_context g' ->
  joiner_secret k g i c s -> joiner_secret k g' i' c' s ->
  (g = g' /\ i = i' /\ c = c') \/
  collide (k_extract k) c i c' i' \/
  exists e e' raw raw', k_extract k c i = Ok e /\ k_extract k c' i' = Ok e' /\
    se_group_context g = Ok raw /\ se_group_context g' = Ok raw' /\
    collide (fun s i => k_expand k s i (nh k)) e (kdf_label (str "joiner") raw (nh k)) e' (kdf_label (str "joiner") raw' (nh k)).
Proof.
  intros W W' (e & raw & E & R & F & H) (e' & raw' & E' & R' & F' & H').
  destruct (expand_collide (l := str "joiner") eq_refl F F' H H') as [[Q1 Q2]|C].
  - subst e' raw'. destruct (collide_or E E') as [[Q3 Q4]|C]; [|auto]. left.
    split; [exact (codec_inj codec_group_context g g' raw W W' R R')|auto].
  - right. right. exists e, e', raw, raw'. auto.
Qed.
Lemma c40_omitted P g cs k j : p_hpke P (gc_suite g) = Ok k -> p_hpke P cs = Ok k ->
  extract_epoch_secret P g j [] = extract_epoch_secret P g j (zero_bytes (k_extract_size k)) /\
  extract_welcome_secret P cs j [] = extract_welcome_secret P cs j (zero_bytes (k_extract_size k)) /\
  extract_psk_secret P cs [] [] = Ok (zero_bytes (k_extract_size k)).
Proof.
  intros K K'. unfold extract_epoch_secret, extract_welcome_secret, extract_psk_secret. rewrite K, K'. cbn [bind length Nat.eqb negb].
  change zeros with zero_bytes; split; [|split; [|reflexivity]]; destruct (zero_bytes (k_extract_size k)); reflexivity.
Qed.

(** ** PSK secret *)
Lemma psk_loop_chain P cs k n : p_hpke P cs = Ok k -> forall l pre acc s,
  psk_chain wrapped k n pre acc ->
  psk_loop P cs (zero_bytes (k_extract_size k)) (k_extract_size k) n (N.of_nat (length pre)) l acc = Ok s ->
  psk_chain wrapped k n (pre ++ l) s.
Proof.
  intros K. induction l as [|[id psk] l IH]; intros pre acc s C H.
  { cbn in H. apply Ok_inj in H. subst. rewrite app_nil_r. exact C. }
  cbn [psk_loop] in H. rewrite K in H. cbn [bind] in H. apply bind_ok in H as (ex & E & H). apply bind_ok in H as (raw & R & H).
  apply bind_ok in H as (inp & I & H). apply bind_ok in H as (acc' & A & H).
  apply (expand_iff P _ k) in I as [F I]; [|exact K|reflexivity].
  replace (pre ++ (id, psk) :: l)%list with ((pre ++ [(id, psk)]) ++ l)%list by (rewrite <- app_assoc; reflexivity).
  apply (IH _ acc').
  - econstructor; [exact C| |exact A]. split; [exact E|]. split; [exact R|]. split; [exact F|exact I].
  - rewrite app_length. cbn [length]. replace (N.of_nat (length pre + 1)) with (N.of_nat (length pre) + 1) by lia. exact H.
Qed.
Lemma chain_nil w k n s : psk_chain w k n [] s -> s = zero_bytes (k_extract_size k).
Proof. intros C. inversion C as [|l ? ? ? ? ? ? ? ? ? ? E]; [reflexivity|]. destruct l; discriminate. Qed.
Lemma chain_snoc w k n l id psk s' : psk_chain w k n (l ++ [(id, psk)]) s' ->
  exists s ex raw inp, psk_chain w k n l s /\ psk_input w k n (N.of_nat (length l)) id psk ex raw inp /\ k_extract k s inp = Ok s'.
Proof.
  intros C. inversion C as [E|l0 id0 psk0 s ex raw inp s0 C0 I X E].
  - destruct l; discriminate.
  - apply app_inj_tail in E as [-> E]. injection E as -> ->. eauto 10.
Qed.
Lemma chain_prefix w k n l2 : forall l1 s, psk_chain w k n (l1 ++ l2) s -> exists s1, psk_chain w k n l1 s1.
Proof.
  induction l2 as [|x l2 IH] using rev_ind; intros l1 s C; [rewrite app_nil_r in C; eauto|].
  rewrite app_assoc in C. destruct x as [id psk]. apply chain_snoc in C as (s' & _ & _ & _ & C & _). eauto.
Qed.
Lemma chain_det w k n l : forall s s', psk_chain w k n l s -> psk_chain w k n l s' -> s = s'.
Proof.
  induction l as [|[id psk] l IH] using rev_ind; intros s s' C C'; [apply chain_nil in C; apply chain_nil in C'; congruence|].
  apply chain_snoc in C as (a & ex & raw & inp & C & (E1 & E2 & _ & E3) & X). apply chain_snoc in C' as (a' & ex' & raw' & inp' & C' & (E1' & E2' & _ & E3') & X').
  specialize (IH _ _ C C'). subst a'. congruence.
Qed.
Lemma chain_loop P cs k n : p_hpke P cs = Ok k -> forall l pre acc s,
  psk_chain wrapped k n pre acc -> psk_chain wrapped k n (pre ++ l) s ->
  psk_loop P cs (zero_bytes (k_extract_size k)) (k_extract_size k) n (N.of_nat (length pre)) l acc = Ok s.
Proof.
  intros K. induction l as [|[id psk] l IH]; intros pre acc s C H.
  { rewrite app_nil_r in H. rewrite (chain_det _ _ _ _ _ _ C H). reflexivity. }
  replace (pre ++ (id, psk) :: l)%list with ((pre ++ [(id, psk)]) ++ l)%list in H by (rewrite <- app_assoc; reflexivity).
  destruct (chain_prefix _ _ _ _ _ _ H) as [s1 C1]. pose proof C1 as C1'. apply chain_snoc in C1' as (a & ex & raw & inp & C' & (E & R & F & I) & X).
  rewrite <- (chain_det _ _ _ _ _ _ C C') in X.
  cbn [psk_loop]. rewrite K. cbn [bind]. rewrite E. cbn [bind]. unfold wrapped in R. rewrite R. cbn [bind].
  assert (I' : expand_with_label P cs ex (str "derived psk") raw (nh k) = Ok inp) by (apply (expand_iff P cs k); [exact K|reflexivity|auto]).
  unfold nh in I'. rewrite I'. cbn [bind]. rewrite X. cbn [bind].
  replace (N.of_nat (length pre) + 1) with (N.of_nat (length (pre ++ [(id, psk)]))) by (rewrite app_length; cbn [length]; lia).
  apply IH; assumption.
Qed.
Lemma c39_fold P cs k ids psks s : p_hpke P cs = Ok k -> length ids = length psks ->
  (extract_psk_secret P cs ids psks = Ok s <-> psk_chain wrapped k (N.of_nat (length ids)) (combine ids psks) s).
Proof.
  intros K L. unfold extract_psk_secret. rewrite L, Nat.eqb_refl. cbn [negb]. rewrite K. cbn [bind]. change zeros with zero_bytes. split.
  - intros H. apply (psk_loop_chain P cs k _ K (combine ids psks) [] _ s (psk_none _ _ _)) in H. exact H.
  - intros H. exact (chain_loop P cs k _ K (combine ids psks) [] _ s (psk_none _ _ _) H).
Qed.
Lemma chain_wrapped k n l s : (N.of_nat (length l) <= n -> n < 65536 -> psk_chain wrapped k n l s <-> psk_chain plain k n l s)%N.
Proof.
  revert s. induction l as [|[id psk] l IH] using rev_ind; intros s L H.
  - split; intros C; apply chain_nil in C; subst; constructor.
  - rewrite app_length in L. cbn [length] in L. specialize (IH) .
    assert (E1 : wrapped (N.of_nat (length l)) = N.of_nat (length l)) by (apply N.mod_small; lia).
    assert (E2 : wrapped n = n) by (apply N.mod_small; lia).
    split; intros C; apply chain_snoc in C as (a & ex & raw & inp & C & (X1 & X2 & X3 & X4) & X).
    + apply IH in C; [|lia|lia]. econstructor; [exact C| |exact X]. rewrite E1, E2 in X2. split; [exact X1|]. split; [exact X2|]. auto.
    + apply IH in C; [|lia|lia]. econstructor; [exact C| |exact X]. split; [exact X1|]. rewrite E1, E2. split; [exact X2|]. auto.
Qed.
Lemma c39_rfc P cs k ids psks s : p_hpke P cs = Ok k -> length ids = length psks -> N.of_nat (length ids) < 65536 ->
  (extract_psk_secret P cs ids psks = Ok s <-> psk_chain plain k (N.of_nat (length ids)) (combine ids psks) s).
Proof.
  intros K L H. rewrite (c39_fold P cs k ids psks s K L). apply chain_wrapped; [|exact H]. rewrite combine_length. lia.
Qed.
Lemma c39_mismatch P cs ids psks : length ids <> length psks -> extract_psk_secret P cs ids psks = Err PskIDsAndPskLenNotMatch.
Proof. intros N. unfold extract_psk_secret. destruct (Nat.eqb_spec (length ids) (length psks)); [contradiction|reflexivity]. Qed.
Lemma c39_labels id id' i i' n n' b : wf_psk_id id -> wf_psk_id id' -> i < 65536 -> i' < 65536 -> n < 65536 -> n' < 65536 ->
  se_psk_label (MkPskLabel id i n) = Ok b -> se_psk_label (MkPskLabel id' i' n') = Ok b -> id = id' /\ i = i' /\ n = n'.
Proof.
  intros W W' I I' C C' H H'.
  assert (E : MkPskLabel id i n = MkPskLabel id' i' n').
  { apply (codec_inj codec_psk_label _ _ b); [| |exact H|exact H']; repeat split; assumption. }
  injection E as -> -> ->. auto.
Qed.

(** Equal secrets of two prefixes of two lists: equal prefixes, or a collision at some position. *)
Lemma binds_step k l l' p id psk q p' id' psk' q' s : N.of_nat (length l) < 65536 -> N.of_nat (length l') < 65536 ->
  l = (p ++ (id, psk) :: q)%list -> l' = (p' ++ (id', psk') :: q')%list -> wf_psk_id id -> wf_psk_id id' ->
  psk_chain plain k (N.of_nat (length l)) (p ++ [(id, psk)]) s -> psk_chain plain k (N.of_nat (length l')) (p' ++ [(id', psk')]) s ->
  psk_collision k l l' \/
  (id = id' /\ psk = psk' /\ length p = length p' /\ length l = length l' /\
   exists a, psk_chain plain k (N.of_nat (length l)) p a /\ psk_chain plain k (N.of_nat (length l')) p' a).
Proof.
  intros B B' E E' W W' C C'.
  apply chain_snoc in C as (a & ex & raw & inp & C & I & X). apply chain_snoc in C' as (a' & ex' & raw' & inp' & C' & I' & X').
  assert (S : psk_step k l a psk ex raw inp) by (exists p, id, q; auto).
  assert (S' : psk_step k l' a' psk' ex' raw' inp') by (exists p', id', q'; auto).
  destruct (collide_or X X') as [[Q1 Q2]|Q]; [|left; unfold psk_collision; eauto 16].
  subst a' inp'. destruct I as (I1 & I2 & I3 & I4), I' as (I1' & I2' & I3' & I4').
  destruct (expand_collide (l := str "derived psk") eq_refl I3 I3' I4 I4') as [[Q1 Q2]|Q]; [|left; unfold psk_collision; eauto 16].
  subst ex' raw'. destruct (collide_or I1 I1') as [[Q1 _]|Q]; [|left; unfold psk_collision; eauto 16].
  assert (L : (length p < length l)%nat) by (subst l; rewrite app_length; cbn; lia).
  assert (L' : (length p' < length l')%nat) by (subst l'; rewrite app_length; cbn; lia).
  unfold plain in I2, I2'. destruct (c39_labels id id' (N.of_nat (length p)) (N.of_nat (length p')) (N.of_nat (length l)) (N.of_nat (length l')) raw) as (P1 & P2 & P3); try assumption; try lia.
  right. split; [exact P1|]. split; [exact Q1|]. split; [lia|]. split; [lia|]. eauto.
Qed.
Lemma binds_prefix k l l' : N.of_nat (length l) < 65536 -> N.of_nat (length l') < 65536 ->
  Forall (fun x => wf_psk_id (fst x)) l -> Forall (fun x => wf_psk_id (fst x)) l' -> forall p q p' q' s,
  l = (p ++ q)%list -> l' = (p' ++ q')%list -> length p = length p' ->
  psk_chain plain k (N.of_nat (length l)) p s -> psk_chain plain k (N.of_nat (length l')) p' s -> p = p' \/ psk_collision k l l'.
Proof.
  intros B B' W W'. induction p as [|[id psk] p IH] using rev_ind; intros q p' q' s E E' L C C'.
  { destruct p'; [auto|discriminate]. }
  destruct p' as [|[id' psk'] p' _] using rev_ind; [rewrite app_length in L; cbn in L; lia|].
  rewrite <- app_assoc in E, E'. cbn in E, E'.
  assert (Wi : wf_psk_id id /\ wf_psk_id id').
  { rewrite E in W. rewrite E' in W'. apply Forall_app in W as [_ W]. apply Forall_app in W' as [_ W']. apply Forall_inv in W, W'. auto. }
  destruct Wi as [Wi Wi'].
  destruct (binds_step k l l' p id psk q p' id' psk' q' s B B' E E' Wi Wi' C C') as [Q|(-> & -> & Lp & _ & a & A & A')]; [auto|].
  destruct (IH _ _ _ a E E' Lp A A') as [->|Q]; auto.
Qed.
Lemma c39_chain_binds k l l' s : N.of_nat (length l) < 65536 -> N.of_nat (length l') < 65536 ->
  Forall (fun x => wf_psk_id (fst x)) l -> Forall (fun x => wf_psk_id (fst x)) l' -> l <> [] -> l' <> [] ->
  psk_chain plain k (N.of_nat (length l)) l s -> psk_chain plain k (N.of_nat (length l')) l' s -> l = l' \/ psk_collision k l l'.
Proof.
  intros B B' W W' N N' C C'.
  destruct (@exists_last _ l N) as (p & [id psk] & E). destruct (@exists_last _ l' N') as (p' & [id' psk'] & E').
  assert (Wi : wf_psk_id id /\ wf_psk_id id').
  { rewrite E in W. rewrite E' in W'. apply Forall_app in W as [_ W]. apply Forall_app in W' as [_ W']. apply Forall_inv in W, W'. auto. }
  destruct Wi as [Wi Wi']. rewrite E in C at 2. rewrite E' in C' at 2.
  destruct (binds_step k l l' p id psk [] p' id' psk' [] s B B' E E' Wi Wi' C C') as [Q|(-> & -> & Lp & _ & a & A & A')]; [auto|].
  destruct (binds_prefix k l l' B B' W W' p _ p' _ a E E' Lp A A') as [->|Q]; [|auto]. left. congruence.
Qed.

Lemma combine_fst {A B} (P : A -> Prop) (l : list A) (l' : list B) : Forall P l -> Forall (fun x => P (fst x)) (combine l l').
Proof. intros F. revert l'. induction F as [|a l H F IH]; intros [|b l']; cbn; constructor; auto. Qed.
Lemma combine_inj {A B} (l m : list A) (l' m' : list B) : length l = length l' -> length m = length m' -> combine l l' = combine m m' -> l = m /\ l' = m'.
Proof.
  intros H H' E. pose proof (combine_split l l' H) as S. pose proof (combine_split m m' H') as S'. rewrite E in S. rewrite S in S'. injection S' as -> ->. auto.
Qed.
Lemma c39_binds P cs k ids psks ids' psks' s : p_hpke P cs = Ok k ->
  N.of_nat (length ids) < 65536 -> N.of_nat (length ids') < 65536 -> Forall wf_psk_id ids -> Forall wf_psk_id ids' -> ids <> [] -> ids' <> [] ->
  extract_psk_secret P cs ids psks = Ok s -> extract_psk_secret P cs ids' psks' = Ok s ->
  (ids = ids' /\ psks = psks') \/ psk_collision k (combine ids psks) (combine ids' psks').
Proof.
  intros K B B' W W' N N' H H'.
  destruct (Nat.eq_dec (length ids) (length psks)) as [L|L]; [|rewrite c39_mismatch in H by exact L; discriminate].
  destruct (Nat.eq_dec (length ids') (length psks')) as [L'|L']; [|rewrite c39_mismatch in H' by exact L'; discriminate].
  apply (c39_rfc P cs k _ _ _ K L B) in H. apply (c39_rfc P cs k _ _ _ K L' B') in H'.
  assert (E : length (combine ids psks) = length ids) by (rewrite combine_length; lia).
  assert (E' : length (combine ids' psks') = length ids') by (rewrite combine_length; lia).
  rewrite <- E in H. rewrite <- E' in H'.
  destruct (c39_chain_binds k (combine ids psks) (combine ids' psks') s) as [Q|Q]; try assumption; try lia; try (apply combine_fst; assumption).
  - intros X. rewrite X in E. destruct ids; [contradiction|discriminate].
  - intros X. rewrite X in E'. destruct ids'; [contradiction|discriminate].
  - left. apply combine_inj; assumption.
  - right. exact Q.
Qed.

(** Longer lists are accepted too. *)
Definition encodable (id : psk_id) : Prop := exists raw, se_psk_id id = Ok raw /\ N.of_nat (length raw) + 4 < 1073741824.
Lemma psk_label_total id a b : encodable id -> exists raw, se_psk_label (MkPskLabel id a b) = Ok raw /\ fits30 raw.
Proof.
  intros (raw & R & L). exists (raw ++ be 2 a ++ be 2 b)%list. unfold se_psk_label, put_u16. cbn [pl_id pl_index pl_count]. rewrite R. cbn [seqw bind].
  split; [reflexivity|]. unfold fits30. rewrite !app_length, !be_length. lia.
Qed.
Lemma c39_total_loop P cs k : working_kdf P cs k -> (forall a b, exists c, k_extract k a b = Ok c) -> (forall a c, k_extract k a (zero_bytes (k_extract_size k)) = Ok c -> usable k c) ->
  forall l n i acc, Forall (fun x => encodable (fst x)) l ->
  exists s, psk_loop P cs (zero_bytes (k_extract_size k)) (k_extract_size k) n i l acc = Ok s.
Proof.
  intros [K W] X Z. induction l as [|[id psk] l IH]; intros n i acc F; [cbn; eauto|].
  apply Forall_inv_tail in F as F'. apply Forall_inv in F. cbn [fst] in F.
  cbn [psk_loop]. rewrite K. cbn [bind]. destruct (X psk (zero_bytes (k_extract_size k))) as [ex EX]. rewrite EX. apply Z in EX. cbn [bind].
  destruct (psk_label_total id (i mod 65536) (n mod 65536) F) as (raw & -> & FR). cbn [bind].
  fold (nh k). rewrite (c38_expand P cs k ex (str "derived psk") _ _ K eq_refl FR). unfold expand_label.
  destruct (W ex (kdf_label (str "derived psk") raw (nh k)) EX) as (inp & -> & _). cbn [bind].
  destruct (X acc inp) as [acc' ->]. cbn [bind]. apply IH, F'.
Qed.
Lemma c39_total P cs k ids psks : working_kdf P cs k -> (forall a b, exists c, k_extract k a b = Ok c) -> (forall a c, k_extract k a (zero_bytes (k_extract_size k)) = Ok c -> usable k c) -> length ids = length psks -> Forall encodable ids ->
  exists s, extract_psk_secret P cs ids psks = Ok s.
Proof.
  intros W X Z L F. unfold extract_psk_secret. rewrite L, Nat.eqb_refl. cbn [negb]. destruct W as [K W]. rewrite K. cbn [bind]. change zeros with zero_bytes.
  apply c39_total_loop; [split; assumption|exact X|exact Z|apply combine_fst, F].
Qed.

(** ** Transcript hashes *)
Lemma confirmed_ok P cs h c i b : p_hash P cs = Ok h -> confirmed_hash P cs c i = Ok b -> exists raw, se_confirmed_input c = Ok raw /\ b = h_digest h (i ++ raw)%list.
Proof. unfold confirmed_hash. intros K H. apply bind_ok in H as (raw & R & H). rewrite K in H. cbn [bind] in H. apply Ok_inj in H. eauto. Qed.
Lemma interim_ok P cs h c t b : p_hash P cs = Ok h -> next_interim_hash P cs c t = Ok b -> fits30 t /\ b = h_digest h (c ++ vec t)%list.
Proof.
  unfold next_interim_hash. intros K H. apply bind_ok in H as (raw & R & H). rewrite K in H. cbn [bind] in H. apply Ok_inj in H.
  destruct (fits30_dec t) as [F|F]; [|destruct (se_opaque_long t F) as [E|E]; rewrite E in R; discriminate].
  rewrite (se_opaque_vec t F) in R. apply Ok_inj in R. subst. auto.
Qed.
Lemma transcript_app P cs l2 : forall l1 i, transcript P cs i (l1 ++ l2) = let* j := transcript P cs i l1 in transcript P cs j l2.
Proof.
  induction l1 as [|[c t] l1 IH]; intros i; [reflexivity|]. cbn [app transcript]. destruct (confirmed_hash P cs c i) as [b|e| |]; try reflexivity. cbn [bind].
  destruct (next_interim_hash P cs b t) as [b'|e| |]; try reflexivity. cbn [bind]. apply IH.
Qed.
Lemma transcript_snoc P cs h i l c t r : p_hash P cs = Ok h -> transcript P cs i (l ++ [(c, t)]) = Ok r ->
  exists j raw, transcript P cs i l = Ok j /\ se_confirmed_input c = Ok raw /\ fits30 t /\ confirmed_hash P cs c j = Ok (h_digest h (j ++ raw)) /\
    r = h_digest h (h_digest h (j ++ raw) ++ vec t).
Proof.
  intros K H. rewrite transcript_app in H. apply bind_ok in H as (j & J & H). cbn [transcript] in H.
  apply bind_ok in H as (b & B & H). apply bind_ok in H as (b' & B' & H). apply Ok_inj in H. subst b'.
  destruct (confirmed_ok P cs h _ _ _ K B) as (raw & R & ->). destruct (interim_ok P cs h _ _ _ K B') as [F ->]. exists j, raw. auto.
Qed.
Lemma transcript_length P cs h i l r : p_hash P cs = Ok h -> (forall b, N.of_nat (length (h_digest h b)) = h_size h) -> l <> [] ->
  transcript P cs i l = Ok r -> N.of_nat (length r) = h_size h.
Proof.
  intros K Z N H. destruct (@exists_last _ l N) as (p & [c t] & ->). apply (transcript_snoc P cs h) in H as (j & raw & _ & _ & _ & _ & ->); [|exact K]. apply Z.
Qed.
Lemma app_same {A} (a b x y : list A) : length a = length b -> (a ++ x = b ++ y)%list -> a = b /\ x = y.
Proof.
  revert b. induction a as [|u a IH]; intros [|v b] L E; cbn in *; try discriminate; [auto|]. injection E as -> E. apply IH in E as [-> ->]; [auto|lia].
Qed.

Lemma hashed_app P cs h i l x b : hashed_in P cs h i l b -> hashed_in P cs h i (l ++ x) b.
Proof. intros (l1 & c & t & l2 & j & raw & -> & H). exists l1, c, t, (l2 ++ x)%list, j, raw. rewrite <- app_assoc. split; [reflexivity|exact H]. Qed.

Lemma bytes_cases (a b : bytes) : a = b \/ a <> b.
Proof. destruct (list_eq_dec Byte.byte_eq_dec a b); auto. Qed.

Lemma c41_binds P cs h i : p_hash P cs = Ok h -> (forall b, N.of_nat (length (h_digest h b)) = h_size h) -> forall l l' r,
  Forall (fun x => wf_confirmed_input (fst x)) l -> Forall (fun x => wf_confirmed_input (fst x)) l' -> length l = length l' ->
  transcript P cs i l = Ok r -> transcript P cs i l' = Ok r -> l = l' \/ transcript_collision P cs h i l l'.
Proof.
  intros K Z. induction l as [|[c t] l IH] using rev_ind; intros l' r W W' L H H'.
  { destruct l'; [auto|discriminate]. }
  destruct l' as [|[c' t'] l' _] using rev_ind; [rewrite app_length in L; cbn in L; lia|].
  rewrite !app_length in L. cbn [length] in L. apply Forall_app in W as [W Wx]. apply Forall_app in W' as [W' Wx']. apply Forall_inv in Wx, Wx'. cbn [fst] in Wx, Wx'.
  apply (transcript_snoc P cs h) in H as (j & raw & J & R & F & _ & E); [|exact K]. apply (transcript_snoc P cs h) in H' as (j' & raw' & J' & R' & F' & _ & E'); [|exact K].
  assert (S1 : hashed_in P cs h i (l ++ [(c, t)]) (j ++ raw)) by (exists l, c, t, [], j, raw; auto).
  assert (S2 : hashed_in P cs h i (l ++ [(c, t)]) (h_digest h (j ++ raw) ++ vec t)) by (exists l, c, t, [], j, raw; auto).
  assert (S1' : hashed_in P cs h i (l' ++ [(c', t')]) (j' ++ raw')) by (exists l', c', t', [], j', raw'; auto).
  assert (S2' : hashed_in P cs h i (l' ++ [(c', t')]) (h_digest h (j' ++ raw') ++ vec t')) by (exists l', c', t', [], j', raw'; auto).
  rewrite E in E'.
  destruct (bytes_cases (h_digest h (j ++ raw) ++ vec t) (h_digest h (j' ++ raw') ++ vec t')) as [Q|Q]; [|right; exists (h_digest h (j ++ raw) ++ vec t), (h_digest h (j' ++ raw') ++ vec t'); auto].
  apply app_same in Q as [Q T]; [|pose proof (Z (j ++ raw)); pose proof (Z (j' ++ raw')); lia].
  rewrite <- (app_nil_r (vec t)), <- (app_nil_r (vec t')) in T. apply vec_prefix in T as [-> _]; [|exact F|exact F'].
  destruct (bytes_cases (j ++ raw) (j' ++ raw')) as [Q2|Q2]; [|right; exists (j ++ raw), (j' ++ raw'); auto].
  assert (LJ : length j = length j').
  { destruct l as [|x l0]; destruct l' as [|x' l0']; try (cbn in L; lia); [cbn in J, J'; congruence|].
    pose proof (transcript_length P cs h i (x :: l0) _ K Z ltac:(discriminate) J). pose proof (transcript_length P cs h i (x' :: l0') _ K Z ltac:(discriminate) J'). lia. }
  apply app_same in Q2 as [Q2 Q3]; [|exact LJ]. subst j' raw'.
  pose proof (codec_inj codec_confirmed_input c c' raw Wx Wx' R R') as ->.
  destruct (IH l' j W W' ltac:(lia) J J') as [->|(b & b' & HB & HB' & N & D)]; [auto|].
  right. exists b, b'. split; [apply hashed_app, HB|]. split; [apply hashed_app, HB'|]. auto.
Qed.
Lemma c41_no_collision P cs h i l l' : (forall a b, h_digest h a = h_digest h b -> a = b) -> ~ transcript_collision P cs h i l l'.
Proof. intros I (b & b' & _ & _ & N & E). apply N, I, E. Qed.

(** ** Examples *)
Lemma ex_psk_wf : wf_psk_id ex_psk.
Proof. reflexivity. Qed.
Definition ex_psk2 : psk_id := MkPskId (PExternal (str "e")) [x03].
Lemma ex_chain : exists s, extract_psk_secret toy Suite1 [ex_psk; ex_psk2] [str "p"; str "q"] = Ok s.
Proof. eexists. vm_compute. reflexivity. Qed.
Lemma ex_psk_encodable : encodable ex_psk.
Proof. eexists. split; [vm_compute; reflexivity|]. reflexivity. Qed.

Lemma c39_wraps : exists ids psks s, N.of_nat (length ids) = 65537 /\ extract_psk_secret toy Suite1 ids psks = Ok s /\
  psk_chain wrapped toy_hpke 65537 (combine ids psks) s /\
  nth_error ids 0 = Some ex_psk /\ nth_error ids (N.to_nat 65536) = Some ex_psk /\
  MkPskLabel ex_psk (wrapped 65536) (wrapped 65537) = MkPskLabel ex_psk (wrapped 0) (wrapped 65537) /\
  MkPskLabel ex_psk (wrapped 65536) (wrapped 65537) = MkPskLabel ex_psk (plain 0) (plain 1).
Proof.
  assert (T : exists m, m = N.to_nat 65536) by eauto. destruct T as [m M].
  set (ids := repeat ex_psk (S m)). set (psks := repeat (str "p") (S m)).
  assert (L : length ids = length psks) by (unfold ids, psks; rewrite !repeat_length; reflexivity).
  assert (LI : N.of_nat (length ids) = 65537) by (unfold ids; rewrite repeat_length; lia).
  destruct (c39_total toy Suite1 toy_hpke ids psks toy_working) as [s S].
  - intros a b. eexists. reflexivity.
  - intros a c H. apply Ok_inj in H. subst c. unfold usable. rewrite app_length. change (nh toy_hpke) with 4. change (length (zero_bytes (k_extract_size toy_hpke))) with 4%nat. lia.
  - exact L.
  - apply Forall_forall. intros x I. apply repeat_spec in I. subst x. exact ex_psk_encodable.
  - exists ids, psks, s. split; [exact LI|]. split; [exact S|]. split.
    + rewrite <- LI. apply (c39_fold toy Suite1 toy_hpke); [reflexivity|exact L|exact S].
    + split; [reflexivity|]. split; [|split; reflexivity]. rewrite <- M. apply nth_error_repeat. lia.
Qed.

Definition ex_confirmed (i : N) : confirmed_input := MkConfirmedInput WFPublicMessage (ex_framed (SMember i) (CCommit ex_commit)) [x0e].
Lemma ex_confirmed_wf i : is_u32 i -> wf_confirmed_input (ex_confirmed i).
Proof. intros H. split; [exact (ex_framed_wf i H)|]. eexists. reflexivity. Qed.

Lemma c41_confirmed P cs h i : p_hash P cs = Ok h -> (forall b, N.of_nat (length (h_digest h b)) = h_size h) -> forall l l' c c' j j' r,
  Forall (fun x => wf_confirmed_input (fst x)) l -> Forall (fun x => wf_confirmed_input (fst x)) l' -> wf_confirmed_input c -> wf_confirmed_input c' ->
  length l = length l' -> transcript P cs i l = Ok j -> transcript P cs i l' = Ok j' -> confirmed_hash P cs c j = Ok r -> confirmed_hash P cs c' j' = Ok r ->
  (l = l' /\ c = c') \/ transcript_collision P cs h i (l ++ [(c, [])]) (l' ++ [(c', [])]).
Proof.
  intros K Z l l' c c' j j' r W W' Wc Wc' L J J' H H'.
  destruct (confirmed_ok P cs h _ _ _ K H) as (raw & R & E). destruct (confirmed_ok P cs h _ _ _ K H') as (raw' & R' & E').
  assert (N : exists n, next_interim_hash P cs r [] = Ok n) by (unfold next_interim_hash; rewrite K; eexists; reflexivity). destruct N as [n N].
  destruct (c41_binds P cs h i K Z (l ++ [(c, [])]) (l' ++ [(c', [])]) n) as [Q|Q].
  - apply Forall_app. split; [exact W|]. constructor; [exact Wc|constructor].
  - apply Forall_app. split; [exact W'|]. constructor; [exact Wc'|constructor].
  - rewrite !app_length, L. reflexivity.
  - rewrite transcript_app, J. cbn [bind transcript]. rewrite H. cbn [bind]. rewrite N. reflexivity.
  - rewrite transcript_app, J'. cbn [bind transcript]. rewrite H'. cbn [bind]. rewrite N. reflexivity.
  - left. apply app_inj_tail in Q as [-> Q]. injection Q as ->. auto.
  - right. exact Q.
Qed.

(** A provider with a digest of fixed size. *)
Definition fixed_hash : hash_alg := MkHash 4 (fun x => firstn 4 (rev x ++ [x00; x00; x00; x00]))%list (fun k m => k ++ m)%list.
Definition fixed : provider :=
  MkProvider (p_supports toy) (p_supported toy) (fun _ => Ok fixed_hash) (p_hpke toy) (p_sig toy) (p_base_seal toy) (p_base_open toy).
Lemma fixed_size b : N.of_nat (length (h_digest fixed_hash b)) = h_size fixed_hash.
Proof. cbn [h_digest fixed_hash h_size]. rewrite firstn_length_le; [reflexivity|]. rewrite app_length. cbn [length]. lia. Qed.
