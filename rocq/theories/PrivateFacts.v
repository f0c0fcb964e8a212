(** Facts about the exchange of private messages. *)
From Coq Require Import ZifyBool ZifyNat ZifyN.
From Verif Require Import CodecLib WireCodecs TreeMathProofs SecretFacts MessageFacts TreeInv TrafficFacts PassiveFacts AuthFacts.
From Verif Require Import SpecPrivate.
Local Open Scope N_scope.

(** ** The loop *)
Fixpoint turns_nat {A B} (n : nat) (f : A -> A + B) (a : A) : A + B :=
  match n with O => inl a | S n => match f a with inl a => turns_nat n f a | inr b => inr b end end.
Lemma turns_add {A B} (f : A -> A + B) n m : forall a, turns_nat (n + m) f a = match turns_nat n f a with inl a => turns_nat m f a | inr b => inr b end.
Proof. induction n as [|n IH]; intros a; cbn [turns_nat Nat.add]; [reflexivity|]. destruct (f a); [apply IH|reflexivity]. Qed.
Lemma turns_eq {A B} (f : A -> A + B) p : forall a, turns p f a = turns_nat (Pos.to_nat p) f a.
Proof.
  induction p as [p IH|p IH|]; intros a; cbn [turns].
  - rewrite Pos2Nat.inj_xI. replace (S (2 * Pos.to_nat p))%nat with (1 + (Pos.to_nat p + Pos.to_nat p))%nat by lia. cbn [Nat.add turns_nat]. destruct (f a) as [a'|b]; [|reflexivity].
    rewrite turns_add, IH. destruct (turns_nat (Pos.to_nat p) f a'); [apply IH|reflexivity].
  - rewrite Pos2Nat.inj_xO. replace (2 * Pos.to_nat p)%nat with (Pos.to_nat p + Pos.to_nat p)%nat by lia. rewrite turns_add, IH. destruct (turns_nat (Pos.to_nat p) f a); [apply IH|reflexivity].
  - rewrite Pos2Nat.inj_1. cbn [turns_nat]. destruct (f a); reflexivity.
Qed.

(** The number of turns, without computing it. *)
Lemma limit_is {A B} (f : A -> A + B) : exists q, N.of_nat q = 4294967296 /\ forall a, turns 4294967296 f a = turns_nat q f a.
Proof.
  assert (H : forall p, exists q, N.of_nat q = N.pos p /\ forall a, turns p f a = turns_nat q f a). { intros p. exists (Pos.to_nat p). split; [apply positive_nat_N|apply turns_eq]. }
  apply (H 4294967296%positive).
Qed.
Ltac limit := match goal with |- context [turns 4294967296 ?f _] => destruct (limit_is f) as (q & Q & E); rewrite E; clear E end.

Lemma add32_ok n g : add32 n 1 = Ok g -> g = n + 1 /\ n + 1 < 4294967296.
Proof. unfold add32, u32_max. intros G. destruct (N.leb_spec (n + 1) 4294967295) as [L|L]; [|discriminate G]. apply Ok_inj in G. lia. Qed.
Lemma next_generation P cs r r' : derive_next P cs r = Ok r' -> rt_generation r' = rt_generation r + 1 /\ rt_generation r + 1 < 4294967296.
Proof.
  unfold derive_next. intros H. apply bind_ok in H as (k & _ & H). apply bind_ok in H as (s & _ & H). apply bind_ok in H as (g & G & H). apply Ok_inj in H. subst r'. cbn [rt_generation].
  apply add32_ok, G.
Qed.
Lemma catch_steps P cs g : forall n m r, rt_generation r + N.of_nat m = g -> (m < n)%nat ->
  turns_nat n (catch_up_turn P cs g) r = inr (steps P cs r m).
Proof.
  induction n as [|n IH]; intros m r G L; [lia|]. cbn [turns_nat]. unfold catch_up_turn at 1. destruct m as [|m].
  - rewrite (proj2 (N.eqb_eq _ _)) by lia. reflexivity.
  - rewrite (proj2 (N.eqb_neq _ _)) by lia. cbn [steps]. destruct (derive_next P cs r) as [r'|e| |] eqn:D; cbn [bind]; try reflexivity.
    apply next_generation in D as [D _]. apply IH; lia.
Qed.
Lemma catch_up_steps P cs g r : rt_generation r <= g -> g < 4294967296 -> catch_up P cs g r = steps P cs r (N.to_nat (g - rt_generation r)).
Proof.
  intros L G. unfold catch_up. limit. rewrite (catch_steps P cs g q (N.to_nat (g - rt_generation r)) r); [reflexivity|lia|lia].
Qed.
Lemma catch_late P cs g : forall n r r', g < rt_generation r -> turns_nat n (catch_up_turn P cs g) r = inr (Ok r') -> False.
Proof.
  induction n as [|n IH]; intros r r' G H; cbn [turns_nat] in H; [discriminate H|]. unfold catch_up_turn at 1 in H. rewrite (proj2 (N.eqb_neq _ _)) in H by lia.
  destruct (derive_next P cs r) as [r1|e| |] eqn:D; try discriminate H. apply next_generation in D as [D _]. apply (IH r1 r'); [lia|exact H].
Qed.
Lemma catch_up_ok P cs g r r' : catch_up P cs g r = Ok r' -> rt_generation r <= g.
Proof.
  unfold catch_up. limit. intros H. destruct (N.le_gt_cases (rt_generation r) g) as [L|L]; [exact L|exfalso].
  destruct (turns_nat q (catch_up_turn P cs g) r) as [a|b] eqn:E; [discriminate H|]. subst b. exact (catch_late P cs g _ _ _ L E).
Qed.
Lemma catch_late_panic P cs k g : working_kdf P cs k -> forall n r, usable k (rt_secret r) -> g < rt_generation r -> rt_generation r < 4294967296 -> 4294967296 <= N.of_nat n + rt_generation r ->
  turns_nat n (catch_up_turn P cs g) r = inr Panic.
Proof.
  intros [K W]. induction n as [|n IH]; intros r U G R L; [lia|]. cbn [turns_nat]. unfold catch_up_turn at 1. rewrite (proj2 (N.eqb_neq _ _)) by lia.
  rewrite (next_eq P cs k r K). destruct (W (rt_secret r) (kdf_label (str "secret") (be 4 (rt_generation r)) (nh k)) U) as (b & B & UB). unfold expand_label. rewrite B. cbn [bind].
  unfold add32, u32_max. destruct (N.leb_spec (rt_generation r + 1) 4294967295); cbn [bind]; [|reflexivity]. apply IH; cbn [rt_generation rt_secret]; [exact UB|lia|lia|lia].
Qed.
Lemma c97_late P cs k g r : working_kdf P cs k -> usable k (rt_secret r) -> g < rt_generation r -> rt_generation r < 4294967296 -> catch_up P cs g r = Panic.
Proof.
  intros W U G R. unfold catch_up. limit. rewrite (catch_late_panic P cs k g W _ _ U G R); [reflexivity|lia].
Qed.
(** The loop never runs out of turns. *)
Lemma catch_ends P cs g : forall n r r', rt_generation r < 4294967296 -> turns_nat n (catch_up_turn P cs g) r = inl r' -> rt_generation r + N.of_nat n = rt_generation r' /\ rt_generation r' < 4294967296.
Proof.
  induction n as [|n IH]; intros r r' R H; cbn [turns_nat] in H.
  - injection H as <-. lia.
  - unfold catch_up_turn at 1 in H. destruct (rt_generation r =? g); [discriminate H|]. destruct (derive_next P cs r) as [r1|e| |] eqn:D; try discriminate H.
    apply next_generation in D as [D D']. apply IH in H; [|lia]. lia.
Qed.
Lemma catch_up_ends P cs g r : rt_generation r < 4294967296 -> exists x, turns 4294967296 (catch_up_turn P cs g) r = inr x.
Proof.
  intros R. limit. destruct (turns_nat q (catch_up_turn P cs g) r) as [r'|x] eqn:E; [exfalso|eauto].
  apply catch_ends in E; [|exact R]. lia.
Qed.

Lemma turns_hang P cs g : (forall r, derive_next P cs r <> Hang) -> forall n r, turns_nat n (catch_up_turn P cs g) r <> inr Hang.
Proof.
  intros N. induction n as [|n IH]; intros r H; cbn [turns_nat] in H; [discriminate H|]. unfold catch_up_turn at 1 in H. destruct (rt_generation r =? g); [discriminate H|].
  destruct (derive_next P cs r) as [r1|e| |] eqn:D; try discriminate H; [exact (IH r1 H)|exact (N r D)].
Qed.
Lemma c96_ends P cs g r : (forall r', derive_next P cs r' <> Hang) -> rt_generation r < 4294967296 -> catch_up P cs g r <> Hang.
Proof.
  intros N R. destruct (catch_up_ends P cs g r R) as (x & X). revert X. unfold catch_up. limit. intros X. rewrite X. intros ->. exact (turns_hang P cs g N q r X).
Qed.

(** ** What is accepted *)
Lemma private_decoded b v m rest : de_mls_message b = Ok (MkMLSMessage v (WMPrivate m), rest) -> wf_private_message m /\ exists p, se_private_message m = Ok p.
Proof.
  intros D. destruct (codec_can codec_mls_message _ _ _ D) as ((_ & W) & p & H & _). split; [exact W|]. unfold se_mls_message in H. apply seqw_ok in H as (x & y & _ & H & _). cbn [mm_wire] in H.
  unfold se_wire_message in H. apply seqw_ok in H as (x' & y' & _ & H & _). eauto.
Qed.
Lemma firstn_fits n b : fits30 b -> fits30 (firstn n b).
Proof. unfold fits30. intros F. rewrite firstn_length. lia. Qed.
Lemma opaque_fits30 b p : se_opaque b = Ok p -> fits30 b.
Proof. intros H. destruct (fits30_dec b) as [F|F]; [exact F|]. destruct (se_opaque_long b F) as [E|E]; rewrite E in H; discriminate. Qed.
Lemma private_fits m p : se_private_message m = Ok p -> fits30 (pv_group_id m) /\ fits30 (pv_auth_data m) /\ fits30 (pv_ciphertext m).
Proof.
  unfold se_private_message. intros H. apply seqw_ok in H as (g & y & G & H & _). apply seqw_ok in H as (e & y1 & _ & H & _). apply seqw_ok in H as (t & y2 & _ & H & _).
  apply seqw_ok in H as (a & y3 & A & H & _). apply seqw_ok in H as (s & c & _ & C & _). repeat split; eapply opaque_fits30; eassumption.
Qed.

Lemma sender_is_iff P cs k sds m sd : p_hpke P cs = Ok k -> a_key_size k < 65536 -> a_nonce_size k < 65536 -> fits30 (pv_ciphertext m) ->
  (decrypt_sender_data P cs m sds = Ok sd <-> sender_is k sds m sd).
Proof.
  intros K A B F. destruct (c75_sender P cs k sds (pv_ciphertext m) K A B (firstn_fits _ _ F)) as [E1 E2]. unfold decrypt_sender_data, sender_is. rewrite E1, E2. split.
  - intros H. apply bind_ok in H as (key & HK & H). apply bind_ok in H as (nonce & HN & H). apply bind_ok in H as (aad & HA & H). rewrite K in H. cbn [bind] in H. apply bind_ok in H as (raw & O & H).
    apply de_exact_some in H as (rest & H). destruct (codec_can codec_sender_data _ _ _ H) as (W & p & S & ->). exists key, nonce, aad, p, rest. auto 8.
  - intros (key & nonce & aad & p & rest & HK & HN & HA & O & W & S). rewrite HK, HN. cbn [bind]. rewrite HA. cbn [bind]. rewrite K. cbn [bind]. rewrite O. cbn [bind].
    unfold de_exact. rewrite (codec_rt codec_sender_data sd p rest W S). reflexivity.
Qed.
Lemma guarded_iff nonce guard n : guarded nonce guard n <-> (length guard <= length nonce)%nat /\ n = xor_prefix nonce guard.
Proof.
  split.
  - intros (L & LN & B). split; [exact L|]. apply (nth_ext _ _ x00 x00); [rewrite xor_prefix_length; auto|]. intros i I. rewrite LN in I. apply b2n_inj.
    rewrite xor_prefix_nth by exact I. rewrite B by exact I. reflexivity.
  - intros [L ->]. split; [exact L|]. split; [apply xor_prefix_length|]. intros i I. apply xor_prefix_nth, I.
Qed.

Section Receiver.
  Context (P : provider) (cs : cipher_suite) (k : hpke_alg) (d : N) (E : bytes) (st : secret_tree) (path : list bool).
  Hypotheses (K : p_hpke P cs = Ok k) (KS : a_key_size k < 65536) (NS : a_nonce_size k < 65536) (D : d <= 31) (T : new_secret_tree P cs (2 ^ d) E = Ok st) (L : N.of_nat (length path) = d).

  (** The ratchet a client uses. *)
  Lemma ratchet_is c x r0 g r : node_index (position 0 path) = Ok x -> derive_ratchet_root P cs st x (ratchet_label_of c) = Ok r0 -> g < 4294967296 ->
    (catch_up P cs g r0 = Ok r <-> exists s, message_secret k E path c (N.to_nat g) = Ok s /\ r = MkRatchet s g).
  Proof.
    intros X R G. pose proof (c75_secret P cs k d E st path c (N.to_nat g) K D T L ltac:(lia)) as Q. rewrite X in Q. cbn [bind] in Q. rewrite R in Q. cbn [bind] in Q.
    assert (Z : rt_generation r0 = 0). { unfold derive_ratchet_root in R. destruct (sget st x); [|discriminate]. apply bind_ok in R as (h & _ & R). apply bind_ok in R as (s & _ & R). apply Ok_inj in R. subst r0. reflexivity. }
    rewrite catch_up_steps by lia. rewrite Z, N.sub_0_r, Q. split.
    - intros H. apply bind_ok in H as (s & S & H). apply Ok_inj in H. subst r. exists s. split; [exact S|]. f_equal. lia.
    - intros (s & S & ->). rewrite S. cbn [bind]. do 2 f_equal. lia.
  Qed.
  Lemma leaf_ok : node_index (position 0 path) = Ok (2 * position 0 path).
  Proof.
    destruct (c36_nodes P cs k d E st K D T) as [LT N]. destruct (N path ltac:(lia)) as (b & B & F). rewrite L, N.sub_diag, node_at_leaf in F.
    unfold node_index, mul32, u32_max. destruct (N.leb_spec (2 * position 0 path) 4294967295) as [_|X]; [reflexivity|exfalso].
    assert (I : 2 * position 0 path < slen st). { destruct (N.lt_ge_cases (2 * position 0 path) (slen st)) as [Y|Y]; [exact Y|]. rewrite (sget_beyond _ _ Y) in F. discriminate. }
    unfold slen in I. rewrite LT in I. destruct (pow2_bound d D). lia.
  Qed.
  Lemma ratchet_root c g s : g < 4294967296 -> message_secret k E path c (N.to_nat g) = Ok s -> exists r0, derive_ratchet_root P cs st (2 * position 0 path) (ratchet_label_of c) = Ok r0.
  Proof.
    intros G S. pose proof (c75_secret P cs k d E st path c (N.to_nat g) K D T L ltac:(lia)) as Q. rewrite leaf_ok, S in Q. cbn [bind] in Q.
    destruct (derive_ratchet_root P cs st (2 * position 0 path) (ratchet_label_of c)) as [r0|e| |]; [eauto|discriminate Q..].
  Qed.

  Lemma content_is_iff m g s guard pc : fits30 (pv_group_id m) -> message_secret k E path (pv_content_type m) (N.to_nat g) = Ok s ->
    (decrypt_content P cs m (MkRatchet s g) guard = Ok pc <-> content_is k E path g guard m pc).
  Proof.
    intros F S. destruct (c37_keys P cs k (MkRatchet s g) K KS NS) as [EK EN]. cbn [rt_secret rt_generation] in EK, EN.
    assert (MK : message_key k E path (pv_content_type m) (N.to_nat g) = derive_key P cs (MkRatchet s g)). { unfold message_key. rewrite S, EK. cbn [bind]. do 2 f_equal. lia. }
    assert (MN : message_nonce k E path (pv_content_type m) (N.to_nat g) = derive_nonce P cs (MkRatchet s g)). { unfold message_nonce. rewrite S, EN. cbn [bind]. do 2 f_equal. lia. }
    unfold content_is. rewrite MK, MN. unfold decrypt_content. split.
    - intros H. apply bind_ok in H as ([key n] & KN & H). apply bind_ok in H as (aad & A & H). rewrite K in H. cbn [bind] in H. apply bind_ok in H as (raw & O & H).
      apply key_nonce_ok in KN as (nonce & K1 & N1 & LN & ->). apply private_content_can in H as (W & C & p & pad & S1 & -> & Z).
      exists key, nonce, (xor_prefix nonce guard), aad, p, pad. split; [exact K1|]. split; [exact N1|]. split; [apply guarded_iff; auto|]. auto 8.
    - intros (key & nonce & n & aad & p & pad & K1 & N1 & GD & A & O & Z & W & C & S1). apply guarded_iff in GD as [LN ->]. unfold message_key_nonce. rewrite K1, N1. cbn [bind].
      destruct (Nat.ltb_spec (length nonce) (length guard)); [lia|]. cbn [bind]. rewrite A. cbn [bind]. rewrite K. cbn [bind]. rewrite O. cbn [bind].
      rewrite <- C, (private_content_rt pc p pad W S1). replace (check_padding pad) with (Ok tt); [reflexivity|]. symmetry. clear - Z. induction Z as [|b l -> _ IH]; [reflexivity|exact IH].
  Qed.
  Lemma raw_ok pc p : se_private_content pc = Ok p -> exists raw, match pc_content pc with CApplication d => Ok d | CProposal p => se_proposal p | CCommit c => se_commit c end = Ok raw.
  Proof. unfold se_private_content. intros H. apply seqw_ok in H as (x & y & H & _). unfold se_content_body in H. destruct (pc_content pc); eauto. Qed.

  Lemma private_iff sa ctx pk sds b pc : p_sig P cs = Ok sa ->
    (receive_private P cs ctx pk E sds (2 ^ d) (position 0 path) b = Ok pc <->
     exists v m rest sd, de_mls_message b = Ok (MkMLSMessage v (WMPrivate m), rest) /\ sender_is k sds m sd /\
       content_is k E path (sd_generation sd) (sd_reuse_guard sd) m pc /\ private_signed sa pk ctx m sd pc).
  Proof.
    intros SA. unfold receive_private, private_of. split.
    - intros H. apply bind_ok in H as (m & M & H). apply bind_ok in M as (mm & DM & M). apply de_exact_some in DM as (rest & DM). destruct mm as [v w]. cbn [mm_wire] in M. destruct w as [|m'| | |]; try discriminate M. apply Ok_inj in M. subst m'.
      rewrite T in H. cbn [bind] in H. apply bind_ok in H as (x & X & H). apply bind_ok in H as (r0 & R0 & H). unfold open_private in H. apply bind_ok in H as (sd & SD & H). apply bind_ok in H as (r & R & H).
      apply bind_ok in H as (c & C & H). apply bind_ok in H as (u & V & H). destruct u. apply bind_ok in H as (raw & _ & H). apply Ok_inj in H. subst c.
      destruct (private_decoded _ _ _ _ DM) as [WM (p & SP)]. destruct (private_fits m p SP) as (F1 & F2 & F3).
      apply (sender_is_iff P cs k sds m sd K KS NS F3) in SD. assert (G : sd_generation sd < 4294967296). { destruct SD as (? & ? & ? & ? & ? & _ & _ & _ & _ & W & _). apply W. }
      apply (ratchet_is _ x r0 _ r X R0 G) in R as (s & S & ->). apply (content_is_iff m _ s _ pc F1 S) in C.
      apply (proj1 (assert_ok_unit _)) in V. apply (proj1 (verify_iff P cs sa _ pk ctx SA)) in V.
      exists v, m, rest, sd. split; [exact DM|]. split; [exact SD|]. split; [exact C|]. destruct V as (y & V1 & V2). exists y. split; [exact V1|exact V2].
    - intros (v & m & rest & sd & DM & SD & C & SG). destruct (private_decoded _ _ _ _ DM) as [WM (p & SP)]. destruct (private_fits m p SP) as (F1 & F2 & F3).
      assert (G : sd_generation sd < 4294967296). { destruct SD as (? & ? & ? & ? & ? & _ & _ & _ & _ & W & _). apply W. }
      unfold de_exact. rewrite DM. cbn [bind mm_wire]. rewrite T. cbn [bind].
      assert (MS : exists s, message_secret k E path (pv_content_type m) (N.to_nat (sd_generation sd)) = Ok s).
      { destruct C as (key & ? & ? & ? & ? & ? & MK & _). unfold message_key in MK. apply bind_ok in MK as (s & S & _). eauto. }
      destruct MS as (s & S). destruct (ratchet_root (pv_content_type m) _ s G S) as (r0 & R0). rewrite leaf_ok. cbn [bind]. rewrite R0. cbn [bind].
      unfold open_private. rewrite (proj2 (sender_is_iff P cs k sds m sd K KS NS F3) SD). cbn [bind].
      rewrite (proj2 (ratchet_is _ _ r0 _ _ leaf_ok R0 G) (ex_intro _ s (conj S eq_refl))). cbn [bind].
      pose proof C as C0. apply (content_is_iff m _ s _ pc F1 S) in C. rewrite C. cbn [bind].
      destruct SG as (y & V1 & V2). rewrite (proj2 (assert_ok_unit _)).
      + cbn [bind]. destruct C0 as (? & ? & ? & ? & p0 & ? & _ & _ & _ & _ & _ & _ & _ & _ & SP0). destruct (raw_ok pc p0 SP0) as (raw & RW). rewrite RW. reflexivity.
      + apply (verify_iff P cs sa _ pk ctx SA). exists y. split; [exact V1|exact V2].
  Qed.
End Receiver.

Lemma c96_accepted P cs k sa ctx pk E sds d path st b pc : p_hpke P cs = Ok k -> p_sig P cs = Ok sa -> a_key_size k < 65536 -> a_nonce_size k < 65536 -> d <= 31 ->
  new_secret_tree P cs (2 ^ d) E = Ok st -> N.of_nat (length path) = d ->
  (receive_private P cs ctx pk E sds (2 ^ d) (position 0 path) b = Ok pc <->
     exists v m rest sd, de_mls_message b = Ok (MkMLSMessage v (WMPrivate m), rest) /\ sender_is k sds m sd /\
       content_is k E path (sd_generation sd) (sd_reuse_guard sd) m pc /\ private_signed sa pk ctx m sd pc).
Proof. intros K SA KS NS D T L. exact (private_iff P cs k d E st path K KS NS D T L sa ctx pk sds b pc SA). Qed.

Lemma says_wf b v m rest sd pc : de_mls_message b = Ok (MkMLSMessage v (WMPrivate m), rest) -> wf_sender_data sd -> wf_private_content pc -> wf_framed_content (says_it m sd pc).
Proof. intros D [W _] [C _]. destruct (private_decoded _ _ _ _ D) as [E _]. repeat split; [exact E|exact W|exact C]. Qed.
Lemma c96_authentic P cs k sa ctx pk E sds d path st b pc log : p_hpke P cs = Ok k -> p_sig P cs = Ok sa -> a_key_size k < 65536 -> a_nonce_size k < 65536 -> d <= 31 ->
  new_secret_tree P cs (2 ^ d) E = Ok st -> N.of_nat (length path) = d -> only_said P cs pk log -> wf_group_context ctx ->
  receive_private P cs ctx pk E sds (2 ^ d) (position 0 path) b = Ok pc ->
  exists v m rest sd, de_mls_message b = Ok (MkMLSMessage v (WMPrivate m), rest) /\ sender_is k sds m sd /\ is_said log (SaidContent WFPrivateMessage (says_it m sd pc) ctx).
Proof.
  intros K SA KS NS D T L O W H. apply (private_iff P cs k d E st path K KS NS D T L sa ctx pk sds b pc SA) in H as (v & m & rest & sd & DM & SD & C & SG).
  exists v, m, rest, sd. split; [exact DM|]. split; [exact SD|].
  apply (c85_content P cs pk log (private_auth_content m sd pc) ctx O); [|exact W|].
  - destruct SD as (? & ? & ? & ? & ? & _ & _ & _ & _ & WS & _). destruct C as (? & ? & ? & ? & ? & ? & _ & _ & _ & _ & _ & _ & WC & _). exact (says_wf b v m rest sd pc DM WS WC).
  - apply (verify_iff P cs sa _ pk ctx SA). exact SG.
Qed.

Lemma c96_delivered P cs k ctx sk pk E sds d path st guard g r0 r c m b : p_hpke P cs = Ok k -> a_key_size k < 65536 -> a_nonce_size k < 65536 -> d <= 31 ->
  new_secret_tree P cs (2 ^ d) E = Ok st -> N.of_nat (length path) = d -> aead_ok P cs -> key_pair_ok P cs sk pk ->
  wf_framed_content c -> fc_sender c = SMember (position 0 path) -> g < 4294967296 -> length guard = 4%nat ->
  derive_ratchet_root P cs st (2 * position 0 path) (ratchet_label_of (content_type_of (fc_content c))) = Ok r0 -> steps P cs r0 (N.to_nat g) = Ok r ->
  new_private_message P cs sk r sds c (new_sender_data (position 0 path) g guard) ctx = Ok m -> se_mls_message (MkMLSMessage MLS10 (WMPrivate m)) = Ok b ->
  exists pc, receive_private P cs ctx pk E sds (2 ^ d) (position 0 path) b = Ok pc /\ pc_content pc = fc_content c.
Proof.
  intros K KS NS D T L AE KP W S G GL R0 R M B. pose proof (leaf_ok P cs k d E st path K KS NS D T L) as LO.
  assert (WS : wf_sender_data (new_sender_data (position 0 path) g guard)).
  { split; [|split; [exact G|exact GL]]. destruct (node_index_cases (position 0 path)) as [Q|[Q LL]]; rewrite Q in LO; [discriminate|]. red. cbn [sd_leaf_index new_sender_data]. lia. }
  destruct (c43_roundtrip P cs sk pk r sds c _ ctx m AE KP W WS M) as (DS & pc & DC & PC & F). destruct (F S) as [AC V].
  assert (HD : pv_content_type m = content_type_of (fc_content c) /\ pv_epoch m = fc_epoch c).
  { unfold new_private_message in M. apply bind_ok in M as (ct & _ & M). apply bind_ok in M as (esd & _ & M). apply Ok_inj in M. subst m. split; reflexivity. }
  destruct HD as [HC HE]. assert (WM : wf_private_message m) by (red; rewrite HE; apply W).
  exists pc. split; [|exact PC]. unfold receive_private, private_of. rewrite (message_rt MLS10 (WMPrivate m) b WM eq_refl B). cbn [bind mm_wire]. rewrite T. cbn [bind]. rewrite LO. cbn [bind]. rewrite HC, R0. cbn [bind].
  unfold open_private. rewrite DS. cbn [bind]. rewrite catch_up_steps; [| |exact G].
  2: { unfold derive_ratchet_root in R0. destruct (sget st _); [|discriminate]. apply bind_ok in R0 as (h & _ & R0). apply bind_ok in R0 as (s & _ & R0). apply Ok_inj in R0. subst r0. cbn [rt_generation]. lia. }
  assert (Z : rt_generation r0 = 0). { unfold derive_ratchet_root in R0. destruct (sget st _); [|discriminate]. apply bind_ok in R0 as (h & _ & R0). apply bind_ok in R0 as (s & _ & R0). apply Ok_inj in R0. subst r0. reflexivity. }
  rewrite Z, N.sub_0_r. cbn [sd_generation new_sender_data]. rewrite R. cbn [bind]. rewrite DC. cbn [bind]. rewrite (proj2 (assert_ok_unit _) V). cbn [bind].
  unfold new_private_message in M. apply bind_ok in M as (ct & CT & _). unfold encrypt_private_content in CT. apply bind_ok in CT as (a & _ & CT). apply bind_ok in CT as (pt & PT & _).
  assert (RW : exists raw, match pc_content pc with CApplication d => Ok d | CProposal p => se_proposal p | CCommit c => se_commit c end = Ok raw).
  { rewrite PC. unfold se_private_content in PT. apply seqw_ok in PT as (x & y & X & _). cbn [pc_content] in X. unfold se_content_body in X. destruct (fc_content c); eauto. }
  destruct RW as (raw & RW). rewrite RW. reflexivity.
Qed.
Lemma c96_send P cs k ctx sk pk E sds d path guard c b : p_hpke P cs = Ok k -> a_key_size k < 65536 -> a_nonce_size k < 65536 -> d <= 31 ->
  N.of_nat (length path) = d -> aead_ok P cs -> key_pair_ok P cs sk pk ->
  wf_framed_content c -> fc_sender c = SMember (position 0 path) -> length guard = 4%nat ->
  send_private P cs ctx sk E sds (2 ^ d) (position 0 path) guard c = Ok b ->
  exists pc, receive_private P cs ctx pk E sds (2 ^ d) (position 0 path) b = Ok pc /\ pc_content pc = fc_content c.
Proof.
  intros K KS NS D L AE KP W S GL H. unfold send_private in H. apply bind_ok in H as (st & T & H). rewrite (leaf_ok P cs k d E st path K KS NS D T L) in H. cbn [bind] in H. apply bind_ok in H as (r0 & R0 & H). apply bind_ok in H as (m & M & B).
  apply (c96_delivered P cs k ctx sk pk E sds d path st guard 0 r0 r0 c m b); try assumption; reflexivity.
Qed.

Lemma c96_again P cs k sa ctx pk E sds d path st b pc v m rest sd g guard m' b' : p_hpke P cs = Ok k -> p_sig P cs = Ok sa -> a_key_size k < 65536 -> a_nonce_size k < 65536 -> d <= 31 ->
  new_secret_tree P cs (2 ^ d) E = Ok st -> N.of_nat (length path) = d -> aead_ok P cs ->
  receive_private P cs ctx pk E sds (2 ^ d) (position 0 path) b = Ok pc ->
  de_mls_message b = Ok (MkMLSMessage v (WMPrivate m), rest) -> sender_is k sds m sd ->
  g < 4294967296 -> length guard = 4%nat -> reencrypt P cs k E sds path (sd_leaf_index sd) g guard m pc m' -> se_mls_message (MkMLSMessage MLS10 (WMPrivate m')) = Ok b' ->
  receive_private P cs ctx pk E sds (2 ^ d) (position 0 path) b' = Ok pc.
Proof.
  intros K SA KS NS D T L AE H DM SD G GL RE B. apply (private_iff P cs k d E st path K KS NS D T L sa ctx pk sds b pc SA) in H as (v1 & m1 & rest1 & sd1 & DM1 & SD1 & C & SG).
  rewrite DM in DM1. apply Ok_inj in DM1. injection DM1 as <- <- <-.
  destruct (private_decoded _ _ _ _ DM) as [WM (p0 & SP)]. destruct (private_fits m p0 SP) as (F1 & F2 & F3).
  assert (sd1 = sd). { apply (sender_is_iff P cs k sds m _ K KS NS F3) in SD, SD1. congruence. } subst sd1.
  destruct RE as (key & nonce & n & aad & p & ct & esd & MK & MN & GD & A & SPC & SE & ES & ->).
  set (m' := MkPrivate (pv_group_id m) (pv_epoch m) (pv_content_type m) (pv_auth_data m) esd ct) in *.
  assert (WM' : wf_private_message m') by exact WM.
  assert (DM' : exists rest', de_mls_message b' = Ok (MkMLSMessage MLS10 (WMPrivate m'), rest')). { apply de_exact_some. apply (message_rt MLS10 (WMPrivate m') b' WM' eq_refl B). }
  destruct DM' as (rest' & DM'). destruct (private_decoded _ _ _ _ DM') as [_ (p0' & SP')]. destruct (private_fits m' p0' SP') as (F1' & F2' & F3').
  assert (WC : wf_private_content pc /\ content_type_of (pc_content pc) = pv_content_type m). { destruct C as (? & ? & ? & ? & ? & ? & _ & _ & _ & _ & _ & _ & WC & CT & _). auto. }
  destruct WC as [WC CT].
  assert (WS : wf_sender_data (MkSenderData (sd_leaf_index sd) g guard)). { destruct SD as (? & ? & ? & ? & ? & _ & _ & _ & _ & (W1 & _) & _). split; [exact W1|]. split; [exact G|exact GL]. }
  apply (private_iff P cs k d E st path K KS NS D T L sa ctx pk sds b' pc SA). exists MLS10, m', rest', (MkSenderData (sd_leaf_index sd) g guard). split; [exact DM'|]. split; [|split].
  - apply (sender_is_iff P cs k sds m' _ K KS NS F3'). unfold encrypt_sender_data in ES. apply bind_ok in ES as (k2 & K2 & ES). apply bind_ok in ES as (n2 & N2 & ES). apply bind_ok in ES as (aad2 & A2 & ES).
    apply bind_ok in ES as (raw & RW & ES). apply bind_ok in ES as (h2 & Hh2 & ES). cbn [fc_group_id fc_epoch fc_content] in A2. rewrite CT in A2.
    unfold decrypt_sender_data. unfold m'. cbn [pv_ciphertext pv_group_id pv_epoch pv_content_type pv_sender_data]. rewrite K2, N2. cbn [bind]. rewrite A2. cbn [bind]. rewrite Hh2. cbn [bind].
    rewrite (AE _ _ _ _ _ _ Hh2 ES). cbn [bind]. apply (de_exact_rt wf_sender_data se_sender_data de_sender_data codec_sender_data); assumption.
  - exists key, nonce, n, aad, p, []. cbn [sd_generation sd_reuse_guard]. unfold m'. cbn [pv_ciphertext pv_group_id pv_epoch pv_content_type pv_auth_data]. rewrite app_nil_r. split; [exact MK|]. split; [exact MN|]. split; [exact GD|]. split; [exact A|].
    split; [exact (AE _ _ _ _ _ _ K SE)|]. split; [constructor|]. auto.
  - exact SG.
Qed.

(** ** Old messages *)
Local Opaque catch_up.
Lemma c97_refused P cs ctx pk sds r m sd pc : decrypt_sender_data P cs m sds = Ok sd -> sd_generation sd < rt_generation r -> open_private P cs ctx pk sds r m <> Ok pc.
Proof.
  intros SD G H. unfold open_private in H. rewrite SD in H. cbn [bind] in H. apply bind_ok in H as (r2 & R & _). exact (proj1 (N.le_ngt _ _) (catch_up_ok _ _ _ _ _ R) G).
Qed.
Lemma c97_panics P cs k ctx pk sds r m sd : working_kdf P cs k -> usable k (rt_secret r) -> decrypt_sender_data P cs m sds = Ok sd -> sd_generation sd < rt_generation r -> rt_generation r < 4294967296 ->
  open_private P cs ctx pk sds r m = Panic.
Proof. intros W U SD G R. unfold open_private. rewrite SD. cbn [bind]. rewrite (c97_late P cs k _ r W U G R). reflexivity. Qed.
Lemma c97_work P cs ctx pk sds r m sd : decrypt_sender_data P cs m sds = Ok sd -> rt_generation r <= sd_generation sd -> sd_generation sd < 4294967296 ->
  open_private P cs ctx pk sds r m =
    let* r' := steps P cs r (N.to_nat (sd_generation sd - rt_generation r)) in
    let* c := decrypt_content P cs m r' (sd_reuse_guard sd) in
    let* _ := assert_ok (verify_content_signature P cs (private_auth_content m sd c) pk ctx) in
    let* _ := match pc_content c with CApplication d => Ok d | CProposal p => se_proposal p | CCommit c => se_commit c end in
    Ok c.
Proof. intros SD L G. unfold open_private. rewrite SD. cbn [bind]. rewrite (catch_up_steps P cs _ r L G). reflexivity. Qed.
