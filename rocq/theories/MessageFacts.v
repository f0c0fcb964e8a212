(** Proofs about signed, tagged and encrypted messages. *)
From Coq Require Import ZifyBool ZifyNat ZifyN.
From Verif Require Import CodecLib WireCodecs CodecFacts TreePaths SecretFacts SpecMessages ExProvider Examples.
Local Open Scope N_scope.

(** ** Signatures *)
Lemma label_data_ok l c m : mls_prefix_label_data l c = Ok m -> fits30 (mls_label l) /\ fits30 c /\ m = labelled l c.
Proof.
  intros H. destruct (fits30_dec (mls_label l)) as [L|L].
  2:{ destruct (label_data_long l c) as [E|E]; [tauto| |]; rewrite H in E; discriminate. }
  destruct (fits30_dec c) as [C|C].
  2:{ destruct (label_data_long l c) as [E|E]; [tauto| |]; rewrite H in E; discriminate. }
  rewrite (label_data_eq _ _ L C) in H. apply Ok_inj in H. auto.
Qed.
Lemma tbs_label_fits : fits30 (mls_label (str "FramedContentTBS")).
Proof. reflexivity. Qed.

Lemma new_auth_ok P cs sk w c ctx a : new_auth_content P cs sk w c ctx = Ok a ->
  exists sa m, p_sig P cs = Ok sa /\ content_signed w c ctx m /\ s_sign sa sk m = Ok (ad_signature (ac_auth a)) /\
    ac_wire_format a = w /\ ac_content a = c /\ ad_confirmation_tag (ac_auth a) = [].
Proof.
  unfold new_auth_content, sign_framed_content, sign_with_label, content_tbs. cbn [ac_wire_format ac_content]. intros H.
  apply bind_ok in H as (s & S & H). apply Ok_inj in H. subst a. apply bind_ok in S as (raw & R & S). apply bind_ok in S as (m & M & S).
  apply bind_ok in S as (sa & A & S). apply label_data_ok in M as (_ & F & ->). exists sa, (labelled (str "FramedContentTBS") raw).
  split; [exact A|]. split; [exists raw; auto|]. cbn. auto.
Qed.
Lemma verify_iff P cs sa a pk ctx : p_sig P cs = Ok sa ->
  (verify_content_signature P cs a pk ctx = Ok tt <->
   exists m, content_signed (ac_wire_format a) (ac_content a) ctx m /\ s_verify sa pk m (ad_signature (ac_auth a)) = Ok tt).
Proof.
  intros A. unfold verify_content_signature, verify_auth_signature, verify_with_label, content_tbs. split.
  - intros H. apply bind_ok in H as (raw & R & H). apply bind_ok in H as (m & M & H). rewrite A in H. cbn [bind] in H.
    apply label_data_ok in M as (_ & F & ->). eexists. split; [exists raw; eauto|exact H].
  - intros (m & (raw & R & F & ->) & V). rewrite R. cbn [bind]. rewrite (label_data_eq _ _ tbs_label_fits F). cbn [bind]. rewrite A. exact V.
Qed.
Lemma c42_verifies P cs sk pk w c ctx a : key_pair_ok P cs sk pk -> new_auth_content P cs sk w c ctx = Ok a ->
  ac_wire_format a = w /\ ac_content a = c /\ verify_content_signature P cs a pk ctx = Ok tt.
Proof.
  intros K H. apply new_auth_ok in H as (sa & m & A & M & S & W & C & _). split; [exact W|]. split; [exact C|].
  apply (verify_iff P cs sa); [exact A|]. exists m. rewrite W, C. split; [exact M|]. exact (K _ _ _ A S).
Qed.

(** The to-be-signed value without the context where it is not written. *)
Definition strip_tbs (w : wire_format) (c : framed_content) (ctx : group_context) : framed_content_tbs :=
  MkTBS MLS10 w c (match fc_sender c with SMember _ | SNewMemberCommit => Some ctx | _ => None end).
Lemma strip_tbs_eq w c ctx : se_framed_content_tbs (MkTBS MLS10 w c (Some ctx)) = se_framed_content_tbs (strip_tbs w c ctx).
Proof. unfold se_framed_content_tbs, strip_tbs. cbn [tbs_version tbs_wire_format tbs_content tbs_context]. destruct (fc_sender c); reflexivity. Qed.
Lemma strip_tbs_wf w c ctx : wf_framed_content c -> wf_group_context ctx -> wf_framed_content_tbs (strip_tbs w c ctx).
Proof.
  intros W G. unfold wf_framed_content_tbs, strip_tbs. cbn [tbs_version tbs_content tbs_context]. split; [exists 1; split; reflexivity|]. split; [exact W|].
  destruct (fc_sender c); eauto.
Qed.
Lemma tbs_inj w c ctx w' c' ctx' b : wf_framed_content c -> wf_framed_content c' -> wf_group_context ctx -> wf_group_context ctx' ->
  se_framed_content_tbs (MkTBS MLS10 w c (Some ctx)) = Ok b -> se_framed_content_tbs (MkTBS MLS10 w' c' (Some ctx')) = Ok b ->
  w = w' /\ c = c' /\ (covers_context (fc_sender c) -> ctx = ctx').
Proof.
  intros W W' G G' H H'. rewrite strip_tbs_eq in H, H'.
  pose proof (codec_inj codec_framed_content_tbs _ _ b (strip_tbs_wf w c ctx W G) (strip_tbs_wf w' c' ctx' W' G') H H') as E.
  injection E as -> -> E. split; [reflexivity|]. split; [reflexivity|]. intros C. destruct (fc_sender c'); cbn in C; try contradiction; congruence.
Qed.
Lemma c42_covers w c ctx w' c' ctx' m : wf_framed_content c -> wf_framed_content c' -> wf_group_context ctx -> wf_group_context ctx' ->
  content_signed w c ctx m -> content_signed w' c' ctx' m -> w = w' /\ c = c' /\ (covers_context (fc_sender c) -> ctx = ctx').
Proof.
  intros W W' G G' (raw & R & F & ->) (raw' & R' & F' & E). destruct (labelled_inj _ _ _ _ tbs_label_fits F tbs_label_fits F' E) as [_ <-].
  exact (tbs_inj _ _ _ _ _ _ _ W W' G G' R R').
Qed.
Lemma c42_only P cs a pk ctx ctx' : ~ covers_context (fc_sender (ac_content a)) ->
  verify_content_signature P cs a pk ctx = verify_content_signature P cs a pk ctx'.
Proof.
  intros N. unfold verify_content_signature, verify_auth_signature, content_tbs. rewrite !strip_tbs_eq. unfold strip_tbs.
  destruct (fc_sender (ac_content a)); cbn in N; tauto.
Qed.

(** ** Reuse guards *)
Lemma byte_bits b i : 8 <= i -> N.testbit (b2n b) i = false.
Proof.
  intros H. pose proof (b2n_lt b) as L. destruct (N.eq_dec (b2n b) 0) as [->|Z]; [apply N.bits_0|]. apply N.bits_above_log2.
  assert (N.log2 (b2n b) < 8) by (apply N.log2_lt_pow2; [lia|exact L]). lia.
Qed.
Lemma b2n_xor a b : b2n (xor_byte a b) = N.lxor (b2n a) (b2n b).
Proof.
  unfold xor_byte. rewrite b2n_n2b. change 256 with (2 ^ 8). apply N.bits_inj. intros i. destruct (N.lt_ge_cases i 8) as [L|L].
  - apply N.mod_pow2_bits_low, L.
  - rewrite N.mod_pow2_bits_high by exact L. rewrite N.lxor_spec, !byte_bits by exact L. reflexivity.
Qed.
Lemma xor_twice a b : xor_byte (xor_byte a b) b = a.
Proof. apply b2n_inj. rewrite !b2n_xor, N.lxor_assoc, N.lxor_nilpotent, N.lxor_0_r. reflexivity. Qed.
Lemma xor_inj a b b' : xor_byte a b = xor_byte a b' -> b = b'.
Proof.
  intros E. apply b2n_inj. apply (f_equal b2n) in E. rewrite !b2n_xor in E.
  apply (f_equal (N.lxor (b2n a))) in E. rewrite <- !N.lxor_assoc, N.lxor_nilpotent, !N.lxor_0_l in E. exact E.
Qed.
Lemma xor_prefix_length : forall n g, length (xor_prefix n g) = length n.
Proof. induction n as [|a n IH]; intros [|b g]; cbn; auto. Qed.
Lemma xor_prefix_twice : forall n g, xor_prefix (xor_prefix n g) g = n.
Proof. induction n as [|a n IH]; intros [|b g]; cbn; try reflexivity. rewrite xor_twice, IH. reflexivity. Qed.
Lemma xor_prefix_inj : forall n g g', length g = length g' -> (length g <= length n)%nat -> xor_prefix n g = xor_prefix n g' -> g = g'.
Proof.
  induction n as [|a n IH]; intros [|b g] [|b' g'] L H E; cbn in *; try discriminate; try reflexivity; try lia.
  injection E as E1 E2. apply xor_inj in E1. subst b'. f_equal. apply IH; [lia|lia|exact E2].
Qed.
Lemma xor_prefix_nth : forall n g i, (i < length n)%nat ->
  b2n (nth i (xor_prefix n g) x00) = if (i <? length g)%nat then N.lxor (b2n (nth i n x00)) (b2n (nth i g x00)) else b2n (nth i n x00).
Proof.
  induction n as [|a n IH]; intros [|b g] i L; cbn [length] in L; try lia.
  - reflexivity.
  - destruct i as [|i]; cbn [xor_prefix nth length]; [apply b2n_xor|]. rewrite IH by lia. reflexivity.
Qed.

Lemma key_nonce_ok P cs r g k n : message_key_nonce P cs r g = Ok (k, n) ->
  exists n0, derive_key P cs r = Ok k /\ derive_nonce P cs r = Ok n0 /\ (length g <= length n0)%nat /\ n = xor_prefix n0 g.
Proof.
  unfold message_key_nonce. intros H. apply bind_ok in H as (k0 & K & H). apply bind_ok in H as (n0 & N & H).
  destruct (Nat.ltb_spec (length n0) (length g)); [discriminate|]. apply Ok_inj in H. injection H as -> <-. exists n0. auto.
Qed.
Lemma c44_nonce P cs r g k n : message_key_nonce P cs r g = Ok (k, n) <->
  exists n0, derive_key P cs r = Ok k /\ derive_nonce P cs r = Ok n0 /\ (length g <= length n0)%nat /\ length n = length n0 /\
    forall i, (i < length n0)%nat ->
    b2n (nth i n x00) = if (i <? length g)%nat then N.lxor (b2n (nth i n0 x00)) (b2n (nth i g x00)) else b2n (nth i n0 x00).
Proof.
  split.
  - intros H. apply key_nonce_ok in H as (n0 & K & N & L & ->). exists n0. split; [exact K|]. split; [exact N|]. split; [exact L|].
    split; [apply xor_prefix_length|]. intros i I. apply xor_prefix_nth, I.
  - intros (n0 & K & N & L & LN & B). unfold message_key_nonce. rewrite K, N. cbn [bind]. destruct (Nat.ltb_spec (length n0) (length g)); [lia|].
    do 2 f_equal. apply (nth_ext _ _ x00 x00); [rewrite xor_prefix_length; auto|]. intros i I. rewrite xor_prefix_length in I. apply b2n_inj.
    rewrite xor_prefix_nth by exact I. rewrite B by exact I. reflexivity.
Qed.
Lemma c44_injective P cs r g g' k k' n : length g = length g' -> message_key_nonce P cs r g = Ok (k, n) -> message_key_nonce P cs r g' = Ok (k', n) -> g = g'.
Proof.
  intros L H H'. apply key_nonce_ok in H as (n0 & _ & N & B & E). apply key_nonce_ok in H' as (n1 & _ & N' & B' & E').
  rewrite N in N'. apply Ok_inj in N'. subst n1. apply (xor_prefix_inj n0); [exact L|exact B|congruence].
Qed.

(** ** Private messages *)
Lemma de_exact_rt {A} (wf : A -> Prop) ser de (C : codec wf ser de) a p : wf a -> ser a = Ok p -> de_exact de p = Ok a.
Proof.
  intros W H. unfold de_exact. rewrite <- (app_nil_r p). rewrite (codec_rt C a p [] W H). reflexivity.
Qed.
Lemma private_rt c p : wf_private_content c -> se_private_content c = Ok p -> de_private_content (content_type_of (pc_content c)) p = Ok c.
Proof. intros W H. destruct (padding_rt c p [] W H) as [E _]. rewrite app_nil_r in E. apply E. constructor. Qed.

Lemma c43_roundtrip P cs sk pk r sds c sd ctx m : aead_ok P cs -> key_pair_ok P cs sk pk ->
  wf_framed_content c -> wf_sender_data sd ->
  new_private_message P cs sk r sds c sd ctx = Ok m ->
  decrypt_sender_data P cs m sds = Ok sd /\
  exists pc, decrypt_content P cs m r (sd_reuse_guard sd) = Ok pc /\ pc_content pc = fc_content c /\
    (fc_sender c = SMember (sd_leaf_index sd) ->
     ac_content (private_auth_content m sd pc) = c /\ verify_content_signature P cs (private_auth_content m sd pc) pk ctx = Ok tt).
Proof.
  intros AE KP W WS H. unfold new_private_message in H. apply bind_ok in H as (ct & CT & H). apply bind_ok in H as (esd & ES & H). apply Ok_inj in H. subst m.
  unfold encrypt_private_content in CT. apply bind_ok in CT as (a & A & CT). apply bind_ok in CT as (pt & PT & CT).
  apply bind_ok in CT as ([k nonce] & KN & CT). apply bind_ok in CT as (aad & AD & CT). apply bind_ok in CT as (h & Hh & CT).
  unfold encrypt_sender_data in ES. apply bind_ok in ES as (k2 & K2 & ES). apply bind_ok in ES as (n2 & N2 & ES). apply bind_ok in ES as (aad2 & AD2 & ES).
  apply bind_ok in ES as (raw & R & ES). apply bind_ok in ES as (h2 & Hh2 & ES).
  destruct (c42_verifies P cs sk pk _ _ _ _ KP A) as (AW & AC & V).
  split.
  - unfold decrypt_sender_data. cbn [pv_ciphertext pv_group_id pv_epoch pv_content_type pv_sender_data]. rewrite K2, N2. cbn [bind]. rewrite AD2. cbn [bind]. rewrite Hh2. cbn [bind].
    rewrite (AE _ _ _ _ _ _ Hh2 ES). cbn [bind]. apply (de_exact_rt wf_sender_data se_sender_data de_sender_data codec_sender_data); assumption.
  - exists (MkPrivateContent (fc_content c) (ac_auth a)). split.
    + unfold decrypt_content. cbn [pv_ciphertext pv_group_id pv_epoch pv_content_type pv_auth_data]. rewrite KN. cbn [bind]. rewrite AD. cbn [bind]. rewrite Hh. cbn [bind].
      rewrite (AE _ _ _ _ _ _ Hh CT). cbn [bind].
      apply (private_rt (MkPrivateContent (fc_content c) (ac_auth a)) pt); [|exact PT]. split; [apply W|]. cbn [pc_content pc_auth].
      apply new_auth_ok in A as (_ & _ & _ & _ & _ & _ & _ & T). destruct (content_type_of (fc_content c)); cbn; auto.
    + split; [reflexivity|]. intros S.
      assert (E : private_auth_content (MkPrivate (fc_group_id c) (fc_epoch c) (content_type_of (fc_content c)) (fc_auth_data c) esd ct) sd (MkPrivateContent (fc_content c) (ac_auth a)) = a).
      { unfold private_auth_content. cbn. rewrite <- S. destruct a as [w c0 au]. cbn in AW, AC |- *. subst. destruct c; reflexivity. }
      rewrite E. auto.
Qed.
Lemma c43_aad g e t a g' e' t' a' b : is_u64 e -> is_u64 e' ->
  se_private_content_aad (MkPrivateAAD g e t a) = Ok b -> se_private_content_aad (MkPrivateAAD g' e' t' a') = Ok b -> g = g' /\ e = e' /\ t = t' /\ a = a'.
Proof.
  intros W W' H H'. pose proof (codec_inj codec_private_content_aad (MkPrivateAAD g e t a) (MkPrivateAAD g' e' t' a') b W W' H H') as E. injection E. auto.
Qed.
Lemma sender_aad_ok g e t b : se_sender_data_aad (MkSenderDataAAD g e t) = Ok b -> exists b', se_private_content_aad (MkPrivateAAD g e t []) = Ok (b ++ b') /\ b' = [x00].
Proof.
  unfold se_sender_data_aad, se_private_content_aad. cbn. intros H. apply seqw_ok in H as (x & y & X & Y & ->). rewrite X.
  cbn. cbn in Y. apply Ok_inj in Y. subst y. eexists. split; [|reflexivity]. rewrite <- !app_assoc. reflexivity.
Qed.
Lemma c43_sender_aad g e t g' e' t' b : is_u64 e -> is_u64 e' ->
  se_sender_data_aad (MkSenderDataAAD g e t) = Ok b -> se_sender_data_aad (MkSenderDataAAD g' e' t') = Ok b -> g = g' /\ e = e' /\ t = t'.
Proof.
  intros W W' H H'. apply sender_aad_ok in H as (x & H & ->). apply sender_aad_ok in H' as (x' & H' & ->).
  destruct (c43_aad _ _ _ _ _ _ _ _ _ W W' H H') as (A & B & C & _). auto.
Qed.

(** ** Membership and confirmation tags *)
Lemma verify_mac_iff P cs h k m t : p_hash P cs = Ok h -> (verify_mac P cs k m t = Ok tt <-> t = h_mac h k m).
Proof.
  intros H. unfold verify_mac, sign_mac. rewrite H. cbn [bind]. split.
  - destruct (bytes_eqb t (h_mac h k m)) eqn:E; [|discriminate]. intros _. apply bytes_eqb_eq, E.
  - intros ->. rewrite (proj2 (bytes_eqb_eq _ _) eq_refl). reflexivity.
Qed.
Lemma c46_iff P cs h m k ctx : p_hash P cs = Ok h -> from_member m ->
  (verify_membership_tag P cs m k ctx = Ok tt <-> pm_tag m = None \/ exists b, membership_input m ctx b /\ pm_tag m = Some (h_mac h k b)).
Proof.
  intros H [i S]. unfold verify_membership_tag, membership_input. rewrite S. change (public_tbm m ctx) with (MkTBM (MkTBS MLS10 WFPublicMessage (pm_content m) (Some ctx)) (pm_auth m)).
  destruct (pm_tag m) as [t|]; [|tauto].
  destruct (se_auth_content_tbm _) as [b|e| |].
  - rewrite (verify_mac_iff P cs h) by exact H. split.
    + intros ->. right. exists b. auto.
    + intros [D|(b' & B & E)]; [discriminate|]. apply Ok_inj in B. subst b'. congruence.
  - split; [discriminate|]. intros [D|(b' & B & E)]; discriminate.
  - split; [discriminate|]. intros [D|(b' & B & E)]; discriminate.
  - split; [discriminate|]. intros [D|(b' & B & E)]; discriminate.
Qed.
Lemma c46_wire P cs h bs rest m k ctx : p_hash P cs = Ok h -> de_public_message bs = Ok (m, rest) -> from_member m ->
  (verify_membership_tag P cs m k ctx = Ok tt <-> exists b, membership_input m ctx b /\ pm_tag m = Some (h_mac h k b)).
Proof.
  intros H D F. rewrite (c46_iff P cs h m k ctx H F). split; [|auto]. intros [N|X]; [|exact X]. exfalso.
  destruct (codec_can codec_public_message _ _ _ D) as [(_ & _ & W) _]. destruct F as [i S]. rewrite S in W. contradiction.
Qed.
Lemma c46_sign P cs m k ctx m' : sign_membership_tag P cs m k ctx = Ok m' ->
  pm_content m' = pm_content m /\ pm_auth m' = pm_auth m /\ verify_membership_tag P cs m' k ctx = Ok tt /\ (from_member m -> pm_tag m' <> None).
Proof.
  unfold sign_membership_tag. destruct (fc_sender (pm_content m)) as [i|i| |] eqn:S; intros H.
  - apply bind_ok in H as (raw & R & H). apply bind_ok in H as (t & T & H). apply Ok_inj in H. subst m'. cbn [pm_content pm_auth pm_tag].
    split; [reflexivity|]. split; [reflexivity|]. split; [|discriminate]. unfold verify_membership_tag. cbn [pm_content pm_tag]. rewrite S.
    change (public_tbm (MkPublic (pm_content m) (pm_auth m) (Some t)) ctx) with (public_tbm m ctx). rewrite R. unfold verify_mac. rewrite T. cbn [bind].
    rewrite (proj2 (bytes_eqb_eq _ _) eq_refl). reflexivity.
  - apply Ok_inj in H. subst m'. unfold verify_membership_tag, from_member. rewrite S. split; [reflexivity|]. split; [reflexivity|]. split; [reflexivity|]. intros [j D]. discriminate.
  - apply Ok_inj in H. subst m'. unfold verify_membership_tag, from_member. rewrite S. split; [reflexivity|]. split; [reflexivity|]. split; [reflexivity|]. intros [j D]. discriminate.
  - apply Ok_inj in H. subst m'. unfold verify_membership_tag, from_member. rewrite S. split; [reflexivity|]. split; [reflexivity|]. split; [reflexivity|]. intros [j D]. discriminate.
Qed.
Lemma c46_binds m m' ctx ctx' b : from_member m -> from_member m' -> wf_framed_content (pm_content m) -> wf_framed_content (pm_content m') ->
  wf_auth_data (content_type_of (fc_content (pm_content m))) (pm_auth m) -> wf_auth_data (content_type_of (fc_content (pm_content m'))) (pm_auth m') ->
  wf_group_context ctx -> wf_group_context ctx' ->
  membership_input m ctx b -> membership_input m' ctx' b -> pm_content m = pm_content m' /\ pm_auth m = pm_auth m' /\ ctx = ctx'.
Proof.
  intros [i S] [i' S'] W W' A A' G G' H H'. unfold membership_input in *.
  assert (T : forall m ctx, (exists i, fc_sender (pm_content m) = SMember i) -> wf_framed_content (pm_content m) -> wf_auth_data (content_type_of (fc_content (pm_content m))) (pm_auth m) -> wf_group_context ctx ->
    wf_auth_content_tbm (MkTBM (MkTBS MLS10 WFPublicMessage (pm_content m) (Some ctx)) (pm_auth m))).
  { intros m0 ctx0 [j J] X Y Z. split; [|exact Y]. unfold wf_framed_content_tbs. cbn [tbm_tbs tbs_version tbs_content tbs_context]. split; [exists 1; split; reflexivity|]. split; [exact X|]. rewrite J. eauto. }
  pose proof (codec_inj codec_auth_content_tbm _ _ b (T _ _ (ex_intro _ i S) W A G) (T _ _ (ex_intro _ i' S') W' A' G') H H') as E. injection E. auto.
Qed.
Lemma c46_other P cs m k ctx : ~ from_member m -> verify_membership_tag P cs m k ctx = Ok tt.
Proof. intros N. unfold verify_membership_tag. destruct (fc_sender (pm_content m)) as [i|i| |] eqn:S; try reflexivity. exfalso. apply N. exists i. exact S. Qed.
Lemma c46_fresh P cs sk c ctx m k ctx' : new_public_message P cs sk c ctx = Ok m -> pm_tag m = None /\ verify_membership_tag P cs m k ctx' = Ok tt.
Proof.
  unfold new_public_message. intros H. apply bind_ok in H as (a & A & H). apply Ok_inj in H. subst m. split; [reflexivity|].
  unfold verify_membership_tag. cbn [pm_content pm_tag]. destruct (fc_sender (ac_content a)); reflexivity.
Qed.

Lemma c47_iff P cs h a k ch : p_hash P cs = Ok h ->
  (verify_auth_confirmation_tag P cs a k ch = Ok tt <-> ad_confirmation_tag a <> [] /\ ad_confirmation_tag a = h_mac h k ch).
Proof.
  intros H. unfold verify_auth_confirmation_tag. destruct (ad_confirmation_tag a) as [|b t]; [split; [discriminate|intros [N _]; contradiction]|].
  rewrite (verify_mac_iff P cs h) by exact H. split; [intros E; split; [discriminate|exact E]|tauto].
Qed.
Lemma c47_built P cs sk w c ctx a k ch : new_auth_content P cs sk w c ctx = Ok a ->
  ad_confirmation_tag (ac_auth a) = [] /\ verify_auth_confirmation_tag P cs (ac_auth a) k ch = Err VerifyConfirmationTagFailed.
Proof. intros H. apply new_auth_ok in H as (_ & _ & _ & _ & _ & _ & _ & T). split; [exact T|]. unfold verify_auth_confirmation_tag. rewrite T. reflexivity. Qed.
Lemma c47_public P cs sk c ctx m k ch : new_public_message P cs sk c ctx = Ok m -> verify_auth_confirmation_tag P cs (pm_auth m) k ch = Err VerifyConfirmationTagFailed.
Proof. unfold new_public_message. intros H. apply bind_ok in H as (a & A & H). apply Ok_inj in H. subst m. cbn [pm_auth]. exact (proj2 (c47_built _ _ _ _ _ _ _ k ch A)). Qed.
Lemma c47_private P cs sk r sds c sd ctx m pc k ch : aead_ok P cs -> wf_framed_content c -> wf_sender_data sd ->
  new_private_message P cs sk r sds c sd ctx = Ok m -> decrypt_content P cs m r (sd_reuse_guard sd) = Ok pc ->
  verify_auth_confirmation_tag P cs (pc_auth pc) k ch = Err VerifyConfirmationTagFailed.
Proof.
  intros AE W WS H D. unfold new_private_message in H. apply bind_ok in H as (ct & CT & H). apply bind_ok in H as (esd & ES & H). apply Ok_inj in H. subst m.
  unfold encrypt_private_content in CT. apply bind_ok in CT as (a & A & CT). apply bind_ok in CT as (pt & PT & CT).
  apply bind_ok in CT as ([k1 nonce] & KN & CT). apply bind_ok in CT as (aad & AD & CT). apply bind_ok in CT as (h & Hh & CT).
  unfold decrypt_content in D. cbn [pv_ciphertext pv_group_id pv_epoch pv_content_type pv_auth_data] in D. rewrite KN in D. cbn [bind] in D. rewrite AD in D. cbn [bind] in D. rewrite Hh in D. cbn [bind] in D.
  rewrite (AE _ _ _ _ _ _ Hh CT) in D. cbn [bind] in D.
  destruct (c47_built _ _ _ _ _ _ _ k ch A) as [T V].
  assert (RT : de_private_content (content_type_of (fc_content c)) pt = Ok (MkPrivateContent (fc_content c) (ac_auth a))).
  { apply (private_rt (MkPrivateContent (fc_content c) (ac_auth a)) pt); [|exact PT]. split; [apply W|]. cbn [pc_content pc_auth].
    destruct (content_type_of (fc_content c)); cbn; auto. }
  rewrite RT in D. apply Ok_inj in D. subst pc. exact V.
Qed.

(** ** Examples *)
Lemma bytes_eqb_refl x : bytes_eqb x x = true.
Proof. apply bytes_eqb_eq. reflexivity. Qed.
Lemma toy_strip_app p x : toy_strip p (p ++ x) = Ok x.
Proof.
  unfold toy_strip. rewrite firstn_app, Nat.sub_diag, firstn_all. cbn [firstn]. rewrite app_nil_r, bytes_eqb_refl.
  rewrite skipn_app, skipn_all, Nat.sub_diag. reflexivity.
Qed.
Lemma toy_aead cs : aead_ok toy cs.
Proof.
  intros h k n p ad c H. apply Ok_inj in H. subst h. cbn. intros S. apply Ok_inj in S. subst c.
  replace (k ++ n ++ ad ++ p) with ((k ++ n ++ ad) ++ p) by (rewrite <- !app_assoc; reflexivity). apply toy_strip_app.
Qed.
Lemma toy_keys cs k : key_pair_ok toy cs k k.
Proof. intros a m s H. apply Ok_inj in H. subst a. cbn. intros S. apply Ok_inj in S. subst s. rewrite bytes_eqb_refl. reflexivity. Qed.
