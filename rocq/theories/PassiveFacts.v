From Verif Require Import AgreeFacts CodecLib WireCodecs TreeCodec CodecFacts KeyStoreFacts MessageFacts WelcomeFacts BuildFacts KeyFacts TreeFacts TreeMore Verified JoinFacts ReplicaFacts TrafficFacts ProposalFacts.
From Verif Require Import SpecPassive SpecAgree.
Local Open Scope N_scope.

Lemma find_psk_iff known id p : find_psk known id = Some p <-> first_kept known id p.
Proof.
  induction known as [|[i q] r IH]; cbn [find_psk]; unfold first_kept in *.
  - split; [discriminate|]. intros (pre & post & E & _). destruct pre; discriminate.
  - destruct (bytes_eqb i id) eqn:B.
    + apply bytes_eqb_eq in B. subst i. split.
      * intros Q. injection Q as ->. exists [], r. split; [reflexivity|]. intros x [].
      * intros (pre & post & E & N). destruct pre as [|x pre]; [injection E as -> _; reflexivity|]. exfalso. injection E as <- _. apply (N (id, q)); [left; reflexivity|reflexivity].
    + assert (Ne : i <> id) by (intros Q; apply bytes_eqb_eq in Q; congruence). rewrite IH. split.
      * intros (pre & post & -> & N). exists ((i, q) :: pre), post. split; [reflexivity|]. intros x [<-|I]; [exact Ne|apply N, I].
      * intros (pre & post & E & N). destruct pre as [|x pre]; [exfalso; injection E as E _ _; congruence|]. injection E as _ ->. exists pre, post. split; [reflexivity|]. intros y I. apply N. right. exact I.
Qed.
Lemma psks_for_iff known ids : forall psks, psks_for known ids = Ok psks <-> keeps known ids psks.
Proof.
  unfold keeps. induction ids as [|i ids IH]; intros psks; cbn [psks_for].
  - split; [intros Q; apply Ok_inj in Q; subst; constructor|]. intros F. inversion F; subst. reflexivity.
  - destruct (pi_psk i) as [id|rs] eqn:E.
    + destruct (find_psk known id) as [p|] eqn:F.
      * apply find_psk_iff in F. split.
        -- intros H. apply bind_ok in H as (l & L & H). apply Ok_inj in H. subst psks. constructor; [eauto|apply IH, L].
        -- intros H. inversion H as [|? ? ? l (id' & E' & F') R]; subst. rewrite E in E'. injection E' as <-. apply IH in R. rewrite R. cbn [bind]. f_equal. f_equal.
           apply find_psk_iff in F. apply find_psk_iff in F'. congruence.
      * split; [discriminate|]. intros H. inversion H as [|? ? ? l (id' & E' & F') R]; subst. rewrite E in E'. injection E' as <-. apply find_psk_iff in F'. congruence.
    + split; [discriminate|]. intros H. inversion H as [|? ? ? l (id' & E' & F') R]; subst. congruence.
Qed.
Lemma keeps_single known ids psks : keeps known ids psks -> forall n, count_reinit_branch ids n = Ok n.
Proof. induction 1 as [|i p ids psks (id & E & _) _ IH]; intros n; cbn [count_reinit_branch]; [reflexivity|]. rewrite E. apply IH. Qed.
Lemma assert_ok_iff {A} (m : res A) : assert_ok m = Ok tt <-> exists a, m = Ok a.
Proof. unfold assert_ok, assert. destruct m; cbn [is_ok bind]; split; try discriminate; eauto; intros [x Q]; discriminate. Qed.
Lemma assert_ok_unit (m : res unit) : assert_ok m = Ok tt <-> m = Ok tt.
Proof. rewrite assert_ok_iff. split; [intros [[] ->]; reflexivity|eauto]. Qed.
Lemma assert_iff b : assert b = Ok tt <-> b = true.
Proof. unfold assert. destruct b; split; congruence. Qed.

Lemma leaf_ser kp raw : se_key_package kp = Ok raw -> exists p, se_leaf_node (kp_leaf (kp_payload kp)) = Ok p.
Proof.
  unfold se_key_package, se_key_package_tbs. intros H. apply seqw_ok in H as (a & b & H & _).
  apply seqw_ok in H as (? & ? & _ & H & _). apply seqw_ok in H as (? & ? & _ & H & _). apply seqw_ok in H as (? & ? & _ & H & _). apply seqw_ok in H as (p & ? & H & _). eauto.
Qed.
Lemma message_rt v m b : wf_wire_message m -> v = MLS10 -> se_mls_message (MkMLSMessage v m) = Ok b -> de_exact de_mls_message b = Ok (MkMLSMessage v m).
Proof. intros W -> S. refine (de_exact_rt wf_mls_message _ _ codec_mls_message _ _ _ S). split; [reflexivity|exact W]. Qed.

Lemma c91_joins P k h t gi joiner psk ids psks kp init_priv known kpb wb tree :
  p_hpke P (gc_suite (gi_context gi)) = Ok k -> p_hash P (gc_suite (gi_context gi)) = Ok h -> aead_ok P (gc_suite (gi_context gi)) ->
  invited P k h t gi joiner psk ids psks kp init_priv known kpb wb tree ->
  exists t' e, passive_join P (gc_suite (gi_context gi)) known kpb init_priv wb tree = Ok (MkJoined t' gi joiner psk e) /\
    copy_of t t' /\ (forall x, tget t' x = tget t x) /\ extract_epoch_secret P (gi_context gi) joiner psk = Ok e.
Proof.
  intros K Hh A IV. destruct (iv_sent _ _ _ _ _ _ _ _ _ _ _ _ _ _ _ IV) as (rawt & St & Sent).
  destruct (c74_received P _ t rawt [] (iv_reachable _ _ _ _ _ _ _ _ _ _ _ _ _ _ _ IV) (iv_nodes _ _ _ _ _ _ _ _ _ _ _ _ _ _ _ IV) St) as (t' & Dt & C & _).
  rewrite app_nil_r in Dt.
  destruct (c74_look P _ t t' (iv_reachable _ _ _ _ _ _ _ _ _ _ _ _ _ _ _ IV) C) as (Same & _ & VI & _).
  destruct (iv_tag _ _ _ _ _ _ _ _ _ _ _ _ _ _ _ IV) as (ck & CK & Tag). pose proof CK as (es & ES & _). apply (epoch_iff P _ k) in ES; [|exact K].
  exists t', es. split; [|split; [exact C|split; [exact Same|exact ES]]].
  destruct (iv_package _ _ _ _ _ _ _ _ _ _ _ _ _ _ _ IV) as (Wkp & CS & Skp).
  destruct (iv_welcome _ _ _ _ _ _ _ _ _ _ _ _ _ _ _ IV) as (w & Ww & Cw & Sw & (wk & wn & rawgi & WK & Sgi & Seal) & ref & e & path & gs & rawgs & ent & kem & ct & Ref & FE & Egs & Wgs & Sgs & Enc & Ee).
  unfold passive_join, welcome_of, key_package_of.
  rewrite (message_rt MLS10 (WMWelcome w) wb Ww eq_refl Sw). cbn [bind mm_wire].
  rewrite (message_rt MLS10 (WMKeyPackage kp) kpb Wkp eq_refl Skp). cbn [bind mm_wire]. rewrite Ref. cbn [bind].
  rewrite (c56_secrets P w ref init_priv (kp_init_key (kp_payload kp)) ent gs rawgs e kem ct) by (auto; rewrite Cw; exact (iv_init _ _ _ _ _ _ _ _ _ _ _ _ _ _ _ IV)).
  cbn [bind]. subst gs. unfold single_reinit_or_branch. cbn [gs_psk_ids gs_joiner_secret]. pose proof (iv_keeps _ _ _ _ _ _ _ _ _ _ _ _ _ _ _ IV) as KP.
  rewrite (keeps_single _ _ _ KP). cbn [bind N.leb N.compare assert]. rewrite (proj2 (psks_for_iff known ids psks) KP). cbn [bind].
  rewrite (iv_psk _ _ _ _ _ _ _ _ _ _ _ _ _ _ _ IV). cbn [bind].
  rewrite (c56_info P w k joiner psk gi wk wn rawgi) by (try rewrite Cw; auto; exact (iv_info _ _ _ _ _ _ _ _ _ _ _ _ _ _ _ IV)). cbn [bind].
  assert (RT : match tree with Some raw => Ok raw | None => match find_extension_data (gi_extensions gi) ExtRatchetTree with Some raw => Ok raw | None => Err OtherError end end = Ok rawt).
  { unfold tree_sent in Sent. destruct tree as [r|]; [rewrite Sent; reflexivity|]. rewrite (proj2 (find_ext_spec _ _ _) Sent). reflexivity. }
  rewrite RT. cbn [bind]. unfold de_exact at 1. rewrite Dt. cbn [bind].
  destruct (reachable_tight P _ t (iv_reachable _ _ _ _ _ _ _ _ _ _ _ _ _ _ _ IV)) as (d & G & T). pose proof (travel t d rawt [] G T (iv_nodes _ _ _ _ _ _ _ _ _ _ _ _ _ _ _ IV) St) as (t2 & D2 & F2 & _).
  rewrite app_nil_r, Dt in D2. apply Ok_inj in D2. injection D2 as <-.
  pose proof (same_usized t t' d G F2 Same) as U.
  assert (LA : forall i, leaf_at t' i = leaf_at t i) by (intros i; unfold leaf_at; rewrite Same; reflexivity).
  assert (SM : forall i l, leaf_at t i = Some l -> i < 2147483648).
  { intros i l Q. unfold leaf_at in Q. destruct (tget t (2 * i)) as [nd|] eqn:X; [|discriminate]. apply (g_in _ _ G) in X. red in X.
    pose proof (usized_31 t' d U). assert (2 ^ (d + 1) <= 2 ^ 32) by (apply pow2_mono; lia). change (2 ^ 32) with 4294967296 in *. lia. }
  destruct (iv_signed _ _ _ _ _ _ _ _ _ _ _ _ _ _ _ IV) as (l & sk & a & m & Ll & KPo & Sa & GS & Sig).
  rewrite get_leaf_at by (eapply SM, Ll). rewrite LA, Ll. cbn [bind].
  rewrite (proj2 (assert_ok_unit _)) by (apply (c58_signature P gi _ a Sa); exists m; split; [exact GS|exact (KPo a m _ Sa Sig)]). cbn [bind].
  rewrite (proj2 (assert_ok_unit _)) by (apply (c58_tag P gi k h); [exact K|exact Hh|exists ck; auto]). cbn [bind].
  rewrite CS. assert (SE : suite_eqb (gc_suite (gi_context gi)) (gc_suite (gi_context gi)) = true) by (apply suite_eqb_eq; reflexivity). rewrite SE. cbn [assert bind].
  pose proof (proj2 (VI P (gi_context gi) (fun _ => 0%Z)) (iv_verified _ _ _ _ _ _ _ _ _ _ _ _ _ _ _ IV)) as V'. rewrite V'. cbn [bind].
  destruct (iv_member _ _ _ _ _ _ _ _ _ _ _ _ _ _ _ IV) as (i & Li).
  assert (SL : exists p, se_leaf_node (kp_leaf (kp_payload kp)) = Ok p). { unfold generate_ref in Ref. apply bind_ok in Ref as (raw & R & _). exact (leaf_ser kp raw R). }
  destruct SL as (p & SL).
  assert (VD : verified P t' (gi_context gi) (fun _ => 0%Z) d).
  { apply verify_integrity_iff; [left; exact F2| |intros x nd X; rewrite Same in X; exact (g_in _ _ G x nd X)|exact V'].
    red in F2. pose proof (usized_31 t' d U). assert (2 ^ (d + 1) <= 2 ^ 32) by (apply pow2_mono; lia). change (2 ^ 32) with 4294967296 in *. pose proof (pow2_pos (d + 1)). lia. }
  rewrite (find_leaf_complete t' d (kp_leaf (kp_payload kp)) i p U); [|rewrite LA; exact Li|exact SL|].
  - cbn [bind assert]. rewrite ES. reflexivity.
  - intros j l' Lj Q. rewrite LA in Lj. unfold leaf_at in Lj, Li. destruct (tget t (2 * j)) as [[lj|]|] eqn:X; try discriminate. injection Lj as ->. destruct (tget t (2 * i)) as [[li|]|] eqn:Y; try discriminate. injection Li as ->.
    rewrite <- Same in X, Y. pose proof (vf_encryption_keys _ _ _ _ _ VD _ _ _ _ X Y Q). lia.
Qed.

Lemma opaque_fits bs p : se_opaque bs = Ok p -> N.of_nat (length bs) < 2 ^ 30.
Proof.
  unfold se_opaque. intros H. destruct (_ <=? _) in H; [discriminate|]. apply seqw_ok in H as (a & b & H & _). unfold se_varint in H. change (N.shiftl 1 30) with (2 ^ 30) in H.
  destruct (N.of_nat (length bs) <? N.shiftl 1 6) eqn:E1; [apply N.ltb_lt in E1; change (N.shiftl 1 6) with 64 in E1; change (2 ^ 30) with 1073741824; lia|].
  destruct (N.of_nat (length bs) <? N.shiftl 1 14) eqn:E2; [apply N.ltb_lt in E2; change (N.shiftl 1 14) with 16384 in E2; change (2 ^ 30) with 1073741824; lia|].
  destruct (N.of_nat (length bs) <? 2 ^ 30) eqn:E3; [apply N.ltb_lt in E3; exact E3|discriminate].
Qed.
Lemma elems_count {A} (g : A -> res bytes) : (forall a p, g a = Ok p -> (1 <= length p)%nat) -> forall l p, se_elems g l = Ok p -> (length l <= length p)%nat.
Proof.
  intros G. induction l as [|a l IH]; cbn [se_elems length]; intros p H; [lia|]. apply seqw_ok in H as (x & y & X & Y & ->). rewrite app_length.
  apply G in X. apply IH in Y. lia.
Qed.
Lemma decoded_tree bs t rest x nd : de_ratchet_tree bs = Ok (t, rest) -> tget t x = Some nd ->
  exists d, full_size t d /\ tlen t < 4294967296 /\ (forall y n, tget t y = Some n -> in_tree d y) /\ nodes_wf t.
Proof.
  intros D Q. apply tree_decode in D as (W & l & p & S & _ & n & k & E & L & M).
  assert (C : N.of_nat (length l) < 2 ^ 30).
  { unfold se_vector in S. apply bind_ok in S as (raw & S & O). apply opaque_fits in O. apply elems_count in S; [lia|].
    intros [a|] q H; cbn [se_option] in H; [apply seqw_ok in H as (u & v & U & _ & ->); apply Ok_inj in U; subst u; cbn; lia|apply Ok_inj in H; subst q; cbn; lia]. }
  assert (K : k <= 30). { apply M. lia. }
  assert (B : 2 ^ k <= 2 ^ 30) by (apply pow2_mono; lia). change (2 ^ 30) with 1073741824 in *.
  assert (IN : forall y m, tget t y = Some m -> y < tlen t). { intros y m H. unfold tget in H. destruct (y <? tlen t) eqn:F; [apply N.ltb_lt, F|discriminate]. }
  assert (k <> 0). { intros ->. change (2 ^ 0) with 1 in L. pose proof (IN _ _ Q) as Z. unfold tlen in Z. lia. }
  exists (k - 1). unfold full_size, in_tree. replace (k - 1 + 1) with k by lia. pose proof (eq_refl (tlen t)) as TL. unfold tlen at 2 in TL. split; [lia|]. split; [lia|]. split; [intros y m H1; pose proof (IN _ _ H1); lia|].
  intros y m H1. pose proof (IN _ _ H1) as Y. unfold tget in H1. destruct (y <? tlen t); [|discriminate]. unfold wf_tree in W. rewrite Forall_forall in W. refine (W (Some m) _). rewrite <- H1. apply nth_In. unfold tlen in Y. lia.
Qed.

Lemma de_exact_some {A} (de : bytes -> res (A * bytes)) bs a : de_exact de bs = Ok a -> exists rest, de bs = Ok (a, rest).
Proof. unfold de_exact. intros H. apply bind_ok in H as ([x r] & H & E). apply Ok_inj in E. subst x. eauto. Qed.
Lemma message_wf bs m rest : de_mls_message bs = Ok (m, rest) -> wf_mls_message m.
Proof. intros H. apply (codec_can codec_mls_message) in H as (W & _). exact W. Qed.

Lemma c91_checked P k h cs known kpb init_priv wb tree j : 
  p_hpke P (gc_suite (gi_context (jn_info j))) = Ok k -> p_hash P (gc_suite (gi_context (jn_info j))) = Ok h ->
  passive_join P cs known kpb init_priv wb tree = Ok j -> checked P k h cs known kpb init_priv wb tree j.
Proof.
  intros K Hh H. unfold passive_join in H. apply bind_ok in H as (w & Hw & H). apply bind_ok in H as (kp & Hkp & H). apply bind_ok in H as (ref & Ref & H).
  apply bind_ok in H as (gs & GS & H). apply bind_ok in H as (one & One & H). apply bind_ok in H as (u1 & _ & H). apply bind_ok in H as (psks & PS & H).
  apply bind_ok in H as (psk & PK & H). apply bind_ok in H as (gi & GI & H). apply bind_ok in H as (raw & RW & H). apply bind_ok in H as (t & T & H).
  apply bind_ok in H as (s & Sg & H). destruct s as [l|]; [|discriminate]. apply bind_ok in H as (u2 & S1 & H). apply bind_ok in H as (u3 & S2 & H).
  apply bind_ok in H as (u4 & S3 & H). apply bind_ok in H as (u5 & V & H). apply bind_ok in H as ([i found] & FL & H). apply bind_ok in H as (u6 & S4 & H).
  apply bind_ok in H as (e & E & H). apply Ok_inj in H. subst j. cbn [jn_info jn_tree jn_joiner jn_psk jn_epoch] in *. destruct u2, u3, u4, u5, u6.
  apply (proj1 (assert_ok_unit _)) in S1. apply (proj1 (assert_ok_unit _)) in S2. apply assert_iff in S3. apply suite_eqb_eq in S3. apply assert_iff in S4. subst found.
  apply de_exact_some in T as (rest & T).
  assert (LT : exists x nd, tget t x = Some nd /\ leaf_at t (gi_signer gi) = Some l).
  { unfold get_leaf in Sg. apply bind_ok in Sg as (x & X & Sg). destruct (tget t x) as [[l'|]|] eqn:Q; try discriminate. apply Ok_inj in Sg. injection Sg as ->.
    exists x, (Leaf l). split; [exact Q|]. destruct (node_index_cases (gi_signer gi)) as [Z|[Z _]]; rewrite Z in X; [discriminate|]. apply Ok_inj in X. subst x. unfold leaf_at. rewrite Q. reflexivity. }
  destruct LT as (x & nd & Qx & LT). destruct (decoded_tree raw t rest x nd T Qx) as (d & F & Sm & IN & NW).
  assert (VD : verified P t (gi_context gi) (fun _ => 0%Z) d) by (apply verify_integrity_iff; [left; exact F|exact Sm|exact IN|exact V]).
  unfold key_package_of in Hkp. apply bind_ok in Hkp as ([v mk] & Mk & Hkp). destruct mk; try discriminate. apply Ok_inj in Hkp. cbn [mm_wire] in Hkp. subst. apply de_exact_some in Mk as (rk & Mk).
  unfold welcome_of in Hw. apply bind_ok in Hw as ([v' mw] & Mw & Hw). destruct mw; try discriminate. apply Ok_inj in Hw. cbn [mm_wire] in Hw. subst. apply de_exact_some in Mw as (rw & Mw).
  split; cbn [jn_info jn_tree jn_joiner jn_psk jn_epoch].
  - exists raw, rest. split; [|exact T]. unfold tree_sent. destruct tree; [apply Ok_inj in RW; exact RW|]. destruct (find_extension_data _ _) eqn:FE; [|discriminate]. apply Ok_inj in RW. subst. apply find_ext_spec, FE.
  - exists d. auto.
  - pose proof S1 as S1'. unfold group_info_verify_signature, verify_with_label in S1'. apply bind_ok in S1' as (tbs & _ & S1'). apply bind_ok in S1' as (m & _ & S1'). apply bind_ok in S1' as (a & Sa & _).
    apply (c58_signature P gi _ a Sa) in S1 as (m' & M1 & M2). exists l, a, m'. auto.
  - apply (c58_tag P gi k h _ _ K Hh) in S2. exact S2.
  - eexists v, kp, rk. split; [exact Mk|]. split; [symmetry; exact S3|]. split.
    + exists i. apply message_wf in Mk as (_ & Mk). cbn in Mk.
      assert (U : usized t d) by (apply small_usized; [left; exact F|exact Sm]).
      apply (find_leaf_sound t d _ i U) in FL as (FL & _).
      * unfold get_leaf in FL. apply bind_ok in FL as (y & Y & FL). destruct (node_index_cases i) as [Z|[Z _]]; rewrite Z in Y; [discriminate|]. apply Ok_inj in Y. subst y.
        unfold leaf_at. destruct (tget t (2 * i)) as [[l'|]|]; try discriminate. apply Ok_inj in FL. exact FL.
      * apply Mk.
      * intros a0 l0 L0. unfold leaf_at in L0. destruct (tget t (2 * a0)) as [[l'|]|] eqn:Q; try discriminate. injection L0 as ->. exact (NW _ _ Q).
    + exists v', w, rw, ref, gs, psks. split; [exact Mw|]. split; [exact Ref|]. split; [exact GS|]. split; [reflexivity|]. split; [apply psks_for_iff, PS|]. split; [exact PK|exact GI].
  - apply (epoch_iff P _ k _ _ _ K), E.
Qed.

Lemma c91_agrees P k h known kpb init_priv wb tree cs j v jo psk e key :
  gc_suite (gi_context (jn_info j)) = gc_suite (v_context v) -> p_hpke P (gc_suite (v_context v)) = Ok k -> p_hash P (gc_suite (v_context v)) = Ok h ->
  passive_join P cs known kpb init_priv wb tree = Ok j ->
  well_typed v -> computed P v jo psk e key -> verify_auth_confirmation_tag P (gc_suite (v_context v)) (ac_auth (v_commit v)) key (gc_confirmed (v_context v)) = Ok tt ->
  gi_confirmation_tag (jn_info j) = ad_confirmation_tag (ac_auth (v_commit v)) ->
  (gi_context (jn_info j) = v_context v /\ jn_joiner j = jo /\ psk_or_zero k (jn_psk j) = psk_or_zero k psk /\ jn_epoch j = e /\
    (forall x, tget (jn_tree j) x = tget (v_tree v) x)) \/
  exists key', confirmation_key k (gi_context (jn_info j)) (jn_joiner j) (jn_psk j) key' /\
    broken_join P h k v (gi_context (jn_info j)) (jn_tree j) jo psk e key (jn_joiner j) (jn_psk j) (jn_epoch j) key'.
Proof.
  intros CS K Hh J WT CV VT TE. pose proof K as K'. rewrite <- CS in K'. pose proof Hh as Hh'. rewrite <- CS in Hh'.
  pose proof (c91_checked P k h cs known kpb init_priv wb tree j K' Hh' J) as [CT CVf CSg CTg CM CE].
  destruct CVf as (d & F & Sm & NW & VD). pose proof CTg as CTg'. apply (c58_tag P _ k h _ _ K' Hh') in CTg. apply (epoch_iff P _ k _ _ _ K') in CE.
  assert (WC : wf_group_context (gi_context (jn_info j))).
  { destruct CM as (? & ? & ? & _ & _ & _ & ? & w & ? & ? & ? & ? & _ & _ & _ & _ & _ & _ & GI). unfold decrypt_group_info in GI.
    apply bind_ok in GI as ([y0 y1] & _ & GI). apply bind_ok in GI as (y2 & _ & GI). apply bind_ok in GI as (y3 & _ & GI). apply de_exact_some in GI as (r & GI). apply (codec_can codec_group_info) in GI as (GW & _). apply GW. }
  assert (TG : exists d, tsized (jn_tree j) d /\ tlen (jn_tree j) < 4294967296 /\ forall x nd, tget (jn_tree j) x = Some nd -> in_tree d x).
  { destruct CT as (raw & rest & _ & T). exists d. split; [left; exact F|]. split; [exact Sm|]. intros x nd Q. destruct (decoded_tree raw _ rest x nd T Q) as (d' & F' & _ & IN & _). unfold full_size in F, F'. rewrite F in F'. unfold in_tree in *. pose proof (IN _ _ Q). lia. }
  destruct (c78_join P h k v (jn_tree j) (jn_info j) jo psk e key (jn_joiner j) (jn_psk j) CS K Hh WT WC TG NW CV VT CTg (vf_hash _ _ _ _ _ VD) TE) as [(A & B & C & D & E)|(e' & key' & E' & K2 & BR)].
  - left. rewrite CE in D. apply Ok_inj in D. auto 6.
  - right. rewrite CE in E'. apply Ok_inj in E'. subst e'. exists key'. split; [|exact BR]. exists (jn_epoch j). split; [apply (epoch_iff P _ k _ _ _ K'), CE|].
    apply (derive_iff P (gc_suite (gi_context (jn_info j)))); [exact K'|reflexivity|exact K2].
Qed.

Lemma epoch_keys_same P cs t t' d e : good t d -> full_size t' d -> (forall x, tget t' x = tget t x) -> epoch_keys P cs t' e = epoch_keys P cs t e.
Proof. intros G F S. unfold epoch_keys. rewrite (usized_leaves t' d (same_usized t t' d G F S)), (usized_leaves t d (good_usized t d G)). reflexivity. Qed.

Lemma c91_hears P k h t gi joiner psk ids psks kp init_priv known kpb wb tree :
  p_hpke P (gc_suite (gi_context gi)) = Ok k -> p_hash P (gc_suite (gi_context gi)) = Ok h -> aead_ok P (gc_suite (gi_context gi)) ->
  invited P k h t gi joiner psk ids psks kp init_priv known kpb wb tree ->
  exists j, passive_join P (gc_suite (gi_context gi)) known kpb init_priv wb tree = Ok j /\ jn_info j = gi /\
    forall e st sds, extract_epoch_secret P (gi_context gi) joiner psk = Ok e -> epoch_keys P (gc_suite (gi_context gi)) t e = Ok (st, sds) ->
    exists st' sds', epoch_keys P (gc_suite (gi_context gi)) (jn_tree j) (jn_epoch j) = Ok (st', sds') /\
      forall leaf l sk gen guard c, leaf_at t leaf = Some l -> key_pair_ok P (gc_suite (gi_context gi)) sk (lp_signature_key (ln_payload l)) ->
        wf_framed_content c -> fc_sender c = SMember leaf -> gen < 4294967296 -> length guard = 4%nat ->
        (forall b, send P (gc_suite (gi_context gi)) (gi_context gi) sk st sds leaf gen guard c = Ok b ->
          exists l' a, leaf_at (jn_tree j) leaf = Some l' /\
            receive P (gc_suite (gi_context gi)) (gi_context gi) (lp_signature_key (ln_payload l')) st' sds' b = Ok a /\ ac_content a = c) /\
        (forall b, send P (gc_suite (gi_context gi)) (gi_context gi) sk st' sds' leaf gen guard c = Ok b ->
          exists a, receive P (gc_suite (gi_context gi)) (gi_context gi) (lp_signature_key (ln_payload l)) st sds b = Ok a /\ ac_content a = c).
Proof.
  intros K Hh A IV. pose proof (c91_joins P k h t gi joiner psk ids psks kp init_priv known kpb wb tree K Hh A IV) as (t' & e & J & C & Same & E).
  exists (MkJoined t' gi joiner psk e). split; [exact J|]. split; [reflexivity|]. cbn [jn_tree jn_epoch]. intros e0 st sds E0 EK. rewrite E in E0. apply Ok_inj in E0. subst e0.
  exists st, sds. split.
  - rewrite <- EK. destruct (reachable_tight P _ t (iv_reachable _ _ _ _ _ _ _ _ _ _ _ _ _ _ _ IV)) as (d & G & T).
    destruct (iv_sent _ _ _ _ _ _ _ _ _ _ _ _ _ _ _ IV) as (rawt & St & _).
    pose proof (travel t d rawt [] G T (iv_nodes _ _ _ _ _ _ _ _ _ _ _ _ _ _ _ IV) St) as (t2 & D2 & F2 & S2).
    apply (epoch_keys_same P _ t t' d e G); [|exact Same].
    pose proof (c91_checked P k h _ known kpb init_priv wb tree (MkJoined t' gi joiner psk e) K Hh J) as [(raw & rest & TS & DT) _ _ _ _ _]. cbn [jn_tree jn_info] in *.
    assert (raw = rawt). { destruct (iv_sent _ _ _ _ _ _ _ _ _ _ _ _ _ _ _ IV) as (r2 & St2 & TS2). rewrite St in St2. apply Ok_inj in St2. subst r2. unfold tree_sent in *. destruct tree; [congruence|].
      apply find_ext_spec in TS. apply find_ext_spec in TS2. congruence. }
    subst raw. rewrite app_nil_r in D2. rewrite DT in D2. apply Ok_inj in D2. injection D2 as -> _. exact F2.
  - intros leaf l sk gen guard c Ll KP W SM G L. split; intros b B.
    + destruct (c75_delivered P _ _ sk _ st sds leaf gen guard c b A KP W SM G L B) as (a & R & Q). exists l, a. split; [|auto]. unfold leaf_at. rewrite Same. exact Ll.
    + exact (c75_delivered P _ _ sk _ st sds leaf gen guard c b A KP W SM G L B).
Qed.

Lemma receive_public_inv P cs ctx pk mk b c : receive_public P cs ctx pk mk b = Ok c <->
  exists v m rest, de_mls_message b = Ok (MkMLSMessage v (WMPublic m), rest) /\ pm_content m = c /\
    verify_content_signature P cs (public_auth_content m) pk ctx = Ok tt /\ verify_membership_tag P cs m mk ctx = Ok tt.
Proof.
  unfold receive_public. split.
  - intros H. apply bind_ok in H as ([v w] & D & H). cbn [mm_wire] in H. destruct w; try discriminate. apply bind_ok in H as (u & A & H). apply bind_ok in H as (u' & B & H). apply Ok_inj in H.
    destruct u, u'. apply (proj1 (assert_ok_unit _)) in A. apply (proj1 (assert_ok_unit _)) in B. apply de_exact_some in D as (rest & D). eauto 8.
  - intros (v & m & rest & D & C & A & B). unfold de_exact. rewrite D. cbn [bind mm_wire]. rewrite (proj2 (assert_ok_unit _) A), (proj2 (assert_ok_unit _) B). cbn [bind]. f_equal. exact C.
Qed.

Lemma c92_delivered P cs ctx sk pk mk c b : key_pair_ok P cs sk pk -> wf_framed_content c ->
  send_public P cs ctx sk mk c = Ok b -> receive_public P cs ctx pk mk b = Ok c.
Proof.
  intros KP W H. unfold send_public in H. apply bind_ok in H as (m & M & H). apply bind_ok in H as (m' & T & H). pose proof M as M0.
  unfold new_public_message in M. apply bind_ok in M as (a & A & M). apply Ok_inj in M. pose proof (c42_verifies P cs sk pk _ c ctx a KP A) as (E1 & E2 & V).
  pose proof (c46_sign P cs m mk ctx m' T) as (C & AU & VT & TG). subst m. cbn [pm_content pm_auth] in *.
  unfold new_auth_content in A. apply bind_ok in A as (s & _ & A). apply Ok_inj in A. subst a. cbn [ac_content ac_auth ac_wire_format] in *.
  assert (WM : wf_public_message m').
  { red. rewrite C, AU. split; [exact W|]. split; [destruct (fc_content c); cbn; auto|]. unfold sign_membership_tag in T. cbn [pm_content] in T. destruct (fc_sender c) eqn:S; try (apply Ok_inj in T; subst m'; reflexivity).
    apply TG. exists leaf_index. exact S. }
  apply receive_public_inv. exists MLS10, m', []. split.
  - pose proof (codec_rt codec_mls_message (MkMLSMessage MLS10 (WMPublic m')) b [] (conj eq_refl WM) H) as R. rewrite app_nil_r in R. exact R.
  - split; [exact C|]. split; [|exact VT]. unfold public_auth_content. rewrite C, AU. exact V.
Qed.

Lemma c92_accepted P cs a h ctx pk mk b c : p_sig P cs = Ok a -> p_hash P cs = Ok h ->
  (receive_public P cs ctx pk mk b = Ok c <->
   exists v m rest t, de_mls_message b = Ok (MkMLSMessage v (WMPublic m), rest) /\ pm_content m = c /\
     content_signed WFPublicMessage c ctx t /\ s_verify a pk t (ad_signature (pm_auth m)) = Ok tt /\
     (from_member m -> exists x, membership_input m ctx x /\ pm_tag m = Some (h_mac h mk x))).
Proof.
  intros A Hh. rewrite receive_public_inv.
  assert (TAG : forall v m rest, de_mls_message b = Ok (MkMLSMessage v (WMPublic m), rest) ->
    (verify_membership_tag P cs m mk ctx = Ok tt <-> (from_member m -> exists x, membership_input m ctx x /\ pm_tag m = Some (h_mac h mk x)))).
  { intros v m rest D. apply message_wf in D as (_ & D). cbn in D. destruct D as (_ & _ & D).
    assert (FM : from_member m \/ ~ from_member m). { unfold from_member. destruct (fc_sender (pm_content m)); [left; eauto|right; intros (i & Q); discriminate..]. }
    destruct FM as [FM|FM].
    - rewrite (c46_iff P cs h m mk ctx Hh FM). destruct FM as (i & S). rewrite S in D. split; [intros [Q|Q]; [contradiction|auto]|]. intros Q. right. apply Q. exists i. exact S.
    - split; [contradiction|]. intros _. apply c46_other, FM. }
  split.
  - intros (v & m & rest & D & C & S & T). apply (verify_iff P cs a _ _ _ A) in S as (t & S1 & S2). exists v, m, rest, t. split; [exact D|]. split; [exact C|]. cbn [ac_wire_format ac_content ac_auth public_auth_content] in *. subst c.
    split; [exact S1|]. split; [exact S2|]. apply (TAG _ _ _ D), T.
  - intros (v & m & rest & t & D & C & S1 & S2 & T). exists v, m, rest. split; [exact D|]. split; [exact C|]. split; [|apply (TAG _ _ _ D), T].
    apply (verify_iff P cs a _ _ _ A). exists t. cbn [ac_wire_format ac_content ac_auth public_auth_content]. subst c. auto.
Qed.

Lemma c92_once P cs h ctx pk mk ctx' pk' mk' b c c' : p_hash P cs = Ok h -> wf_group_context ctx -> wf_group_context ctx' ->
  receive_public P cs ctx pk mk b = Ok c -> receive_public P cs ctx' pk' mk' b = Ok c' -> (exists i, fc_sender c = SMember i) ->
  c = c' /\ (ctx = ctx' \/ tag_collision h b ctx mk ctx' mk').
Proof.
  intros Hh W W' H H' (i & S). apply receive_public_inv in H as (v & m & rest & D & C & _ & T). apply receive_public_inv in H' as (v' & m' & rest' & D' & C' & _ & T').
  rewrite D in D'. apply Ok_inj in D'. injection D' as <- <- <-. subst c c'. split; [reflexivity|].
  pose proof (message_wf _ _ _ D) as (_ & WM). cbn in WM. destruct WM as (W1 & W2 & W3). rewrite S in W3. assert (FM : from_member m) by (exists i; exact S).
  apply (c46_iff P cs h m mk ctx Hh FM) in T as [T|(x & X & T)]; [contradiction|]. apply (c46_iff P cs h m mk' ctx' Hh FM) in T' as [T'|(x' & X' & T')]; [contradiction|].
  rewrite T in T'. injection T' as T'. destruct (bytes_eqb x x') eqn:Q.
  - apply bytes_eqb_eq in Q. subst x'. left. eapply (c46_binds m m ctx ctx' x FM FM W1 W1 W2 W2 W W' X X').
  - right. exists v, m, rest, x, x'. repeat split; auto. intros E. apply bytes_eqb_eq in E. congruence.
Qed.
