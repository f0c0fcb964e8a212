(** Proofs for PropBuild.v. *)
From Verif Require Import CodecLib CodecTac WireCodecs MessageFacts KeyStoreFacts ProviderFacts LeafFacts.
From Verif Require Import WireWF SpecBuild.
Local Open Scope N_scope.

Lemma latest_nil {C A} (f : C -> option A) d : latest f [] d d.
Proof. right. split; [intros c []|reflexivity]. Qed.
Lemma latest_snoc {C A} (f : C -> option A) calls x d v :
  latest f calls d v -> latest f (calls ++ [x]) d (match f x with Some w => w | None => v end).
Proof.
  intros H. destruct (f x) as [w|] eqn:E.
  - left. exists calls, x, []. split; [reflexivity|]. split; [exact E|]. intros c [].
  - destruct H as [(pre & c & post & -> & F & N)|[N ->]].
    + left. exists pre, c, (post ++ [x])%list. rewrite <- app_assoc. split; [reflexivity|]. split; [exact F|].
      intros c' [I|[<-|[]]]%in_app_or; auto.
    + right. split; [|reflexivity]. intros c' [I|[<-|[]]]%in_app_or; auto.
Qed.
Lemma latest_unique {C A} (f : C -> option A) calls d v w : latest f calls d v -> latest f calls d w -> v = w.
Proof.
  revert v w. induction calls as [|x l IH] using rev_ind; intros v w H H'.
  - destruct H as [(pre & c & post & E & _)|[_ ->]]; [destruct pre; discriminate|].
    destruct H' as [(pre & c & post & E & _)|[_ ->]]; [destruct pre; discriminate|]. reflexivity.
  - assert (S : forall u, latest f (l ++ [x]) d u -> match f x with Some y => u = y | None => latest f l d u end).
    { intros u [(pre & c & post & E & F & N)|[N ->]].
      - destruct (@exists_last _ (c :: post)) as (q & z & Z); [discriminate|].
        rewrite Z, app_assoc in E. apply app_inj_tail in E as [-> ->].
        destruct q as [|c' q]; cbn [app] in Z.
        + injection Z as <- ->. rewrite F. reflexivity.
        + injection Z as <- ->. assert (f z = None) as -> by (apply N; apply in_or_app; right; left; reflexivity).
          left. exists pre, c, q. split; [reflexivity|]. split; [exact F|]. intros; apply N. apply in_or_app. auto.
      - rewrite (N x) by (apply in_or_app; right; left; reflexivity). right. split; [|reflexivity]. intros; apply N. apply in_or_app. auto. }
    apply S in H. apply S in H'. destruct (f x); [congruence|]. eauto.
Qed.

Lemma cc_latest calls : let c := cc_build (fold_left cc_apply calls crypto_config_builder) in
  latest cc_version_of calls MLS10 (cc_version c) /\ latest cc_suite_of calls Suite1 (cc_suite c).
Proof.
  cbv zeta. unfold cc_build. induction calls as [|x l [IH1 IH2]] using rev_ind; [split; apply latest_nil|].
  rewrite fold_left_app. cbn [fold_left]. set (c := fold_left cc_apply l crypto_config_builder) in *.
  apply (latest_snoc _ _ x) in IH1. apply (latest_snoc _ _ x) in IH2. destruct x; cbn in *; auto.
Qed.
Lemma gcf_latest calls : latest Some calls crypto_config_builder (gcf_crypto (gcf_build (fold_left gcf_with_crypto_config calls group_config_builder))).
Proof.
  unfold gcf_build. induction calls as [|x l IH] using rev_ind; [apply latest_nil|].
  rewrite fold_left_app. cbn [fold_left]. apply (latest_snoc _ _ x) in IH. exact IH.
Qed.

Definition opt_latest {C A} (f : C -> option A) (calls : list C) (d : A) (o : option A) : Prop := latest f calls d (or_default o d).
Lemma opt_snoc {C A} (f : C -> option A) calls x d o :
  opt_latest f calls d o -> opt_latest f (calls ++ [x]) d (match f x with Some w => Some w | None => o end).
Proof. unfold opt_latest. intros H. apply (latest_snoc _ _ x) in H. destruct (f x); exact H. Qed.
Lemma kpb_latest calls d1 d2 d3 d4 : let b := fold_left kpb_apply calls kpb_new in
  opt_latest kp_lifetime_of calls d1 (b_lifetime b) /\ opt_latest kp_extensions_of calls d2 (b_extensions b) /\
  opt_latest kp_capabilities_of calls d3 (b_capabilities b) /\ opt_latest kp_leaf_extensions_of calls d4 (b_leaf_extensions b).
Proof.
  cbv zeta. induction calls as [|x l (IH1 & IH2 & IH3 & IH4)] using rev_ind; [repeat split; apply latest_nil|].
  rewrite fold_left_app. cbn [fold_left]. set (b := fold_left kpb_apply l kpb_new) in *.
  apply (opt_snoc _ _ x) in IH1. apply (opt_snoc _ _ x) in IH2. apply (opt_snoc _ _ x) in IH3. apply (opt_snoc _ _ x) in IH4.
  destruct x; cbn in *; auto.
Qed.
Lemma c65_package calls P f1 f2 s v cs cred skp s' kp :
  key_package_build P f1 f2 s (fold_left kpb_apply calls kpb_new) v cs cred skp = (s', Ok kp) ->
  let p := kp_payload kp in let l := ln_payload (kp_leaf p) in
  latest kp_extensions_of calls [] (kp_extensions p) /\ latest kp_capabilities_of calls (MkCapabilities [] [] [] [] []) (lp_capabilities l) /\
  latest kp_leaf_extensions_of calls [] (lp_extensions l) /\
  exists lt, latest kp_lifetime_of calls (MkLifetime 0 0) lt /\ lp_source l = LSKeyPackage lt.
Proof.
  intros H. apply built_fields in H. destruct H as (_ & _ & E1 & _ & _ & E2 & E3 & E4). cbv zeta.
  destruct (kpb_latest calls (MkLifetime 0 0) [] (MkCapabilities [] [] [] [] []) []) as (L1 & L2 & L3 & L4). unfold opt_latest in *.
  rewrite E1, E3, E4. split; [exact L2|]. split; [exact L3|]. split; [exact L4|]. eexists. split; [exact L1|exact E2].
Qed.

(** ** Key generation *)
Lemma served cs d : lookup rust_table cs = Ok d -> rfc_suite cs = Some d /\ (d_signature d = ED25519 \/ d_signature d = ECDSA_SECP256R1_SHA256) /\ provider_supports cs = true.
Proof. destruct cs; cbn; intros H; try discriminate; injection H as <-; cbn; auto. Qed.
Lemma served_ring cs d : lookup ring_table cs = Ok d -> rfc_suite cs = Some d /\ (d_signature d = ED25519 \/ d_signature d = ECDSA_SECP256R1_SHA256) /\ provider_supports cs = true.
Proof. exact (served cs d). Qed.

Lemma c66_outcome p g P gen cs e : keygen_ok p g -> bundled_keygen p g P gen ->
  (In cs (p_supported P) -> exists skp d, gen cs e = Ok skp /\ rfc_suite cs = Some d /\ skp_scheme skp = d_signature d) /\
  (~ In cs (p_supported P) -> gen cs e = Err UnsupportedCipherSuite).
Proof.
  intros (K1 & K2 & K3) [[-> ->]|[-> ->]]; cbn [rust_provider ring_provider p_supported].
  - destruct (lookup_rfc rust_table (or_introl eq_refl) cs) as [A B]. split; [intros I|intros N; unfold rust_suite_key_pair; rewrite (B N); reflexivity].
    destruct (A I) as (d & R & L). unfold rust_suite_key_pair. rewrite L. cbn [bind]. pose proof (served _ _ L) as (_ & [S|S] & _); rewrite S; unfold rust_key_pair.
    + destruct (K1 e) as [K _]. assert ((length (kg_ed25519_pair g e) <? 32)%nat = false) as -> by (apply Nat.ltb_ge; lia).
      do 2 eexists. split; [reflexivity|]. split; [exact R|]. symmetry. exact S.
    + destruct (kg_ecdsa g _ e). do 2 eexists. split; [reflexivity|]. split; [exact R|]. symmetry. exact S.
  - destruct (lookup_rfc ring_table (or_intror eq_refl) cs) as [A B]. split; [intros I|intros N; unfold ring_suite_key_pair; rewrite (B N); reflexivity].
    destruct (A I) as (d & R & L). unfold ring_suite_key_pair. rewrite L. cbn [bind]. pose proof (served_ring _ _ L) as (_ & [S|S] & _); rewrite S; unfold ring_key_pair.
    + destruct (K3 e) as (pk & -> & _). do 2 eexists. split; [reflexivity|]. split; [exact R|]. symmetry. exact S.
    + destruct (kg_ecdsa g _ e). do 2 eexists. split; [reflexivity|]. split; [exact R|]. symmetry. exact S.
Qed.

Lemma c66_works p g P gen cs e skp : keygen_ok p g -> bundled_keygen p g P gen -> gen cs e = Ok skp ->
  key_pair_ok P cs (skp_private skp) (skp_public skp).
Proof.
  intros (K1 & K2 & K3) B H. destruct B as [[-> ->]|[-> ->]].
  - apply c61_rust_keys. intros d R. unfold rust_suite_key_pair in H. apply bind_ok in H as (d' & D & H).
    pose proof (served _ _ D) as (R' & S & _). assert (d' = d) by congruence. subst d'.
    destruct S as [S|S]; rewrite S in *; unfold rust_key_pair in H.
    + destruct (length _ <? 32)%nat; [discriminate|]. apply Ok_inj in H. subst skp. apply K1.
    + specialize (K2 ECDSA_SECP256R1_SHA256 e). destruct (kg_ecdsa g _ e) as [sk pk]. apply Ok_inj in H. subst skp. exact K2.
  - apply c61_ring_keys. intros d R. unfold ring_suite_key_pair in H. apply bind_ok in H as (d' & D & H).
    pose proof (served_ring _ _ D) as (R' & S & _). assert (d' = d) by congruence. subst d'.
    destruct S as [S|S]; rewrite S in *; unfold ring_key_pair in H.
    + destruct (K3 e) as (pk & E & W). rewrite E in H. apply Ok_inj in H. subst skp. exact W.
    + specialize (K2 ECDSA_SECP256R1_SHA256 e). destruct (kg_ecdsa g _ e) as [sk pk]. apply Ok_inj in H. subst skp. exact K2.
Qed.

(** ** Leaves of built packages *)
Lemma c67_current P f1 f2 s b v cs cred skp s' kp o : key_package_build P f1 f2 s b v cs cred skp = (s', Ok kp) -> (0 < lo_now o)%Z ->
  (forall lt, b_lifetime b = Some lt -> current lt (lo_now o)) -> leaf_verify P (kp_leaf (kp_payload kp)) o <> Ok tt.
Proof.
  intros H T C V. apply built_fields in H. destruct H as (_ & _ & _ & _ & _ & E & _ & _).
  apply leaf_verify_iff in V. destruct V as (_ & _ & V & _). specialize (V _ E T).
  destruct (b_lifetime b) as [lt|]; cbn [or_default] in V.
  - specialize (C lt eq_refl). apply lifetime_iff in V. rewrite lifetime_inverted in V; [discriminate|exact C].
  - destruct V as [V1 V2]. cbn in V1, V2. lia.
Qed.

(** ** Extension lists *)
Lemma find_ext_spec l t d : find_extension_data l t = Some d <->
  exists pre post, l = (pre ++ MkExtension t d :: post)%list /\ forall e, In e pre -> ext_type e <> t.
Proof.
  induction l as [|e l IH]; cbn [find_extension_data].
  - split; [discriminate|]. intros (pre & post & E & _). destruct pre; discriminate.
  - destruct (extension_type_eqb (ext_type e) t) eqn:E.
    + apply extension_type_eqb_eq in E. split.
      * intros H. injection H as <-. exists [], l. split; [destruct e; cbn in *; subst; reflexivity|]. intros x [].
      * intros (pre & post & H & N). destruct pre as [|x pre]; cbn [app] in H.
        -- injection H as -> _. reflexivity.
        -- injection H as <- _. destruct (N e (or_introl eq_refl) E).
    + assert (E' : ext_type e <> t) by (intros C; apply extension_type_eqb_eq in C; congruence). rewrite IH. split.
      * intros (pre & post & -> & N). exists (e :: pre), post. split; [reflexivity|]. intros x [<-|I]; auto.
      * intros (pre & post & H & N). destruct pre as [|x pre]; cbn [app] in H.
        -- injection H as -> _. cbn in E'. congruence.
        -- injection H as <- ->. exists pre, post. split; [reflexivity|]. intros x I. apply N. right. exact I.
Qed.
Lemma find_ext_none l t : find_extension_data l t = None <-> forall e, In e l -> ext_type e <> t.
Proof.
  induction l as [|e l IH]; cbn [find_extension_data]; [split; [intros _ x []|reflexivity]|].
  destruct (extension_type_eqb (ext_type e) t) eqn:E.
  - apply extension_type_eqb_eq in E. split; [discriminate|]. intros H. destruct (H e (or_introl eq_refl) E).
  - assert (E' : ext_type e <> t) by (intros C; apply extension_type_eqb_eq in C; congruence). rewrite IH.
    split; [intros H x [<-|I]; auto|]. intros H x I. apply H. right. exact I.
Qed.
Lemma carried {A} (wf : A -> Prop) ser de (C : codec wf ser de) pre post t x raw b rest : wf_extensions (pre ++ MkExtension t raw :: post) ->
  (forall e, In e pre -> ext_type e <> t) -> wf x -> ser x = Ok raw -> se_extensions (pre ++ MkExtension t raw :: post) = Ok b ->
  exists l, de_extensions (b ++ rest) = Ok (l, rest) /\ find_extension_data l t = Some raw /\ de_exact de raw = Ok x.
Proof.
  intros W N Wx S H. eexists. split; [exact (codec_rt codec_extensions _ _ _ W H)|]. split.
  - apply find_ext_spec. eauto.
  - unfold de_exact. rewrite <- (app_nil_r raw), (codec_rt C _ _ [] Wx S). reflexivity.
Qed.
Lemma wf_around pre post e : wf_extensions pre -> wf_extensions post -> wf_extension e -> wf_extensions (pre ++ e :: post).
Proof. intros A B C. apply Forall_app. split; [exact A|]. constructor; assumption. Qed.
Lemma c68_required pre post x raw b rest : wf_extensions pre -> wf_extensions post -> wf_required_capabilities x ->
  (forall e, In e pre -> ext_type e <> ExtRequiredCapabilities) -> se_required_capabilities x = Ok raw ->
  se_extensions (pre ++ MkExtension ExtRequiredCapabilities raw :: post) = Ok b ->
  exists l, de_extensions (b ++ rest) = Ok (l, rest) /\ find_extension_data l ExtRequiredCapabilities = Some raw /\ de_exact de_required_capabilities raw = Ok x.
Proof. intros A B W N S. apply (carried _ _ _ codec_required_capabilities); auto. apply wf_around; auto. exists 3. split; reflexivity. Qed.
Lemma c68_senders pre post x raw b rest : wf_extensions pre -> wf_extensions post ->
  (forall e, In e pre -> ext_type e <> ExtExternalSenders) -> se_external_senders x = Ok raw ->
  se_extensions (pre ++ MkExtension ExtExternalSenders raw :: post) = Ok b ->
  exists l, de_extensions (b ++ rest) = Ok (l, rest) /\ find_extension_data l ExtExternalSenders = Some raw /\ de_exact de_external_senders raw = Ok x.
Proof. intros A B N S. apply (carried _ _ _ codec_external_senders); auto; [|exact I]. apply wf_around; auto. exists 5. split; reflexivity. Qed.
Lemma c68_pub pre post x raw b rest : wf_extensions pre -> wf_extensions post ->
  (forall e, In e pre -> ext_type e <> ExtExternalPub) -> se_external_pub x = Ok raw ->
  se_extensions (pre ++ MkExtension ExtExternalPub raw :: post) = Ok b ->
  exists l, de_extensions (b ++ rest) = Ok (l, rest) /\ find_extension_data l ExtExternalPub = Some raw /\ de_exact de_external_pub raw = Ok x.
Proof. intros A B N S. apply (carried any _ _ _); auto; [|exact I]. apply wf_around; auto. exists 4. split; reflexivity. Qed.
Lemma c68_appid pre post x raw b rest : wf_extensions pre -> wf_extensions post ->
  (forall e, In e pre -> ext_type e <> ExtApplicationId) -> se_application_id x = Ok raw ->
  se_extensions (pre ++ MkExtension ExtApplicationId raw :: post) = Ok b ->
  exists l, de_extensions (b ++ rest) = Ok (l, rest) /\ find_extension_data l ExtApplicationId = Some raw /\ de_exact de_application_id raw = Ok x.
Proof. intros A B N S. apply (carried any _ _ codec_opaque); auto; [|exact I]. apply wf_around; auto. exists 1. split; reflexivity. Qed.

Lemma c66_schemes p g f s e : keygen_ok p g -> f = rust_key_pair g \/ f = ring_key_pair g ->
  match s with
  | ECDSA_SECP521R1_SHA512 => f s e = Err UnsupportedEcdsa
  | ED448 => f s e = Err UnsupportedEd448
  | _ => exists sk pk, f s e = Ok (MkSigKeyPair sk pk s) /\ pair_prims_ok p s sk pk
  end.
Proof.
  intros (K1 & K2 & K3) F. assert (X : forall s', s' = ECDSA_SECP256R1_SHA256 \/ s' = ECDSA_SECP384R1_SHA384 -> exists sk pk, f s' e = Ok (MkSigKeyPair sk pk s') /\ pair_prims_ok p s' sk pk).
  { intros s' S. pose proof (K2 s' e) as Q. destruct (kg_ecdsa g s' e) as [sk pk] eqn:E. exists sk, pk. split; [|exact Q].
    destruct F as [->| ->], S as [->| ->]; cbn [rust_key_pair ring_key_pair]; rewrite E; reflexivity. }
  destruct s; [apply X; left; reflexivity|apply X; right; reflexivity|destruct F as [->| ->]; reflexivity| |destruct F as [->| ->]; reflexivity].
  destruct F as [->| ->]; cbn [rust_key_pair ring_key_pair].
  - destruct (K1 e) as [L Q]. assert ((length (kg_ed25519_pair g e) <? 32)%nat = false) as -> by (apply Nat.ltb_ge; lia). do 2 eexists. split; [reflexivity|exact Q].
  - destruct (K3 e) as (pk & -> & Q). do 2 eexists. split; [reflexivity|exact Q].
Qed.
