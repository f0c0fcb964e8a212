(** Proofs about when building a key package comes back. *)
From Verif Require Import WireCodecs TreeCodec CodecLib CodecPanics SpecCodec SecretFacts SpecMessages SpecCalm CalmFacts SpecProvider KeyPackage ProviderFacts MessageFacts.
Local Open Scope N_scope.

Section Build.
Context (P : provider) (cs : cipher_suite) (skp : signature_key_pair) (f1 f2 : N -> res bytes).
Context (HS : returns (p_sig P cs)) (HH : returns (p_hash P cs)) (HK : returns (p_hpke P cs)).
Context (HD : forall k ikm, p_hpke P cs = Ok k -> returns (k_derive_key_pair k ikm)).
Context (HG : forall s msg, p_sig P cs = Ok s -> s_scheme s = skp_scheme skp -> returns (s_sign s (skp_public skp) msg)).
Context (F1 : forall n, returns (f1 n)) (F2 : forall n, returns (f2 n)).

Lemma b_sign s l c : p_sig P cs = Ok s -> s_scheme s = skp_scheme skp -> returns (sign_with_label P cs (skp_public skp) l c).
Proof. intros S E. unfold sign_with_label. apply ret_bind; [apply r_label|intros m _]. rewrite S. cbn. apply HG; assumption. Qed.
Lemma b_leaf s cred src caps exts ti : p_sig P cs = Ok s -> s_scheme s = skp_scheme skp ->
  returns (leaf_node_new P f2 cs cred skp src caps exts ti).
Proof.
  intros S E. unfold leaf_node_new. apply ret_bind; [exact HH|intros h _]. apply ret_bind; [apply F2|intros ikm _]. apply ret_bind; [exact HK|intros k K].
  apply ret_bind; [apply HD, K|intros ekp _]. apply ret_bind; [apply r_leaf_tbs|intros tbs _]. apply ret_bind; [eapply b_sign; eassumption|intros sg _; apply ret_ok].
Qed.
Lemma b_new v cred lt kexts caps lexts : returns (key_package_new P f1 f2 v cs cred skp lt kexts caps lexts) /\
  forall kp ekp i, key_package_new P f1 f2 v cs cred skp lt kexts caps lexts = Ok (kp, ekp, i) -> kp_suite (kp_payload kp) = cs.
Proof.
  split.
  - unfold key_package_new. apply ret_bind; [exact HS|intros s S]. destruct (scheme_eqb (s_scheme s) (skp_scheme skp)) eqn:Q; cbn [negb]; [|apply ret_err].
    assert (E : s_scheme s = skp_scheme skp) by (destruct (s_scheme s), (skp_scheme skp); cbn in Q; first [reflexivity|discriminate Q]).
    apply ret_bind; [exact HH|intros h _]. apply ret_bind; [apply F1|intros ikm _]. apply ret_bind; [exact HK|intros k K]. apply ret_bind; [apply HD, K|intros init _].
    apply ret_bind; [|intros [kp ekp] _; apply ret_ok]. unfold key_package_from_keys. apply ret_bind; [eapply b_leaf; eassumption|intros [lf e] _].
    apply ret_bind; [calm|intros raw _]. apply ret_bind; [eapply b_sign; eassumption|intros sg _; apply ret_ok].
  - intros kp ekp i E. unfold key_package_new in E. apply bind_ok in E as (s & _ & E). destruct (negb _); [discriminate|]. apply bind_ok in E as (h & _ & E). apply bind_ok in E as (ikm & _ & E).
    apply bind_ok in E as (k & _ & E). apply bind_ok in E as (init & _ & E). apply bind_ok in E as ([kp' ekp'] & B & E). injection E as <- <- <-.
    unfold key_package_from_keys in B. apply bind_ok in B as ([lf e] & _ & B). apply bind_ok in B as (raw & _ & B). apply bind_ok in B as (sg & _ & B). injection B as <- <-. reflexivity.
Qed.
Lemma b_build s b v cred : returns (snd (key_package_build P f1 f2 s b v cs cred skp)).
Proof.
  unfold key_package_build, sbind.
  destruct (b_new v cred (or_default (b_lifetime b) (MkLifetime 0 0)) (or_default (b_extensions b) [])
             (or_default (b_capabilities b) (MkCapabilities [] [] [] [] [])) (or_default (b_leaf_extensions b) [])) as [R S].
  destruct (key_package_new _ _ _ _ _ _ _ _ _ _ _) as [[[kp ekp] ip]| | |] eqn:E; [|apply ret_err|destruct R as [[? R]|[? R]]; discriminate R|destruct R as [[? R]|[? R]]; discriminate R].
  specialize (S _ _ _ eq_refl).
  assert (R1 : returns (generate_ref P kp)).
  { unfold generate_ref. apply ret_bind; [calm|intros raw _]. unfold ref_hash. rewrite S. destruct HH as [[h ->]|[e ->]]; calm. }
  destruct R1 as [[rf ->]|[e ->]]; [|apply ret_err].
  assert (R2 : returns (se_key_package kp)) by calm. destruct R2 as [[raw ->]|[e ->]]; [|apply ret_err].
  assert (R3 : returns (se_hpke_key_pair ekp)) by calm. destruct R3 as [[rawe ->]|[e ->]]; [|apply ret_err].
  assert (R4 : returns (se_secret_key ip)) by (unfold se_secret_key; calm). destruct R4 as [[rawi ->]|[e ->]]; [apply ret_ok|apply ret_err].
Qed.
End Build.

Lemma c62_only p P f1 f2 s b v cs cred skp : bundled p P -> (forall n, returns (f1 n)) -> (forall n, returns (f2 n)) ->
  cs <> Suite2 \/ skp_scheme skp <> ECDSA_SECP256R1_SHA256 \/ length (skp_public skp) = 32%nat ->
  returns (snd (key_package_build P f1 f2 s b v cs cred skp)).
Proof.
  intros B F1 F2 C. apply b_build; try assumption.
  - destruct B as [-> | ->]; cbn; (apply ret_bind; [apply lookup_ret; auto|intros; apply ret_ok]).
  - destruct B as [-> | ->]; cbn; (apply ret_bind; [apply lookup_ret; auto|intros; apply ret_ok]).
  - destruct B as [-> | ->]; cbn; (apply ret_bind; [apply lookup_ret; auto|intros; apply ret_ok]).
  - intros k ikm E. destruct B as [-> | ->]; cbn in E; apply bind_ok in E as (d & L & E); injection E as <-; cbn; unfold derive_key_pair; calm.
  - intros a msg E Q. destruct B as [-> | ->]; cbn in E; apply bind_ok in E as (d & L & E); injection E as <-; cbn in Q |- *.
    + destruct (lookup_sig _ _ _ (or_introl eq_refl) L) as [D|[X D]]; rewrite D in Q |- *; [unfold rust_sign; calm|].
      destruct C as [C|[C|C]]; [contradiction|symmetry in Q; contradiction|]. unfold rust_sign. rewrite C. cbn. calm.
    + destruct (lookup_sig _ _ _ (or_intror eq_refl) L) as [D|[X D]]; rewrite D in Q |- *; [unfold ring_sign; calm|].
      destruct C as [C|[C|C]]; [contradiction|symmetry in Q; contradiction|]. unfold ring_sign. rewrite C. cbn. calm.
Qed.

(** The leaf a build signs, given the bytes drawn for its encryption key. *)
Definition built_leaf (p : prims) (i2 : bytes) (b : builder) (cred : credential) (skp : signature_key_pair) : leaf_node_payload :=
  MkLeafPayload (hkp_public (pr_derive p KEM_P256 i2)) (skp_public skp) cred (or_default (b_capabilities b) (MkCapabilities [] [] [] [] []))
    (LSKeyPackage (or_default (b_lifetime b) (MkLifetime 0 0))) (or_default (b_leaf_extensions b) []).

Lemma build_suite2 p P f1 f2 s b v cred skp : bundled p P -> skp_scheme skp = ECDSA_SECP256R1_SHA256 -> length (skp_public skp) <> 32%nat ->
  key_package_build P f1 f2 s b v Suite2 cred skp =
  (s, let* _ := f1 32 in let* i2 := f2 32 in let* tbs := se_leaf_node_tbs (built_leaf p i2 b cred skp) TIKeyPackage in
      let* _ := mls_prefix_label_data leaf_node_label tbs in Panic).
Proof.
  intros B SC L. unfold key_package_build, key_package_new, key_package_from_keys, leaf_node_new, sign_with_label, built_leaf.
  destruct B as [-> | ->].
  - change (p_sig (rust_provider p) Suite2) with (Ok (MkSig ECDSA_SECP256R1_SHA256 (rust_sign p ECDSA_SECP256R1_SHA256) (bundled_verify p ECDSA_SECP256R1_SHA256))).
    change (p_hash (rust_provider p) Suite2) with (Ok (bundled_hash p SHA256)).
    change (p_hpke (rust_provider p) Suite2) with (Ok (rust_hpke p (MkHpkeSuite KEM_P256 KDF_SHA256 AES128GCM))).
    cbn [bind s_scheme]. rewrite SC. cbn [scheme_eqb negb bundled_hash h_size hash_size bind rust_hpke k_derive_key_pair derive_key_pair hs_kem].
    destruct (f1 32) as [i1| | |]; cbn [bind sbind]; try reflexivity. destruct (f2 32) as [i2| | |]; cbn [bind sbind]; try reflexivity.
    destruct (se_leaf_node_tbs _ _) as [tbs| | |]; cbn [bind sbind]; try reflexivity. destruct (mls_prefix_label_data _ _) as [m| | |]; cbn [bind sbind]; try reflexivity.
    cbn [s_sign]. unfold rust_sign. destruct (Nat.eqb_spec (length (skp_public skp)) 32); [contradiction|]. reflexivity.
  - change (p_sig (ring_provider p) Suite2) with (Ok (MkSig ECDSA_SECP256R1_SHA256 (ring_sign p ECDSA_SECP256R1_SHA256) (bundled_verify p ECDSA_SECP256R1_SHA256))).
    change (p_hash (ring_provider p) Suite2) with (Ok (bundled_hash p SHA256)).
    change (p_hpke (ring_provider p) Suite2) with (Ok (ring_hpke p (MkHpkeSuite KEM_P256 KDF_SHA256 AES128GCM))).
    cbn [bind s_scheme]. rewrite SC. cbn [scheme_eqb negb bundled_hash h_size hash_size bind ring_hpke k_derive_key_pair derive_key_pair hs_kem].
    destruct (f1 32) as [i1| | |]; cbn [bind sbind]; try reflexivity. destruct (f2 32) as [i2| | |]; cbn [bind sbind]; try reflexivity.
    destruct (se_leaf_node_tbs _ _) as [tbs| | |]; cbn [bind sbind]; try reflexivity. destruct (mls_prefix_label_data _ _) as [m| | |]; cbn [bind sbind]; try reflexivity.
    cbn [s_sign]. unfold ring_sign. destruct (Nat.eqb_spec (length (skp_public skp)) 32); [contradiction|]. reflexivity.
Qed.

Lemma ret_not_panic {A} (m : res A) : returns m -> m <> Panic.
Proof. intros [[a ->]|[e ->]]; discriminate. Qed.

Lemma c62_exact p P f1 f2 s b v cs cred skp : bundled p P -> (forall n, returns (f1 n)) -> (forall n, returns (f2 n)) ->
  (snd (key_package_build P f1 f2 s b v cs cred skp) = Panic <->
   cs = Suite2 /\ skp_scheme skp = ECDSA_SECP256R1_SHA256 /\ length (skp_public skp) <> 32%nat /\
   exists i1 i2 tbs, f1 32 = Ok i1 /\ f2 32 = Ok i2 /\ se_leaf_node_tbs (built_leaf p i2 b cred skp) TIKeyPackage = Ok tbs /\ fits30 tbs) /\
  snd (key_package_build P f1 f2 s b v cs cred skp) <> Hang.
Proof.
  intros B F1 F2.
  assert (D : (cs = Suite2 /\ skp_scheme skp = ECDSA_SECP256R1_SHA256 /\ length (skp_public skp) <> 32%nat) \/
              (cs <> Suite2 \/ skp_scheme skp <> ECDSA_SECP256R1_SHA256 \/ length (skp_public skp) = 32%nat)).
  { destruct (Nat.eq_dec (length (skp_public skp)) 32) as [E|N]; [tauto|]. destruct cs; try (right; left; discriminate). destruct (skp_scheme skp); try (right; right; left; discriminate). tauto. }
  destruct D as [(-> & SC & L)|C].
  - rewrite (build_suite2 p P f1 f2 s b v cred skp B SC L). cbn [snd]. split.
    + split.
      * intros E. split; [reflexivity|]. split; [exact SC|]. split; [exact L|].
        destruct (F1 32) as [[i1 E1]|[e E1]]; rewrite E1 in E; cbn [bind] in E; [|discriminate E].
        destruct (F2 32) as [[i2 E2]|[e E2]]; rewrite E2 in E; cbn [bind] in E; [|discriminate E].
        destruct (se_leaf_node_tbs _ _) as [tbs| | |] eqn:T; cbn [bind] in E; try discriminate E.
        -- exists i1, i2, tbs. split; [exact E1|]. split; [exact E2|]. split; [exact T|]. destruct (mls_prefix_label_data leaf_node_label tbs) as [m| | |] eqn:M; try discriminate E.
           ++ apply label_data_ok in M. tauto.
           ++ exfalso. apply (ret_not_panic _ (r_label leaf_node_label tbs) M).
        -- exfalso. apply (ret_not_panic _ (r_leaf_tbs _ _) T).
      * intros (_ & _ & _ & i1 & i2 & tbs & E1 & E2 & T & F). rewrite E1, E2. cbn [bind]. rewrite T. cbn [bind]. rewrite (label_data_eq leaf_node_label tbs) by (first [reflexivity|exact F]). reflexivity.
    + destruct (F1 32) as [[i1 ->]|[e ->]]; cbn [bind]; [|discriminate]. destruct (F2 32) as [[i2 ->]|[e ->]]; cbn [bind]; [|discriminate].
      destruct (r_leaf_tbs (built_leaf p i2 b cred skp) TIKeyPackage) as [[t ->]|[e ->]]; cbn [bind]; [|discriminate].
      destruct (r_label leaf_node_label t) as [[m ->]|[e ->]]; discriminate.
  - pose proof (c62_only p P f1 f2 s b v cs cred skp B F1 F2 C) as R. split.
    + split; [intros E; exfalso; apply (ret_not_panic _ R E)|]. intros (E1 & E2 & E3 & _). destruct C as [C|[C|C]]; contradiction.
    + destruct R as [[a ->]|[e ->]]; discriminate.
Qed.
