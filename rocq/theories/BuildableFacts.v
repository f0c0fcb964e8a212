(** Key packages can be built. *)
From Verif Require Import SpecMessages SpecSecrets SpecProvider SpecSendable SpecBuildable KeyPackage CodecLib SecretFacts DigestFacts MessageFacts KeyFacts KeyStoreFacts SendableFacts ProviderFacts PrimFacts Primitives BundledSend.
From Coq Require Import ZifyBool ZifyNat ZifyN.
Local Open Scope N_scope.
Local Open Scope list_scope.

Lemma scheme_refl a : scheme_eqb a a = true.
Proof. destruct a; reflexivity. Qed.
Lemma seq_ok (a b : res bytes) x : a +++ b = Ok x -> exists y z, a = Ok y /\ b = Ok z /\ x = y ++ z.
Proof. unfold seqw. intros H. apply bind_ok in H as (y & A & H). apply bind_ok in H as (z & B & H). apply Ok_inj in H. subst. eauto. Qed.
Lemma opaque_small b : N.of_nat (length b) < 65536 -> exists x, se_opaque b = Ok x /\ (length b <= length x <= length b + 4)%nat.
Proof. intros L. exists (vec b). split; [apply se_opaque_vec; unfold fits30; lia|]. unfold vec. rewrite app_length. destruct (_ <? 64); [|destruct (_ <? 16384)]; rewrite be_length; lia. Qed.

(** Another encryption key in a leaf. *)
Lemma payload_other k1 k2 s c a src e x y1 y2 : se_opaque k1 = Ok y1 -> se_opaque k2 = Ok y2 -> se_leaf_payload (MkLeafPayload k1 s c a src e) = Ok x ->
  exists x', se_leaf_payload (MkLeafPayload k2 s c a src e) = Ok x' /\ (length x' + length y1 = length x + length y2)%nat.
Proof.
  intros E1 E2 H. unfold se_leaf_payload in *. cbn [lp_encryption_key lp_signature_key lp_credential lp_capabilities lp_source lp_extensions] in *.
  rewrite E1 in H. apply seq_ok in H as (y & z & Y & Z & ->). apply Ok_inj in Y. subst y. rewrite E2, Z. eexists. split; [reflexivity|]. rewrite !app_length. lia.
Qed.
Lemma signed_small P cs sk l m : signs P cs sk -> fits30 (mls_label l) -> fits30 m -> exists s, sign_with_label P cs sk l m = Ok s /\ N.of_nat (length s) < 65536.
Proof.
  intros (a & A & S) L M. unfold sign_with_label. change (str "MLS 1.0 ") with mls_prefix in *. rewrite (label_data_eq l m L M). cbn [bind]. rewrite A. cbn [bind]. apply S.
Qed.

Section Build.
  Variables (P : provider) (cs : cipher_suite) (skp : signature_key_pair).
  Hypothesis EQ : equipped P cs skp.

  Lemma c130_built f1 f2 s b v cred : (forall n, exists x, f1 n = Ok x) -> (forall n, exists x, f2 n = Ok x) -> describable b cred skp 300000 ->
    exists s' kp, key_package_build P f1 f2 s b v cs cred skp = (s', Ok kp).
  Proof.
    intros F1 F2 (leaf & exts & HL & HE & L). destruct (eq_scheme _ _ _ EQ) as (a & A & SA). destruct (eq_hash _ _ _ EQ) as (h & H). destruct (eq_derive _ _ _ EQ) as (k & K & D).
    destruct (F1 (h_size h)) as (i1 & I1). destruct (F2 (h_size h)) as (i2 & I2). destruct (D i1) as (ini & D1 & U1 & V1). destruct (D i2) as (enc & D2 & U2 & V2).
    destruct (opaque_small _ U2) as (y2 & Y2 & B2). destruct (opaque_small _ U1) as (y1 & Y1 & B1).
    destruct (payload_other [] (hkp_public enc) _ _ _ _ _ leaf [x00] y2 eq_refl Y2 HL) as (lp & LP & LL). cbn [length] in LL.
    unfold key_package_build, key_package_new. rewrite A. cbn [bind]. rewrite SA, scheme_refl. cbn [negb]. rewrite H. cbn [bind]. rewrite I1. cbn [bind]. rewrite K. cbn [bind]. rewrite D1. cbn [bind].
    unfold key_package_from_keys, leaf_node_new. rewrite H. cbn [bind]. rewrite I2. cbn [bind]. rewrite K. cbn [bind]. rewrite D2. cbn [bind].
    set (pl := MkLeafPayload (hkp_public enc) _ _ _ _ _) in *.
    assert (T : se_leaf_node_tbs pl TIKeyPackage = Ok lp). { unfold se_leaf_node_tbs. rewrite LP. cbn [lp_source pl]. unfold seqw. cbn [bind]. rewrite app_nil_r. reflexivity. }
    rewrite T. cbn [bind].
    destruct (signed_small P cs (skp_public skp) leaf_node_label lp (eq_signs _ _ _ EQ) eq_refl) as (s1 & S1 & M1); [unfold fits30; lia|]. rewrite S1. cbn [bind].
    destruct (opaque_small _ M1) as (z1 & Z1 & C1). 
    assert (TB : exists raw, se_key_package_tbs (MkKeyPackageTBS v cs (hkp_public ini) (MkLeafNode pl s1) (or_default (b_extensions b) [])) = Ok raw /\
      (length raw = 4 + length y1 + length lp + length z1 + length exts)%nat).
    { unfold se_key_package_tbs, se_leaf_node, put_u16. cbn [kp_version kp_suite kp_init_key kp_leaf kp_extensions ln_payload ln_signature]. rewrite Y1, LP, Z1, HE. unfold seqw. cbn [bind]. eexists. split; [reflexivity|].
      rewrite !app_length, !be_length. lia. }
    destruct TB as (raw & TB & LR). rewrite TB. cbn [bind].
    destruct (signed_small P cs (skp_public skp) key_package_label raw (eq_signs _ _ _ EQ) eq_refl) as (s2 & S2 & M2); [unfold fits30; lia|]. rewrite S2. cbn [bind sbind].
    destruct (opaque_small _ M2) as (z2 & Z2 & C2). unfold generate_ref, ref_hash, se_key_package. cbn [kp_payload kp_signature kp_suite kp_init_key]. rewrite TB, Z2. rewrite (sq (eq_refl (Ok raw)) (eq_refl (Ok z2))). cbn [bind sbind].
    assert (FR : fits30 (raw ++ z2)) by (unfold fits30; rewrite app_length; lia). rewrite (se_opaque_vec (raw ++ z2) FR). rewrite H.
    assert (RF : exists x, se_opaque (str "MLS 1.0 KeyPackage Reference") = Ok x) by (eexists; vm_compute; reflexivity). destruct RF as (x & RF). rewrite RF. rewrite (sq (eq_refl (Ok x)) (eq_refl (Ok (vec (raw ++ z2))))). cbn [bind sbind].
    unfold se_hpke_key_pair, se_secret_key. destruct (opaque_small _ V2) as (w2 & W2 & _). destruct (opaque_small _ V1) as (w1 & W1 & _). rewrite W2, Y2. rewrite (sq (eq_refl (Ok w2)) (eq_refl (Ok y2))). cbn [bind sbind]. rewrite W1. cbn [sbind].
    eexists. eexists. reflexivity.
  Qed.
End Build.

Lemma c130_only P f1 f2 s b v cs cred skp s' kp : key_package_build P f1 f2 s b v cs cred skp = (s', Ok kp) -> describable b cred skp 0.
Proof.
  intros H. pose proof (built_fields _ _ _ _ _ _ _ _ _ _ _ H) as (_ & _ & EX & SK & CR & SR & CA & LE). apply build_ok in H as (ekp & ip & ref & raw & rawe & rawi & _ & R & S & _).
  unfold generate_ref in R. rewrite S in R. cbn [bind] in R. unfold ref_hash in R. apply bind_ok in R as (inp & R & _). apply seq_ok in R as (q1 & q2 & _ & R & _). apply PassiveFacts.opaque_fits in R.
  unfold se_key_package in S. apply seq_ok in S as (y & z & Y & _ & ->). unfold se_key_package_tbs in Y. apply seq_ok in Y as (a1 & a2 & _ & Y & ->). apply seq_ok in Y as (a3 & a4 & _ & Y & ->).
  apply seq_ok in Y as (a5 & a6 & _ & Y & ->). apply seq_ok in Y as (a7 & a8 & Y & E & ->). unfold se_leaf_node in Y. apply seq_ok in Y as (lp & sg & LP & _ & ->).
  destruct kp as [[kv kc ki [[ek sk cr ca sr le] sig] ke] ks]. cbn [kp_payload kp_leaf ln_payload lp_signature_key lp_credential lp_source lp_capabilities lp_extensions kp_extensions] in *. subst.
  assert (EK : exists y, se_opaque ek = Ok y /\ (1 <= length y)%nat).
  { unfold se_leaf_payload in LP. apply seq_ok in LP as (y & z' & Y & _ & _). cbn [lp_encryption_key] in Y. exists y. split; [exact Y|].
    assert (F : fits30 ek) by exact (PassiveFacts.opaque_fits _ _ Y). rewrite (se_opaque_vec ek F) in Y. apply Ok_inj in Y. subst y. unfold vec. rewrite app_length. destruct (_ <? 64); [|destruct (_ <? 16384)]; rewrite be_length; lia. }
  destruct EK as (y & Y & LY). destruct (payload_other ek [] _ _ _ _ _ lp y [x00] Y eq_refl LP) as (x & X & LX). exists x, a8. split; [exact X|]. split; [exact E|].
  unfold fits30 in R. rewrite !app_length in R. cbn [length] in LX. lia.
Qed.
Lemma c130_scheme P f1 f2 s b v cs cred skp a : p_sig P cs = Ok a -> s_scheme a <> skp_scheme skp -> key_package_build P f1 f2 s b v cs cred skp = (s, Err CipherSuiteNotMatchSignatureScheme).
Proof.
  intros A N. unfold key_package_build, key_package_new. rewrite A. cbn [bind]. destruct (scheme_eqb (s_scheme a) (skp_scheme skp)) eqn:E; [apply scheme_eqb_eq in E; contradiction|]. reflexivity.
Qed.
Lemma c130_bundled p P cs skp : bundled p P -> cs = Suite1 \/ cs = Suite3 -> skp_scheme skp = ED25519 -> sign_prims p cs (skp_public skp) ->
  (forall ikm, N.of_nat (length (hkp_public (pr_derive p KEM_X25519 ikm))) < 65536 /\ N.of_nat (length (hkp_private (pr_derive p KEM_X25519 ikm))) < 65536) -> equipped P cs skp.
Proof.
  intros B C SC S D. assert (I : In cs (p_supported P)) by (destruct B as [->| ->]; destruct C as [->| ->]; cbn; auto).
  constructor; [| exact (b_signs p P cs _ B I S) | |].
  - destruct B as [->| ->]; destruct C as [->| ->]; (eexists; split; [reflexivity|]); rewrite SC; reflexivity.
  - destruct B as [->| ->]; destruct C as [->| ->]; eexists; reflexivity.
  - destruct B as [->| ->]; destruct C as [->| ->]; (eexists; split; [reflexivity|]); intros ikm; (eexists; split; [reflexivity|]); apply D.
Qed.
Lemma real_derive ikm : N.of_nat (length (hkp_public (pr_derive real_prims KEM_X25519 ikm))) < 65536 /\ N.of_nat (length (hkp_private (pr_derive real_prims KEM_X25519 ikm))) < 65536.
Proof.
  assert (A : length (hkp_public (pr_derive real_prims KEM_X25519 ikm)) = 32%nat).
  { cbn [real_prims pr_derive]. unfold dh_derive. cbn [hkp_public]. unfold x25519. destruct (ladder _ _ _ _ _ _ _) as [x z]. apply n_le_length. }
  assert (B : (length (hkp_private (pr_derive real_prims KEM_X25519 ikm)) <= 32)%nat).
  { cbn [real_prims pr_derive]. unfold dh_derive. cbn [hkp_private]. unfold labeled_expand. set (i := (_ ++ _)%list). set (prk := labeled_extract _ _ _ _). clearbody i prk.
    destruct (hkdf_expand sha256_params prk i 32) as [b|] eqn:E; [|cbn [length]; lia]. destruct real_sized as (_ & _ & Z). specialize (Z SHA256 prk i 32 b E). lia. }
  lia.
Qed.
