(** Properties C65 to C68: builders, generated key pairs, fresh leaves and extension lists (SpecBuild.v). *)
From Verif Require Import CodecLib WireCodecs TreePaths MessageFacts KeyStoreFacts LeafFacts ProviderFacts BuildFacts.
From Verif Require Import WireWF SpecBuild ExKeys PropProvider.
Local Open Scope N_scope.

(* ------------------------------------------------------------------------------------------- *)
(** * C65 *)

Theorem C65_crypto_config : forall calls, let c := cc_build (fold_left cc_apply calls crypto_config_builder) in
  latest cc_version_of calls MLS10 (cc_version c) /\ latest cc_suite_of calls Suite1 (cc_suite c).
Proof. exact cc_latest. Qed.
Print Assumptions C65_crypto_config.
Theorem C65_group_config : forall calls,
  latest Some calls (MkCryptoConfig MLS10 Suite1) (gcf_crypto (gcf_build (fold_left gcf_with_crypto_config calls group_config_builder))).
Proof. exact gcf_latest. Qed.
Print Assumptions C65_group_config.
(** What ends up in a built package, for every sequence of calls to its builder. *)
Theorem C65_package : forall calls P f1 f2 s v cs cred skp s' kp,
  key_package_build P f1 f2 s (fold_left kpb_apply calls kpb_new) v cs cred skp = (s', Ok kp) ->
  let p := kp_payload kp in let l := ln_payload (kp_leaf p) in
  latest kp_extensions_of calls [] (kp_extensions p) /\ latest kp_capabilities_of calls (MkCapabilities [] [] [] [] []) (lp_capabilities l) /\
  latest kp_leaf_extensions_of calls [] (lp_extensions l) /\
  exists lt, latest kp_lifetime_of calls (MkLifetime 0 0) lt /\ lp_source l = LSKeyPackage lt.
Proof. exact c65_package. Qed.
Print Assumptions C65_package.
(** [latest] leaves no choice. *)
Theorem C65_unique : forall (C A : Type) (f : C -> option A) calls d v w, latest f calls d v -> latest f calls d w -> v = w.
Proof. exact @latest_unique. Qed.
Print Assumptions C65_unique.

Definition ex_calls : list kpb_call :=
  [KPLifetime (MkLifetime 1 2); KPExtensions [MkExtension ExtExternalPub [x07]]; KPLifetime (MkLifetime 3 4); KPLeafExtensions []].
Definition ex_built2 (b : builder) : key_store * res key_package :=
  key_package_build toy (ex_fill x31) (ex_fill x77) [] b MLS10 Suite1 (CredBasic (str "bob")) ex_skp.
Definition ex_built_kp (b : builder) : key_package := match snd (ex_built2 b) with Ok kp => kp | _ => ex_kp x01 end.
Example C65_example : (exists s, ex_built2 (fold_left kpb_apply ex_calls kpb_new) = (s, Ok (ex_built_kp (fold_left kpb_apply ex_calls kpb_new)))) /\
  lp_source (ln_payload (kp_leaf (kp_payload (ex_built_kp (fold_left kpb_apply ex_calls kpb_new))))) = LSKeyPackage (MkLifetime 3 4) /\
  cc_suite (cc_build (fold_left cc_apply [CCSuite Suite2; CCVersion (VersionUnsupported 9); CCSuite Suite3] crypto_config_builder)) = Suite3.
Proof. split; [exists (fst (ex_built2 (fold_left kpb_apply ex_calls kpb_new))); vm_compute; reflexivity|]. split; vm_compute; reflexivity. Qed.

(* ------------------------------------------------------------------------------------------- *)
(** * C66 *)

Theorem C66_outcome : forall p g P gen cs e, keygen_ok p g -> bundled_keygen p g P gen ->
  (In cs (p_supported P) -> exists skp d, gen cs e = Ok skp /\ rfc_suite cs = Some d /\ skp_scheme skp = d_signature d) /\
  (~ In cs (p_supported P) -> gen cs e = Err UnsupportedCipherSuite).
Proof. exact c66_outcome. Qed.
Print Assumptions C66_outcome.
(** Scheme by scheme, also those of the suites that are not served today. *)
Theorem C66_schemes : forall p g f s e, keygen_ok p g -> f = rust_key_pair g \/ f = ring_key_pair g ->
  match s with
  | ECDSA_SECP521R1_SHA512 => f s e = Err UnsupportedEcdsa
  | ED448 => f s e = Err UnsupportedEd448
  | _ => exists sk pk, f s e = Ok (MkSigKeyPair sk pk s) /\ pair_prims_ok p s sk pk
  end.
Proof. exact c66_schemes. Qed.
Print Assumptions C66_schemes.
(** What the private key signs verifies under the public key. *)
Theorem C66_works : forall p g P gen cs e skp, keygen_ok p g -> bundled_keygen p g P gen -> gen cs e = Ok skp ->
  key_pair_ok P cs (skp_private skp) (skp_public skp).
Proof. exact c66_works. Qed.
Print Assumptions C66_works.
(** With a signature scheme in which the public key cannot sign, a pair, generated or not, is no use for key packages: each is refused by
    every group. *)
Theorem C66_never_accepted : forall P cs skp f1 f2 s b v cred s' kp ctx, public_key_cannot_sign P cs (skp_public skp) ->
  key_package_build P f1 f2 s b v cs cred skp = (s', Ok kp) -> key_package_verify P kp ctx <> Ok tt.
Proof. intros P cs skp f1 f2 s b v cred s' kp ctx C H. exact (proj1 (c51_rejected _ _ _ _ _ _ _ _ _ _ _ C H) ctx). Qed.
Print Assumptions C66_never_accepted.

(** Libraries in which the public key is the private key with its first byte replaced by 1, a signature is the public key followed by the
    message, and the public key signs with first byte 2; there are two pairs to generate. *)
Definition ex_flip (sk : bytes) : bytes := match sk with x01 :: r => x02 :: r | _ :: r => x01 :: r | [] => [] end.
Definition ex_prims2 : prims :=
  MkPrims (pr_digest ex_prims) (pr_hmac ex_prims) (pr_prk ex_prims) (pr_expand ex_prims) (pr_derive ex_prims) (pr_seal ex_prims) (pr_open ex_prims)
    (fun _ sk m => Some (ex_flip sk ++ m)%list) (fun _ pk m s => if bytes_eqb s (pk ++ m) then Ok tt else Err RustCryptoError) (pr_base_seal ex_prims) (pr_base_open ex_prims).
Definition ex_private (e : bool) : bytes := repeat (if e then x05 else x06) 32.
Definition ex_keygen : keygen :=
  MkKeygen bool (fun e => (ex_private e ++ ex_flip (ex_private e))%list) (fun _ e => (ex_private e, ex_flip (ex_private e))) ex_private (fun s => Some (ex_flip s)).
Lemma ex_keygen_ok : keygen_ok ex_prims2 ex_keygen.
Proof.
  assert (A : forall s sk, pair_prims_ok ex_prims2 s sk (ex_flip sk)).
  { intros s sk m g H. cbn [ex_prims2 pr_sign pr_verify] in *. injection H as <-. rewrite bytes_eqb_refl. reflexivity. }
  split; [|split].
  - intros e. split; [destruct e; reflexivity|]. destruct e; [exact (A ED25519 (ex_private true))|exact (A ED25519 (ex_private false))].
  - intros s e. exact (A s (ex_private e)).
  - intros e. eexists. split; [reflexivity|]. exact (A ED25519 (ex_private e)).
Qed.
Definition ex_skp3 : signature_key_pair := MkSigKeyPair (repeat x05 32) (x01 :: repeat x05 31) ED25519.
Lemma ex_skp3_generated : rust_suite_key_pair ex_keygen Suite3 true = Ok ex_skp3.
Proof. reflexivity. Qed.
Lemma ex_skp3_cannot : public_key_cannot_sign (rust_provider ex_prims2) Suite3 (skp_public ex_skp3).
Proof.
  intros a m s H S V. change (p_sig (rust_provider ex_prims2) Suite3) with
      (Ok (MkSig ED25519 (rust_sign ex_prims2 ED25519) (bundled_verify ex_prims2 ED25519))) in H. apply Ok_inj in H. subst a.
  cbn [s_sign s_verify rust_sign bundled_verify skp_public ex_skp3 ex_prims2 pr_sign pr_verify] in *.
  change (length (x01 :: repeat x05 31) =? 32)%nat with true in S. cbn iota in S. apply Ok_inj in S. subst s.
  match type of V with (if bytes_eqb ?x ?y then _ else _) = _ => destruct (bytes_eqb x y) eqn:E; [|discriminate] end.
  apply bytes_eqb_eq in E. cbn in E. discriminate.
Qed.
(** Refuted: a generated pair whose packages are built and refused by every group. *)
Theorem C66_refuted : exists p g P gen cs e skp f1 f2 s b v cred s' kp, keygen_ok p g /\ bundled_keygen p g P gen /\ gen cs e = Ok skp /\
  key_package_build P f1 f2 s b v cs cred skp = (s', Ok kp) /\ forall ctx, key_package_verify P kp ctx <> Ok tt.
Proof.
  assert (B : exists s kp, key_package_build (rust_provider ex_prims2) (ex_fill x31) (ex_fill x77) [] kpb_new MLS10 Suite3 (CredBasic (str "bob")) ex_skp3 = (s, Ok kp)).
  { vm_compute. eexists. eexists. reflexivity. }
  destruct B as (s & kp & B).
  exists ex_prims2, ex_keygen, (rust_provider ex_prims2), (rust_suite_key_pair ex_keygen), Suite3, true, ex_skp3, (ex_fill x31), (ex_fill x77), [], kpb_new, MLS10, (CredBasic (str "bob")), s, kp.
  split; [exact ex_keygen_ok|]. split; [left; split; reflexivity|]. split; [exact ex_skp3_generated|]. split; [exact B|].
  intros ctx. exact (C66_never_accepted _ _ _ _ _ _ _ _ _ _ _ ctx ex_skp3_cannot B).
Qed.
Print Assumptions C66_refuted.
Example C66_example : ring_suite_key_pair ex_keygen Suite3 true = Ok ex_skp3 /\
  key_pair_ok (rust_provider ex_prims2) Suite3 (skp_private ex_skp3) (skp_public ex_skp3) /\
  rust_suite_key_pair ex_keygen Suite4 true = Err UnsupportedCipherSuite.
Proof.
  split; [reflexivity|]. split; [|reflexivity].
  exact (C66_works _ ex_keygen _ _ _ true _ ex_keygen_ok (or_introl (conj eq_refl eq_refl)) ex_skp3_generated).
Qed.

(* ------------------------------------------------------------------------------------------- *)
(** * C67 *)

(** Refuted for every package: built without a lifetime, or with one that covers the present, its leaf fails the leaf check of every group. *)
Theorem C67_refuted : forall P f1 f2 s b v cs cred skp s' kp o, key_package_build P f1 f2 s b v cs cred skp = (s', Ok kp) -> (0 < lo_now o)%Z ->
  (forall lt, b_lifetime b = Some lt -> current lt (lo_now o)) -> leaf_verify P (kp_leaf (kp_payload kp)) o <> Ok tt.
Proof. exact c67_current. Qed.
Print Assumptions C67_refuted.
Definition ex_lt : builder := kpb_with_lifetime kpb_new (MkLifetime 0 9000000000).
Example C67_example : (exists s, ex_built2 ex_lt = (s, Ok (ex_built_kp ex_lt))) /\ current (MkLifetime 0 9000000000) 5000000000000%Z /\
  leaf_verify toy (kp_leaf (kp_payload (ex_built_kp ex_lt))) (MkLeafOptions Suite1 (str "g") 0 [CtBasic] [] [] 5000000000000%Z) = Err LifetimeVerificationFailed /\
  leaf_verify toy (kp_leaf (kp_payload (ex_built_kp ex_lt))) (MkLeafOptions Suite1 (str "g") 0 [CtBasic] [] [] 9000000000001%Z) = Ok tt.
Proof.
  split; [exists (fst (ex_built2 ex_lt)); vm_compute; reflexivity|]. split; [split; discriminate|]. split; vm_compute; reflexivity.
Qed.

(* ------------------------------------------------------------------------------------------- *)
(** * C68 *)

Theorem C68_find : forall l t d, find_extension_data l t = Some d <->
  exists pre post, l = (pre ++ MkExtension t d :: post)%list /\ forall e, In e pre -> ext_type e <> t.
Proof. exact find_ext_spec. Qed.
Print Assumptions C68_find.
Theorem C68_find_none : forall l t, find_extension_data l t = None <-> forall e, In e l -> ext_type e <> t.
Proof. exact find_ext_none. Qed.
Print Assumptions C68_find_none.
(** What is put into an extension list comes out at the other end. *)
Theorem C68_required_capabilities : forall pre post x raw b rest, wf_extensions pre -> wf_extensions post -> wf_required_capabilities x ->
  (forall e, In e pre -> ext_type e <> ExtRequiredCapabilities) -> se_required_capabilities x = Ok raw ->
  se_extensions (pre ++ MkExtension ExtRequiredCapabilities raw :: post) = Ok b ->
  exists l, de_extensions (b ++ rest) = Ok (l, rest) /\ find_extension_data l ExtRequiredCapabilities = Some raw /\ de_exact de_required_capabilities raw = Ok x.
Proof. exact c68_required. Qed.
Print Assumptions C68_required_capabilities.
Theorem C68_external_senders : forall pre post x raw b rest, wf_extensions pre -> wf_extensions post ->
  (forall e, In e pre -> ext_type e <> ExtExternalSenders) -> se_external_senders x = Ok raw ->
  se_extensions (pre ++ MkExtension ExtExternalSenders raw :: post) = Ok b ->
  exists l, de_extensions (b ++ rest) = Ok (l, rest) /\ find_extension_data l ExtExternalSenders = Some raw /\ de_exact de_external_senders raw = Ok x.
Proof. exact c68_senders. Qed.
Print Assumptions C68_external_senders.
Theorem C68_external_pub : forall pre post x raw b rest, wf_extensions pre -> wf_extensions post ->
  (forall e, In e pre -> ext_type e <> ExtExternalPub) -> se_external_pub x = Ok raw ->
  se_extensions (pre ++ MkExtension ExtExternalPub raw :: post) = Ok b ->
  exists l, de_extensions (b ++ rest) = Ok (l, rest) /\ find_extension_data l ExtExternalPub = Some raw /\ de_exact de_external_pub raw = Ok x.
Proof. exact c68_pub. Qed.
Print Assumptions C68_external_pub.
Theorem C68_application_id : forall pre post x raw b rest, wf_extensions pre -> wf_extensions post ->
  (forall e, In e pre -> ext_type e <> ExtApplicationId) -> se_application_id x = Ok raw ->
  se_extensions (pre ++ MkExtension ExtApplicationId raw :: post) = Ok b ->
  exists l, de_extensions (b ++ rest) = Ok (l, rest) /\ find_extension_data l ExtApplicationId = Some raw /\ de_exact de_application_id raw = Ok x.
Proof. exact c68_appid. Qed.
Print Assumptions C68_application_id.
Example C68_example : exists raw b, se_external_senders (MkExtSenders [x01; x02] (CredBasic (str "eve"))) = Ok raw /\
  se_extensions ([MkExtension (ExtUnknown 77) [x09]] ++ MkExtension ExtExternalSenders raw :: [MkExtension ExtExternalSenders []])%list = Ok b /\
  wf_extensions [MkExtension (ExtUnknown 77) [x09]].
Proof. eexists. eexists. split; [vm_compute; reflexivity|]. split; [vm_compute; reflexivity|]. repeat constructor. exists 77. split; reflexivity. Qed.
