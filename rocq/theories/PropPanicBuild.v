(** C62, exactly: when building a key package with a bundled provider panics. *)
From Verif Require Import CodecLib SpecCodec SpecCalm SpecProvider SpecSecrets KeyPackage ExKeys PropProvider PanicBuildFacts.
Local Open Scope N_scope.

(** Whenever requests for random bytes come back, building a package of any suite, for any key pair, builder and store, never runs
    on for ever, and panics in exactly one situation: the suite is the NIST P-256 one, the pair is for that suite's scheme, its public
    key has not 32 bytes, both requests are granted and the leaf can be encoded for signing. *)
Theorem C62_exact : forall p P f1 f2 s b v cs cred skp, bundled p P -> (forall n, returns (f1 n)) -> (forall n, returns (f2 n)) ->
  (snd (key_package_build P f1 f2 s b v cs cred skp) = Panic <->
   cs = Suite2 /\ skp_scheme skp = ECDSA_SECP256R1_SHA256 /\ length (skp_public skp) <> 32%nat /\
   exists i1 i2 tbs, f1 32 = Ok i1 /\ f2 32 = Ok i2 /\
     se_leaf_node_tbs (MkLeafPayload (hkp_public (pr_derive p KEM_P256 i2)) (skp_public skp) cred
       (or_default (b_capabilities b) (MkCapabilities [] [] [] [] [])) (LSKeyPackage (or_default (b_lifetime b) (MkLifetime 0 0)))
       (or_default (b_leaf_extensions b) [])) TIKeyPackage = Ok tbs /\ fits30 tbs) /\
  snd (key_package_build P f1 f2 s b v cs cred skp) <> Hang.
Proof. exact c62_exact. Qed.
Print Assumptions C62_exact.

(** So for every other suite, and for a P-256 pair whose public key has 32 bytes, the builder returns a package or an error. *)
Theorem C62_otherwise : forall p P f1 f2 s b v cs cred skp, bundled p P -> (forall n, returns (f1 n)) -> (forall n, returns (f2 n)) ->
  cs <> Suite2 \/ skp_scheme skp <> ECDSA_SECP256R1_SHA256 \/ length (skp_public skp) = 32%nat ->
  (exists kp, snd (key_package_build P f1 f2 s b v cs cred skp) = Ok kp) \/
  (exists e, snd (key_package_build P f1 f2 s b v cs cred skp) = Err e).
Proof. exact c62_only. Qed.
Print Assumptions C62_otherwise.

(** Both sides occur: the pair of [C62_example] panics with either provider, and the same pair with a public key cut to 32 bytes
    gives a package. *)
Example C62_exact_example : bundled ex_prims (ring_provider ex_prims) /\
  let f n := Ok (repeat x77 (N.to_nat n)) in let b := MkBuilder None None None None in
  (forall n, returns (f n)) /\
  snd (key_package_build (rust_provider ex_prims) f f [] b MLS10 Suite2 (CredBasic (str "bob")) ex_skp2) = Panic /\
  snd (key_package_build (ring_provider ex_prims) f f [] b MLS10 Suite2 (CredBasic (str "bob")) ex_skp2) = Panic /\
  exists kp, snd (key_package_build (ring_provider ex_prims) f f [] b MLS10 Suite2 (CredBasic (str "bob"))
    (MkSigKeyPair (repeat x05 32) (repeat x05 32) ECDSA_SECP256R1_SHA256)) = Ok kp.
Proof.
  split; [right; reflexivity|]. intros f b. split; [intros n; left; eexists; reflexivity|]. split; [vm_compute; reflexivity|]. split; [vm_compute; reflexivity|].
  eexists. vm_compute. reflexivity.
Qed.
