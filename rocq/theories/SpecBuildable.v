(** What it takes to build a key package. *)
From Verif Require Import SpecMessages SpecSecrets SpecProvider SpecSendable KeyPackage.
Local Open Scope N_scope.

(** What a caller asks for: the signature key, credential, capabilities, lifetime and extensions have encodings, with more than [slack] bytes to spare below 2^30. *)
Definition describable (b : builder) (cred : credential) (skp : signature_key_pair) (slack : N) : Prop :=
  exists leaf exts,
    se_leaf_payload (MkLeafPayload [] (skp_public skp) cred (or_default (b_capabilities b) (MkCapabilities [] [] [] [] []))
      (LSKeyPackage (or_default (b_lifetime b) (MkLifetime 0 0))) (or_default (b_leaf_extensions b) [])) = Ok leaf /\
    se_extensions (or_default (b_extensions b) []) = Ok exts /\ N.of_nat (length leaf) + N.of_nat (length exts) + slack < 1073741824.

(** The provider has the suite, with the signature scheme of the pair; it signs with what the builder signs with, the pair's public
    key (C51); it derives key pairs from any random bytes, and all of them are of ordinary size. *)
Record equipped (P : provider) (cs : cipher_suite) (skp : signature_key_pair) : Prop := {
  eq_scheme : exists a, p_sig P cs = Ok a /\ s_scheme a = skp_scheme skp;
  eq_signs : signs P cs (skp_public skp);
  eq_hash : exists h, p_hash P cs = Ok h;
  eq_derive : exists k, p_hpke P cs = Ok k /\ forall ikm, exists kp, k_derive_key_pair k ikm = Ok kp /\
    N.of_nat (length (hkp_public kp)) < 65536 /\ N.of_nat (length (hkp_private kp)) < 65536
}.
