(** C130: a key package can be built exactly if what is asked for can be written down. *)
From Verif Require Import SpecMessages SpecSecrets SpecProvider SpecSendable SpecBuildable KeyPackage ProviderFacts PrimFacts Primitives BundledSend BuildableFacts.
Local Open Scope N_scope.

(* ------------------------------------------------------------------------------------------- *)
(** * C130 *)

(** If the provider has the suite and random bytes are to be had, every key package that can be written down with room for keys and
    signatures is built, whatever bytes are drawn and whatever is in the store. *)
Theorem C130_built : forall P cs skp, equipped P cs skp -> forall f1 f2 s b v cred, (forall n, exists x, f1 n = Ok x) -> (forall n, exists x, f2 n = Ok x) ->
  describable b cred skp 300000 -> exists s' kp, key_package_build P f1 f2 s b v cs cred skp = (s', Ok kp).
Proof. exact c130_built. Qed.
Print Assumptions C130_built.

(** Nothing else is ever built, with any provider. *)
Theorem C130_only : forall P f1 f2 s b v cs cred skp s' kp, key_package_build P f1 f2 s b v cs cred skp = (s', Ok kp) -> describable b cred skp 0.
Proof. exact c130_only. Qed.
Print Assumptions C130_only.

(** A key pair of another signature scheme than the suite's is refused as such, and the store stays as it was. *)
Theorem C130_scheme : forall P f1 f2 s b v cs cred skp a, p_sig P cs = Ok a -> s_scheme a <> skp_scheme skp ->
  key_package_build P f1 f2 s b v cs cred skp = (s, Err CipherSuiteNotMatchSignatureScheme).
Proof. exact c130_scheme. Qed.
Print Assumptions C130_scheme.

(** Both bundled providers are equipped for their Ed25519 suites. *)
Theorem C130_bundled : forall p P cs skp, bundled p P -> cs = Suite1 \/ cs = Suite3 -> skp_scheme skp = ED25519 -> sign_prims p cs (skp_public skp) ->
  (forall ikm, N.of_nat (length (hkp_public (pr_derive p KEM_X25519 ikm))) < 65536 /\ N.of_nat (length (hkp_private (pr_derive p KEM_X25519 ikm))) < 65536) ->
  equipped P cs skp.
Proof. exact c130_bundled. Qed.
Print Assumptions C130_bundled.

(** With X25519 and Ed25519 as their standards define them, for any pair with a public key of 32 bytes; and a request that can be written down. *)
Definition ex_request : builder := MkBuilder (Some (MkLifetime 5 9000)) (Some [MkExtension (ExtUnknown 0x0a0a) [x01; x02]]) None (Some []).
Example C130_example : forall pk sk cs, length pk = 32%nat -> cs = Suite1 \/ cs = Suite3 ->
  equipped real_provider cs (MkSigKeyPair sk pk ED25519) /\ describable ex_request (CredBasic (str "bob")) (MkSigKeyPair sk pk ED25519) 300000.
Proof.
  intros pk sk cs L C. split.
  - apply (c130_bundled real_prims); [left; reflexivity|exact C|reflexivity|exact (real_signs cs pk C L)|exact real_derive].
  - assert (Q : exists x, se_opaque pk = Ok x /\ (length x <= 36)%nat) by (destruct (opaque_small pk) as (x & X & B); [rewrite L; reflexivity|exists x; split; [exact X|lia]]).
    destruct Q as (x & X & B). assert (T : exists y, se_credential (CredBasic (str "bob")) +++ se_capabilities (MkCapabilities [] [] [] [] []) +++ se_leaf_node_source (LSKeyPackage (MkLifetime 5 9000)) +++ se_extensions [] = Ok y /\ (length y <= 100)%nat)
      by (eexists; split; [vm_compute; reflexivity|cbn; lia]).
    destruct T as (y & Y & LY). assert (E : exists z, se_extensions [MkExtension (ExtUnknown 0x0a0a) [x01; x02]] = Ok z /\ (length z <= 100)%nat) by (eexists; split; [vm_compute; reflexivity|cbn; lia]).
    destruct E as (z & Z & LZ). exists ([x00] ++ x ++ y)%list, z. split; [|split; [exact Z|rewrite !app_length; cbn [length]; lia]].
    unfold se_leaf_payload. cbn [lp_encryption_key lp_signature_key lp_credential lp_capabilities lp_source lp_extensions skp_public ex_request b_capabilities b_lifetime b_leaf_extensions or_default].
    rewrite X, Y. reflexivity.
Qed.
