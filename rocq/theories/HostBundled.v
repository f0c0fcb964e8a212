(** The bundled providers hash, and the RustCrypto one can host. *)
From Verif Require Import SpecInvitable SpecMessages SpecSecrets SpecProvider SpecSendable ProviderFacts BundledSend StuckFacts.
Local Open Scope N_scope.
Local Open Scope list_scope.

Lemma b_hashes p P cs : sized_prims p -> bundled p P -> In cs (p_supported P) -> exists h, hashes P cs h.
Proof.
  intros Z B I. assert (H : exists h, p_hash P cs = Ok h /\ h_size h = 32) by (destruct (b_suites _ _ _ B I) as [->|[->| ->]]; destruct B as [->| ->]; eexists; split; reflexivity).
  destruct H as (h & H & S). exists h. split; [exact H|]. intros b. destruct (c59_hash p P cs h Z B H) as [Q _]. rewrite Q, S. reflexivity.
Qed.
Lemma c131_bundled p P cs sk : sized_prims p -> bundled p P -> In cs (p_supported P) -> sign_prims p cs sk ->
  (exists h, hashes P cs h) /\ tags P cs /\ signs P cs sk.
Proof. intros Z B I S. split; [exact (b_hashes p P cs Z B I)|]. split; [exact (b_tags p P cs Z B I)|exact (b_signs p P cs sk B I S)]. Qed.
Lemma b_hosts p cs : sized_prims p -> hkdf_prims p -> aead_prims_ok p -> seal_prims p cs -> In cs (p_supported (rust_provider p)) ->
  exists k h, hosts (rust_provider p) cs k h.
Proof.
  intros Z H A S I. assert (B : bundled p (rust_provider p)) by (left; reflexivity). destruct (b_seals p _ cs Z H S B I) as (k & SK & _).
  pose proof (b_tags p _ cs Z B I) as T. destruct T as (h & HH & Q). exists k, h. constructor.
  - destruct (b_suites _ _ _ B I) as [->|[->| ->]]; cbn; auto.
  - exact SK.
  - exact (c60_rust p cs A).
  - exact (c129_bundled p _ cs k Z H B (sl_alg _ _ _ SK)).
  - split; [exact HH|]. intros b. destruct (c59_hash p _ cs h Z B HH) as [W _]. rewrite W.
    assert (E : h_size h = 32) by (destruct (b_suites _ _ _ B I) as [->|[->| ->]]; apply Ok_inj in HH; subst h; reflexivity). rewrite E. reflexivity.
  - exists h. auto.
Qed.
