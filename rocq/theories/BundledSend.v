(** The bundled providers sign, tag and seal. *)
From Verif Require Import SpecMessages SpecSecrets SpecProvider SpecSendable ProviderFacts PrimFacts Primitives.
From Coq Require Import ZifyBool ZifyNat ZifyN.
Local Open Scope N_scope.
Local Open Scope list_scope.

Lemma b_suites p P cs : bundled p P -> In cs (p_supported P) -> cs = Suite1 \/ cs = Suite3 \/ cs = Suite2.
Proof. intros [->| ->] H; cbn in H; intuition. Qed.

Lemma b_signs p P cs sk : bundled p P -> In cs (p_supported P) -> sign_prims p cs sk -> signs P cs sk.
Proof.
  intros B I S. destruct (b_suites _ _ _ B I) as [->|[->| ->]]; destruct B as [->| ->]; (eexists; split; [reflexivity|]);
    (destruct (S _ eq_refl) as [L S']; intros m; destruct (S' m) as (s & E & Q); exists s; split; [|exact Q]);
    cbn [s_sign d_signature] in *; unfold rust_sign, ring_sign; rewrite ?L; cbn [Nat.eqb]; rewrite E; reflexivity.
Qed.
Lemma b_tags p P cs : sized_prims p -> bundled p P -> In cs (p_supported P) -> tags P cs.
Proof.
  intros Z B I. assert (H : exists h, p_hash P cs = Ok h /\ h_size h = 32) by (destruct (b_suites _ _ _ B I) as [->|[->| ->]]; destruct B as [->| ->]; eexists; split; reflexivity).
  destruct H as (h & H & S). exists h. split; [exact H|]. intros k m. destruct (c59_hash p P cs h Z B H) as [_ Q]. rewrite Q, S. reflexivity.
Qed.
Lemma b_seals p P cs : sized_prims p -> hkdf_prims p -> seal_prims p cs -> bundled p P -> In cs (p_supported P) -> exists k, seals P cs k /\ nh k = 32.
Proof.
  intros Z (A & F) SP B I.
  assert (H : exists k d, p_hpke P cs = Ok k /\ rfc_suite cs = Some d /\ (k = rust_hpke p (d_hpke d) \/ k = ring_hpke p (d_hpke d)) /\ hs_kdf (d_hpke d) = KDF_SHA256).
  { destruct (b_suites _ _ _ B I) as [->|[->| ->]]; destruct B as [->| ->]; (eexists; eexists; split; [reflexivity|]; split; [reflexivity|]; split; [|reflexivity]); (left; reflexivity) || (right; reflexivity). }
  destruct H as (k & d & H & D & S & K). exists k. destruct (c59_all_sizes p (d_hpke d) k S) as (E1 & E2 & E3). rewrite K in E1. cbn [kdf_bytes] in E1.
  assert (N : nh k = 32) by (unfold nh; rewrite E1; reflexivity). split; [|exact N].
  assert (KB : a_key_size k <= 32) by (rewrite E2; destruct (hs_aead (d_hpke d)); cbn; lia). pose proof (c59_kdf p P cs k Z B H) as [_ L].
  constructor; try assumption; try (rewrite ?E1, ?E3; lia).
  - intros s i n U Hn. unfold usable in U. rewrite N in U. assert (n <= 32) by lia.
    destruct (F SHA256 s i n ltac:(cbn; lia)) as [b X]. exists b.
    assert (Q : k_expand k s i n = Ok b).
    { destruct S; subst k; cbn [rust_hpke ring_hpke k_expand]; unfold rust_expand, ring_expand; rewrite K; cbn [kdf_hash]; rewrite ?A, X by (cbn; lia); reflexivity. }
    split; [exact Q|exact (L _ _ _ _ Q)].
  - intros key nonce pt aad Lk Ln Lp. destruct (SP d key nonce pt aad D ltac:(lia) ltac:(lia) Lp) as (ct & C & LC). exists ct. split; [destruct S; subst k; exact C|lia].
Qed.

(** The primitives as their standards define them. *)
Lemma n_le_length : forall n x, length (n_le n x) = n.
Proof. induction n as [|n IH]; intros x; cbn [n_le length]; [reflexivity|]. rewrite IH. reflexivity. Qed.
Lemma ed_sign_length seed msg : length (ed_sign seed msg) = 64%nat.
Proof. unfold ed_sign. rewrite app_length, n_le_length. unfold ed_encode. destruct (ed_mul _ _) as [[[x y] z] t]. rewrite n_le_length. reflexivity. Qed.
Lemma real_seals cs : cs = Suite1 \/ cs = Suite3 -> seal_prims real_prims cs.
Proof.
  intros [->| ->] d key nonce pt aad D K N _; cbn in D; injection D as <-; cbn [d_hpke hs_aead real_prims pr_seal aead_seal aead_key_bytes] in *.
  - assert (E : exists c, gcm_seal key nonce pt aad = Ok c). { unfold gcm_seal, gcm_usable. rewrite N. replace (length key) with 16%nat by lia. cbn [Nat.eqb andb]. eexists. reflexivity. }
    destruct E as (c & E). exists c. split; [exact E|]. exact (proj2 (gcm_round _ _ _ _ _ E)).
  - assert (E : exists c, chacha_seal key nonce pt aad = Ok c). { unfold chacha_seal, chacha_usable. rewrite N. replace (length key) with 32%nat by lia. cbn [Nat.eqb andb]. eexists. reflexivity. }
    destruct E as (c & E). exists c. split; [exact E|]. exact (proj2 (chacha_round _ _ _ _ _ E)).
Qed.
Lemma real_signs cs sk : cs = Suite1 \/ cs = Suite3 -> length sk = 32%nat -> sign_prims real_prims cs sk.
Proof.
  intros [->| ->] L d D; cbn in D; injection D as <-; (split; [exact L|]); intros m; exists (ed_sign sk m); rewrite ed_sign_length; (split; [|reflexivity]); cbn [d_signature real_prims pr_sign]; rewrite L; reflexivity.
Qed.
