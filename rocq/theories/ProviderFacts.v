(** Proofs about the bundled providers (SpecProvider.v). *)
From Coq Require Import ZifyBool ZifyNat ZifyN.
From Verif Require Import CodecLib CodecTac WireCodecs CodecFacts TreePaths SecretFacts MessageFacts KeyStoreFacts SpecKeys SpecProvider.
Local Open Scope N_scope.

Definition cipher_suite_dec (a b : cipher_suite) : {a = b} + {a <> b}.
Proof. decide equality. apply N.eq_dec. Defined.
Lemma in_supported cs : In cs provider_supported <-> provider_supports cs = true.
Proof.
  split.
  - intros [<-|[<-|[<-|[]]]]; reflexivity.
  - destruct cs; intros H; try discriminate; cbn; auto.
Qed.
Lemma lookup_rfc table : (table = rust_table \/ table = ring_table) -> forall cs,
  (In cs provider_supported -> exists d, rfc_suite cs = Some d /\ lookup table cs = Ok d) /\
  (~ In cs provider_supported -> lookup table cs = Err UnsupportedCipherSuite).
Proof.
  intros T cs. split.
  - intros I. destruct T; subst table; destruct I as [<-|[<-|[<-|[]]]]; eexists; (split; [reflexivity|reflexivity]).
  - intros N. unfold lookup. destruct (provider_supports cs) eqn:E; [|reflexivity]. exfalso. apply N, in_supported, E.
Qed.
Lemma tables_rfc v : 1 <= v -> v <= 7 -> nth_error rust_table (N.to_nat (v - 1)) = rfc_suite (cipher_suite_of_u16 v) /\ nth_error ring_table (N.to_nat (v - 1)) = rfc_suite (cipher_suite_of_u16 v).
Proof.
  intros A B. assert (C : v = 1 \/ v = 2 \/ v = 3 \/ v = 4 \/ v = 5 \/ v = 6 \/ v = 7) by lia.
  destruct C as [C|[C|[C|[C|[C|[C|C]]]]]]; subst v; split; reflexivity.
Qed.
Lemma c57_rust p cs :
  (In cs (p_supported (rust_provider p)) <-> p_supports (rust_provider p) cs = true) /\
  (In cs (p_supported (rust_provider p)) -> exists d, rfc_suite cs = Some d /\
     p_hash (rust_provider p) cs = Ok (bundled_hash p (d_hash d)) /\ p_hpke (rust_provider p) cs = Ok (rust_hpke p (d_hpke d)) /\
     p_sig (rust_provider p) cs = Ok (MkSig (d_signature d) (rust_sign p (d_signature d)) (bundled_verify p (d_signature d)))) /\
  (~ In cs (p_supported (rust_provider p)) -> p_hash (rust_provider p) cs = Err UnsupportedCipherSuite /\
     p_hpke (rust_provider p) cs = Err UnsupportedCipherSuite /\ p_sig (rust_provider p) cs = Err UnsupportedCipherSuite).
Proof.
  cbn [rust_provider p_supported p_supports p_hash p_hpke p_sig]. split; [apply in_supported|]. destruct (lookup_rfc rust_table (or_introl eq_refl) cs) as [A B]. split.
  - intros I. destruct (A I) as (d & R & L). exists d. rewrite L. auto.
  - intros N. rewrite (B N). auto.
Qed.
Lemma c57_ring p cs :
  (In cs (p_supported (ring_provider p)) <-> p_supports (ring_provider p) cs = true) /\
  (In cs (p_supported (ring_provider p)) -> exists d, rfc_suite cs = Some d /\
     p_hash (ring_provider p) cs = Ok (bundled_hash p (d_hash d)) /\ p_hpke (ring_provider p) cs = Ok (ring_hpke p (d_hpke d)) /\
     p_sig (ring_provider p) cs = Ok (MkSig (d_signature d) (ring_sign p (d_signature d)) (bundled_verify p (d_signature d)))) /\
  (~ In cs (p_supported (ring_provider p)) -> p_hash (ring_provider p) cs = Err UnsupportedCipherSuite /\
     p_hpke (ring_provider p) cs = Err UnsupportedCipherSuite /\ p_sig (ring_provider p) cs = Err UnsupportedCipherSuite).
Proof.
  cbn [ring_provider p_supported p_supports p_hash p_hpke p_sig]. split; [apply in_supported|]. destruct (lookup_rfc ring_table (or_intror eq_refl) cs) as [A B]. split.
  - intros I. destruct (A I) as (d & R & L). exists d. rewrite L. auto.
  - intros N. rewrite (B N). auto.
Qed.

(** ** Sizes *)
Lemma bundled_hash_ok p P cs h : bundled p P -> p_hash P cs = Ok h -> exists s, h = bundled_hash p s.
Proof. intros [->| ->] H; cbn [rust_provider ring_provider p_hash] in H; apply bind_ok in H as (d & _ & H); apply Ok_inj in H; eauto. Qed.
Lemma bundled_hpke_ok p P cs k : bundled p P -> p_hpke P cs = Ok k -> exists s, k = rust_hpke p s \/ k = ring_hpke p s.
Proof. intros [->| ->] H; cbn [rust_provider ring_provider p_hpke] in H; apply bind_ok in H as (d & _ & H); apply Ok_inj in H; subst; eauto. Qed.
Lemma c59_hash p P cs h : sized_prims p -> bundled p P -> p_hash P cs = Ok h ->
  (forall x, N.of_nat (length (h_digest h x)) = h_size h) /\ forall k x, N.of_nat (length (h_mac h k x)) = h_size h.
Proof.
  intros (D & M & _) B H. apply (bundled_hash_ok p) in H as [s ->]; [|exact B]. cbn [bundled_hash h_digest h_mac h_size].
  split; intros; rewrite ?D, ?M; destruct s; reflexivity.
Qed.
Lemma c59_kdf p P cs k : sized_prims p -> bundled p P -> p_hpke P cs = Ok k ->
  (forall s salt, exists b, k_extract k s salt = Ok b /\ N.of_nat (length b) = k_extract_size k) /\
  (forall s i n b, k_expand k s i n = Ok b -> N.of_nat (length b) = n).
Proof.
  intros (_ & M & E) B H. apply (bundled_hpke_ok p) in H as [s S]; [|exact B]. split.
  - intros x salt. exists (pr_hmac p (kdf_hash (hs_kdf s)) salt x). rewrite M. destruct S; subst k; cbn [rust_hpke ring_hpke k_extract k_extract_size]; (split; [reflexivity|]); destruct (hs_kdf s); reflexivity.
  - intros x i n b H. destruct S; subst k; cbn [rust_hpke ring_hpke k_expand] in H; unfold rust_expand, ring_expand in H.
    + destruct (pr_prk _ _ _); [|discriminate]. destruct (pr_expand p (kdf_hash (hs_kdf s)) x i n) eqn:X; [|discriminate]. apply Ok_inj in H. subst. exact (E _ _ _ _ _ X).
    + destruct (pr_expand p (kdf_hash (hs_kdf s)) x i n) eqn:X; [|discriminate]. apply Ok_inj in H. subst. exact (E _ _ _ _ _ X).
Qed.
Lemma c59_working p P cs k : sized_prims p -> hkdf_prims p -> bundled p P -> p_hpke P cs = Ok k -> working_kdf P cs k.
Proof.
  intros Z (A & F) B H. split; [exact H|]. pose proof (c59_kdf p P cs k Z B H) as [_ L]. apply (bundled_hpke_ok p) in H as [s S]; [|exact B].
  intros x i U. unfold usable, nh in U |- *.
  assert (Q : k_extract_size k mod 65536 = N.of_nat (digest_bytes (kdf_hash (hs_kdf s)))) by (destruct S; subst k; cbn [rust_hpke ring_hpke k_extract_size]; destruct (hs_kdf s); reflexivity).
  rewrite Q in U |- *. set (d := digest_bytes _) in *.
  destruct (F (kdf_hash (hs_kdf s)) x i (N.of_nat d)) as [b E]; [unfold d; lia|].
  assert (X : k_expand k x i (N.of_nat d) = Ok b).
  { destruct S; subst k; cbn [rust_hpke ring_hpke k_expand]; unfold rust_expand, ring_expand; rewrite ?A, E by (fold d; lia); reflexivity. }
  exists b. split; [exact X|]. rewrite (L _ _ _ _ X). lia.
Qed.
Lemma c59_agree p P cs h k : bundled p P -> p_hash P cs = Ok h -> p_hpke P cs = Ok k ->
  h_size h = 32 /\ k_extract_size k = 32 /\ a_nonce_size k = 12 /\ (a_key_size k = 16 \/ a_key_size k = 32) /\ (a_key_size k = 32 <-> cs = Suite3).
Proof.
  intros [->| ->] H K; cbn [rust_provider ring_provider p_hash p_hpke] in H, K; unfold lookup in H, K;
    destruct cs; try discriminate; cbn in H, K; apply Ok_inj in H, K; subst; cbn; repeat split; try tauto; try discriminate; try congruence.
Qed.

(** ** AEAD *)
Lemma c60_rust p cs : aead_prims_ok p -> aead_ok (rust_provider p) cs.
Proof.
  intros A h k n pt ad c H S. cbn [rust_provider p_hpke] in H. apply bind_ok in H as (d & _ & H). apply Ok_inj in H. subst h.
  cbn [rust_hpke a_open a_seal] in S |- *. unfold rust_open. destruct (A _ _ _ _ _ _ S) as (t & O & _). rewrite O. reflexivity.
Qed.
Lemma c60_ring p cs h k n pt ad c : aead_prims_ok p -> p_hpke (ring_provider p) cs = Ok h -> a_seal h k n pt ad = Ok c ->
  exists tail, length tail = 16%nat /\ a_open h k n c ad = Ok (pt ++ tail)%list.
Proof.
  intros A H S. cbn [ring_provider p_hpke] in H. apply bind_ok in H as (d & _ & H). apply Ok_inj in H. subst h.
  cbn [ring_hpke a_open a_seal] in S |- *. unfold ring_open. destruct (A _ _ _ _ _ _ S) as (t & O & L). exists t. rewrite O. auto.
Qed.
Lemma c60_ring_never p cs h k n pt ad c : aead_prims_ok p -> p_hpke (ring_provider p) cs = Ok h -> a_seal h k n pt ad = Ok c -> a_open h k n c ad <> Ok pt.
Proof.
  intros A H S O. destruct (c60_ring p cs h k n pt ad c A H S) as (t & L & O'). rewrite O in O'. apply Ok_inj in O'.
  apply (f_equal (@length byte)) in O'. rewrite app_length in O'. lia.
Qed.

(** ** Private messages in the two builds *)
Lemma ring_content_ok ct bs pc : de_private_content ct bs = Ok pc -> de_private_content_ring ct bs = Ok pc.
Proof.
  unfold de_private_content, de_private_content_ring. intros H. apply bind_ok in H as ([c b1] & C & H). rewrite C. cbn [bind].
  apply bind_ok in H as ([a b2] & A & H). rewrite A. cbn [bind]. apply bind_ok in H as (u & _ & H). exact H.
Qed.
Lemma ring_content_rt c p pad : wf_private_content c -> se_private_content c = Ok p -> de_private_content_ring (content_type_of (pc_content c)) (p ++ pad) = Ok c.
Proof.
  intros [Wc Wa] H. destruct c as [c a]. cbn in Wc, Wa. unfold se_private_content in H. cbn in H.
  split_seq. rewrite <- ?app_assoc. unfold de_private_content_ring. cbn [pc_content].
  destruct c; cbn in Hq, Hq0, Wc, Wa |- *; repeat rt_step; reflexivity.
Qed.
Lemma c61_rust_keys p cs sk pk : (forall d, rfc_suite cs = Some d -> pair_prims_ok p (d_signature d) sk pk) -> key_pair_ok (rust_provider p) cs sk pk.
Proof.
  intros K a m s H S. cbn [rust_provider p_sig] in H. apply bind_ok in H as (d & L & H). apply Ok_inj in H. subst a. cbn [s_sign s_verify] in *.
  assert (R : rfc_suite cs = Some d).
  { destruct (lookup_rfc rust_table (or_introl eq_refl) cs) as [A B]. destruct (in_dec cipher_suite_dec cs provider_supported) as [I|N].
    - destruct (A I) as (d' & R & L'). congruence.
    - rewrite (B N) in L. discriminate. }
  specialize (K d R m s). unfold rust_sign in S. unfold bundled_verify.
  destruct (d_signature d); try discriminate; destruct (length sk =? _)%nat; try discriminate; destruct (pr_sign p _ sk m) eqn:E; try discriminate; apply Ok_inj in S; subst; apply K; first [exact E|reflexivity].
Qed.
Lemma c61_ring_keys p cs sk pk : (forall d, rfc_suite cs = Some d -> pair_prims_ok p (d_signature d) sk pk) -> key_pair_ok (ring_provider p) cs sk pk.
Proof.
  intros K a m s H S. cbn [ring_provider p_sig] in H. apply bind_ok in H as (d & L & H). apply Ok_inj in H. subst a. cbn [s_sign s_verify] in *.
  assert (R : rfc_suite cs = Some d).
  { destruct (lookup_rfc ring_table (or_intror eq_refl) cs) as [A B]. destruct (in_dec cipher_suite_dec cs provider_supported) as [I|N].
    - destruct (A I) as (d' & R & L'). congruence.
    - rewrite (B N) in L. discriminate. }
  specialize (K d R m s). unfold ring_sign in S. unfold bundled_verify.
  destruct (d_signature d); try discriminate; try (destruct (length sk =? _)%nat; try discriminate); destruct (pr_sign p _ sk m) eqn:E; try discriminate; apply Ok_inj in S; subst; apply K; first [exact E|reflexivity].
Qed.
Lemma c61_rust p cs sk pk r sds c sd ctx m : aead_prims_ok p -> (forall d, rfc_suite cs = Some d -> pair_prims_ok p (d_signature d) sk pk) ->
  wf_framed_content c -> wf_sender_data sd -> new_private_message (rust_provider p) cs sk r sds c sd ctx = Ok m ->
  decrypt_sender_data (rust_provider p) cs m sds = Ok sd /\
  exists pc, decrypt_content (rust_provider p) cs m r (sd_reuse_guard sd) = Ok pc /\ pc_content pc = fc_content c /\
    (fc_sender c = SMember (sd_leaf_index sd) ->
     ac_content (private_auth_content m sd pc) = c /\ verify_content_signature (rust_provider p) cs (private_auth_content m sd pc) pk ctx = Ok tt).
Proof. intros A K. exact (c43_roundtrip _ cs sk pk r sds c sd ctx m (c60_rust p cs A) (c61_rust_keys p cs sk pk K)). Qed.
Lemma c61_ring p cs sk pk r sds c sd ctx m : aead_prims_ok p -> (forall d, rfc_suite cs = Some d -> pair_prims_ok p (d_signature d) sk pk) ->
  wf_framed_content c -> wf_sender_data sd -> new_private_message (ring_provider p) cs sk r sds c sd ctx = Ok m ->
  decrypt_sender_data (ring_provider p) cs m sds = Ok sd /\
  exists pc, decrypt_content_ring (ring_provider p) cs m r (sd_reuse_guard sd) = Ok pc /\ pc_content pc = fc_content c /\
    (fc_sender c = SMember (sd_leaf_index sd) ->
     ac_content (private_auth_content m sd pc) = c /\ verify_content_signature (ring_provider p) cs (private_auth_content m sd pc) pk ctx = Ok tt).
Proof.
  intros AE K W WS H. pose proof (c61_ring_keys p cs sk pk K) as KP. set (P := ring_provider p) in *.
  unfold new_private_message in H. apply bind_ok in H as (ct & CT & H). apply bind_ok in H as (esd & ES & H). apply Ok_inj in H. subst m.
  unfold encrypt_private_content in CT. apply bind_ok in CT as (a & A & CT). apply bind_ok in CT as (pt & PT & CT).
  apply bind_ok in CT as ([k nonce] & KN & CT). apply bind_ok in CT as (aad & AD & CT). apply bind_ok in CT as (h & Hh & CT).
  unfold encrypt_sender_data in ES. apply bind_ok in ES as (k2 & K2 & ES). apply bind_ok in ES as (n2 & N2 & ES). apply bind_ok in ES as (aad2 & AD2 & ES).
  apply bind_ok in ES as (raw & R & ES). apply bind_ok in ES as (h2 & Hh2 & ES).
  destruct (c42_verifies P cs sk pk _ _ _ _ KP A) as (AW & AC & V).
  destruct (c60_ring p cs _ _ _ _ _ _ AE Hh2 ES) as (t2 & _ & O2). destruct (c60_ring p cs _ _ _ _ _ _ AE Hh CT) as (t1 & _ & O1).
  split.
  - unfold decrypt_sender_data. cbn [pv_ciphertext pv_group_id pv_epoch pv_content_type pv_sender_data]. rewrite K2, N2. cbn [bind]. rewrite AD2. cbn [bind]. rewrite Hh2. cbn [bind].
    rewrite O2. cbn [bind]. unfold de_exact. rewrite (codec_rt codec_sender_data sd raw t2 WS R). reflexivity.
  - exists (MkPrivateContent (fc_content c) (ac_auth a)). split.
    + unfold decrypt_content_ring. cbn [pv_ciphertext pv_group_id pv_epoch pv_content_type pv_auth_data]. rewrite KN. cbn [bind]. rewrite AD. cbn [bind]. rewrite Hh. cbn [bind].
      rewrite O1. cbn [bind].
      apply (ring_content_rt (MkPrivateContent (fc_content c) (ac_auth a)) pt); [|exact PT]. split; [apply W|]. cbn [pc_content pc_auth].
      apply new_auth_ok in A as (_ & _ & _ & _ & _ & _ & _ & T). destruct (content_type_of (fc_content c)); cbn; auto.
    + split; [reflexivity|]. intros S.
      assert (E : private_auth_content (MkPrivate (fc_group_id c) (fc_epoch c) (content_type_of (fc_content c)) (fc_auth_data c) esd ct) sd (MkPrivateContent (fc_content c) (ac_auth a)) = a).
      { unfold private_auth_content. cbn. rewrite <- S. destruct a as [w c0 au]. cbn in AW, AC |- *. subst. destruct c; reflexivity. }
      rewrite E. auto.
Qed.

(** ** Building key packages *)
Lemma c62_never p f1 f2 s b v cred skp s' kp : length (skp_public skp) <> 32%nat ->
  key_package_build (rust_provider p) f1 f2 s b v Suite2 cred skp <> (s', Ok kp).
Proof.
  intros L H. apply build_ok in H as (ekp & ip & ref & raw & rawe & rawi & K & _). apply new_package_ok in K as (leaf & init & h & k & ikm & _ & _ & _ & _ & _ & _ & NL & _).
  apply new_leaf_ok in NL as (_ & _ & _ & _ & _ & _ & tbs & m & sa & _ & _ & SA & S). 
  change (p_sig (rust_provider p) Suite2) with (Ok (MkSig ECDSA_SECP256R1_SHA256 (rust_sign p ECDSA_SECP256R1_SHA256) (bundled_verify p ECDSA_SECP256R1_SHA256))) in SA.
  apply Ok_inj in SA. subst sa. cbn [s_sign] in S. unfold rust_sign in S.
  destruct (Nat.eqb_spec (length (skp_public skp)) 32); [contradiction|discriminate].
Qed.
Lemma c62_panics p f1 f2 s b v cred skp leaf_tbs i1 i2 : length (skp_public skp) <> 32%nat -> skp_scheme skp = ECDSA_SECP256R1_SHA256 ->
  f1 32 = Ok i1 -> f2 32 = Ok i2 ->
  se_leaf_node_tbs (MkLeafPayload (hkp_public (pr_derive p KEM_P256 i2)) (skp_public skp) cred (or_default (b_capabilities b) (MkCapabilities [] [] [] [] []))
     (LSKeyPackage (or_default (b_lifetime b) (MkLifetime 0 0))) (or_default (b_leaf_extensions b) [])) TIKeyPackage = Ok leaf_tbs ->
  fits30 leaf_tbs ->
  key_package_build (rust_provider p) f1 f2 s b v Suite2 cred skp = (s, Panic).
Proof.
  intros L SC F1 F2 T F30. unfold key_package_build, key_package_new, key_package_from_keys, leaf_node_new, sign_with_label.
  change (p_sig (rust_provider p) Suite2) with (Ok (MkSig ECDSA_SECP256R1_SHA256 (rust_sign p ECDSA_SECP256R1_SHA256) (bundled_verify p ECDSA_SECP256R1_SHA256))).
  change (p_hash (rust_provider p) Suite2) with (Ok (bundled_hash p SHA256)).
  change (p_hpke (rust_provider p) Suite2) with (Ok (rust_hpke p (MkHpkeSuite KEM_P256 KDF_SHA256 AES128GCM))).
  cbn [bind s_scheme]. rewrite SC. cbn [scheme_eqb negb bundled_hash h_size hash_size]. rewrite F1, F2. cbn [bind rust_hpke k_derive_key_pair derive_key_pair hs_kem].
  rewrite T. cbn [bind]. rewrite (label_data_eq leaf_node_label leaf_tbs) by (first [reflexivity|exact F30]). cbn [bind s_sign]. unfold rust_sign.
  destruct (Nat.eqb_spec (length (skp_public skp)) 32); [contradiction|]. reflexivity.
Qed.

Lemma c59_all_sizes p s k : k = rust_hpke p s \/ k = ring_hpke p s ->
  k_extract_size k = kdf_bytes (hs_kdf s) /\ a_key_size k = aead_key_bytes (hs_aead s) /\ a_nonce_size k = 12.
Proof. destruct s as [kem kdf ae]. intros [->| ->]; repeat split; destruct kdf, ae; reflexivity. Qed.

Lemma c57_algorithms p P cs d : bundled p P -> In cs (p_supported P) -> rfc_suite cs = Some d ->
  exists h k s, p_hash P cs = Ok h /\ p_hpke P cs = Ok k /\ p_sig P cs = Ok s /\ s_scheme s = d_signature d /\
    (forall x, h_digest h x = pr_digest p (d_hash d) x) /\ (forall key x, h_mac h key x = pr_hmac p (d_hash d) key x) /\
    (forall ikm, k_derive_key_pair k ikm = Ok (pr_derive p (hs_kem (d_hpke d)) ikm)) /\
    (forall secret salt, k_extract k secret salt = Ok (pr_hmac p (hash_of_kdf (hs_kdf (d_hpke d))) salt secret)) /\
    (forall secret info n b, k_expand k secret info n = Ok b -> pr_expand p (hash_of_kdf (hs_kdf (d_hpke d))) secret info n = Some b) /\
    (forall secret info n b, pr_prk p (hash_of_kdf (hs_kdf (d_hpke d))) secret = true ->
       pr_expand p (hash_of_kdf (hs_kdf (d_hpke d))) secret info n = Some b -> k_expand k secret info n = Ok b) /\
    (forall key nonce pt ad, a_seal k key nonce pt ad = pr_seal p (hs_aead (d_hpke d)) key nonce pt ad) /\
    (forall key nonce c ad x, a_open k key nonce c ad = Ok x ->
       exists pt tail, pr_open p (hs_aead (d_hpke d)) key nonce c ad = Ok (pt, tail) /\ (x = pt \/ x = (pt ++ tail)%list)) /\
    (forall sk m sg, s_sign s sk m = Ok sg -> pr_sign p (d_signature d) sk m = Some sg) /\
    (forall sk m sg, length sk = 32%nat -> pr_sign p (d_signature d) sk m = Some sg -> s_sign s sk m = Ok sg) /\
    (forall pk m sg, s_verify s pk m sg = pr_verify p (d_signature d) pk m sg).
Proof.
  intros B I R. assert (C : cs = Suite1 \/ cs = Suite2 \/ cs = Suite3) by (destruct B; subst P; cbn in I; intuition).
  assert (O : forall a key nonce c ad x, rust_open p a key nonce c ad = Ok x -> exists pt tail, pr_open p a key nonce c ad = Ok (pt, tail) /\ x = pt).
  { unfold rust_open. intros a key nonce c ad x E. apply bind_ok in E as ([pt tail] & E & Q). apply Ok_inj in Q. subst. eauto. }
  assert (O' : forall a key nonce c ad x, ring_open p a key nonce c ad = Ok x -> exists pt tail, pr_open p a key nonce c ad = Ok (pt, tail) /\ x = (pt ++ tail)%list).
  { unfold ring_open. intros a key nonce c ad x E. apply bind_ok in E as ([pt tail] & E & Q). apply Ok_inj in Q. subst. eauto. }
  destruct B; subst P; destruct C as [-> |[-> | ->]]; injection R as <-; do 3 eexists; (split; [reflexivity|]); (split; [reflexivity|]); (split; [reflexivity|]);
    cbn [d_hash d_hpke d_signature hs_kem hs_kdf hs_aead s_scheme s_sign s_verify bundled_hash h_digest h_mac rust_hpke ring_hpke k_derive_key_pair k_extract k_expand a_seal a_open hash_of_kdf kdf_hash rust_expand ring_expand bundled_extract derive_key_pair rust_sign ring_sign bundled_verify];
    repeat split; auto;
    try (intros secret info n b; unfold rust_expand, ring_expand; cbn [kdf_hash]; destruct (pr_prk p SHA256 secret); try discriminate; destruct (pr_expand p SHA256 secret info n); try discriminate; congruence);
    try (intros key nonce c ad x E; apply O in E as (pt & tail & E & ->); eauto);
    try (intros key nonce c ad x E; apply O' in E as (pt & tail & E & ->); eauto);
    try (intros sk m sg E; destruct (length sk =? 32)%nat; try discriminate; destruct (pr_sign _ _ sk m); congruence);
    try (intros sk m sg E; destruct (pr_sign _ _ sk m); congruence);
    try (intros sk m sg E F; rewrite E, F; reflexivity); try (intros sk m sg E F; rewrite F; reflexivity).
Qed.
