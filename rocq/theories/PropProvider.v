(** Properties C57 and C59 to C62: the two bundled providers, over arbitrary cryptographic libraries (SpecProvider.v). *)
From Verif Require Import CodecLib TreePaths MessageFacts ProviderFacts.
From Verif Require Import WireWF SpecProvider SpecSecrets ExKeys Primitives PrimFacts.
Local Open Scope N_scope.

(* ------------------------------------------------------------------------------------------- *)
(** * C57 *)

Theorem C57_rust : forall p cs,
  (In cs (p_supported (rust_provider p)) <-> p_supports (rust_provider p) cs = true) /\
  (In cs (p_supported (rust_provider p)) -> exists d, rfc_suite cs = Some d /\
     p_hash (rust_provider p) cs = Ok (bundled_hash p (d_hash d)) /\ p_hpke (rust_provider p) cs = Ok (rust_hpke p (d_hpke d)) /\
     p_sig (rust_provider p) cs = Ok (MkSig (d_signature d) (rust_sign p (d_signature d)) (bundled_verify p (d_signature d)))) /\
  (~ In cs (p_supported (rust_provider p)) -> p_hash (rust_provider p) cs = Err UnsupportedCipherSuite /\
     p_hpke (rust_provider p) cs = Err UnsupportedCipherSuite /\ p_sig (rust_provider p) cs = Err UnsupportedCipherSuite).
Proof. exact c57_rust. Qed.
Print Assumptions C57_rust.
Theorem C57_ring : forall p cs,
  (In cs (p_supported (ring_provider p)) <-> p_supports (ring_provider p) cs = true) /\
  (In cs (p_supported (ring_provider p)) -> exists d, rfc_suite cs = Some d /\
     p_hash (ring_provider p) cs = Ok (bundled_hash p (d_hash d)) /\ p_hpke (ring_provider p) cs = Ok (ring_hpke p (d_hpke d)) /\
     p_sig (ring_provider p) cs = Ok (MkSig (d_signature d) (ring_sign p (d_signature d)) (bundled_verify p (d_signature d)))) /\
  (~ In cs (p_supported (ring_provider p)) -> p_hash (ring_provider p) cs = Err UnsupportedCipherSuite /\
     p_hpke (ring_provider p) cs = Err UnsupportedCipherSuite /\ p_sig (ring_provider p) cs = Err UnsupportedCipherSuite).
Proof. exact c57_ring. Qed.
Print Assumptions C57_ring.
(** Also the rows that are not reachable today. *)
Theorem C57_tables : forall v, 1 <= v -> v <= 7 ->
  nth_error rust_table (N.to_nat (v - 1)) = rfc_suite (cipher_suite_of_u16 v) /\ nth_error ring_table (N.to_nat (v - 1)) = rfc_suite (cipher_suite_of_u16 v).
Proof. exact tables_rfc. Qed.
Print Assumptions C57_tables.

(** What the looked-up objects do, in terms of the libraries: extraction is HMAC keyed with the salt, everything else is passed on in
    order (C60 says which of the two forms an opened plaintext has). *)
Theorem C57_algorithms : forall p P cs d, bundled p P -> In cs (p_supported P) -> rfc_suite cs = Some d ->
  exists h k s, p_hash P cs = Ok h /\ p_hpke P cs = Ok k /\ p_sig P cs = Ok s /\ s_scheme s = d_signature d /\
    (forall x, h_digest h x = pr_digest p (d_hash d) x) /\ (forall key x, h_mac h key x = pr_hmac p (d_hash d) key x) /\
    (forall ikm, k_derive_key_pair k ikm = Ok (pr_derive p (hs_kem (d_hpke d)) ikm)) /\
    (forall secret salt, k_extract k secret salt = Ok (pr_hmac p (hash_of_kdf (hs_kdf (d_hpke d))) salt secret)) /\
    (forall secret info n b, k_expand k secret info n = Ok b -> pr_expand p (hash_of_kdf (hs_kdf (d_hpke d))) secret info n = Some b) /\
    (forall secret info n b, pr_prk p (hash_of_kdf (hs_kdf (d_hpke d))) secret = true ->
       pr_expand p (hash_of_kdf (hs_kdf (d_hpke d))) secret info n = Some b -> k_expand k secret info n = Ok b) /\
    (forall key nonce pt ad, a_seal k key nonce pt ad = pr_seal p (hs_aead (d_hpke d)) key nonce pt ad) /\
    (forall key nonce c ad x, a_open k key nonce c ad = Ok x ->
       exists pt tail, pr_open p (hs_aead (d_hpke d)) key nonce c ad = Ok (pt, tail) /\ (x = pt \/ x = (pt ++ tail)%list)) /\
    (forall sk m sg, s_sign s sk m = Ok sg -> pr_sign p (d_signature d) sk m = Some sg) /\
    (forall sk m sg, length sk = 32%nat -> pr_sign p (d_signature d) sk m = Some sg -> s_sign s sk m = Ok sg) /\
    (forall pk m sg, s_verify s pk m sg = pr_verify p (d_signature d) pk m sg).
Proof. exact c57_algorithms. Qed.
Print Assumptions C57_algorithms.

(** Libraries for the examples: hashes pad or cut to their size, a ciphertext is the plaintext and a 16-byte tag, the public key
    is 1 followed by the private key and a signature is the public key followed by the message. *)
Definition fit (n : nat) (x : bytes) : bytes := firstn n (x ++ repeat x00 n).
Definition ex_atag (k n ad pt : bytes) : bytes := fit 16 (rev pt ++ rev k ++ n ++ ad).
Definition ex_prims : prims :=
  MkPrims (fun h x => fit (digest_bytes h) x) (fun h k x => fit (digest_bytes h) (k ++ x)) (fun h s => (digest_bytes h <=? length s)%nat)
    (fun h s i n => Some (fit (N.to_nat n) (rev i ++ s))) (fun _ ikm => MkHpkeKeyPair ikm (x01 :: ikm))
    (fun _ k n pt ad => Ok (pt ++ ex_atag k n ad pt))
    (fun _ k n c ad => let pt := firstn (length c - 16) c in let tag := skipn (length c - 16) c in
       if bytes_eqb tag (ex_atag k n ad pt) then Ok (pt, tag) else Err RustCryptoError)
    (fun _ sk m => Some (x01 :: sk ++ m))
    (fun _ pk m s => if bytes_eqb s (pk ++ m) then Ok tt else Err RustCryptoError)
    (p_base_seal toy) (p_base_open toy).
Lemma fit_length n x : length (fit n x) = n.
Proof. unfold fit. rewrite firstn_length, app_length, repeat_length. lia. Qed.
Lemma ex_sized : sized_prims ex_prims.
Proof.
  repeat split; intros; cbn [ex_prims pr_digest pr_hmac pr_expand] in *; rewrite ?fit_length; auto.
  injection H as <-. rewrite fit_length. lia.
Qed.
Lemma ex_aead : aead_prims_ok ex_prims.
Proof.
  intros a k n pt ad c H. cbn [ex_prims pr_seal pr_open] in *. apply Ok_inj in H. subst c. exists (ex_atag k n ad pt). split; [|apply fit_length].
  assert (L : (length (pt ++ ex_atag k n ad pt) - 16)%nat = length pt) by (rewrite app_length; unfold ex_atag; rewrite fit_length; lia). rewrite L.
  rewrite firstn_app, Nat.sub_diag, firstn_all, firstn_O, app_nil_r, skipn_app, Nat.sub_diag, skipn_all. cbn [app skipn]. rewrite bytes_eqb_refl. reflexivity.
Qed.
Lemma ex_pair s sk : pair_prims_ok ex_prims s sk (x01 :: sk).
Proof. intros m g H. cbn [ex_prims pr_sign pr_verify] in *. injection H as <-. cbn [app]. rewrite bytes_eqb_refl. reflexivity. Qed.

Example C57_example : In Suite3 (p_supported (rust_provider ex_prims)) /\ ~ In Suite4 (p_supported (rust_provider ex_prims)) /\
  ~ In (SuiteUnknown 0) (p_supported (ring_provider ex_prims)).
Proof. split; [right; left; reflexivity|]. split; intros [H|[H|[H|[]]]]; discriminate. Qed.

(* ------------------------------------------------------------------------------------------- *)
(** * C59 *)

(** Hashes and MACs have the announced length. *)
Theorem C59_hash : forall p P cs h, sized_prims p -> bundled p P -> p_hash P cs = Ok h ->
  (forall x, N.of_nat (length (h_digest h x)) = h_size h) /\ forall k x, N.of_nat (length (h_mac h k x)) = h_size h.
Proof. exact c59_hash. Qed.
Print Assumptions C59_hash.
(** Extraction always works and has the announced length, expansion has the requested one. *)
Theorem C59_kdf : forall p P cs k, sized_prims p -> bundled p P -> p_hpke P cs = Ok k ->
  (forall s salt, exists b, k_extract k s salt = Ok b /\ N.of_nat (length b) = k_extract_size k) /\
  (forall s i n b, k_expand k s i n = Ok b -> N.of_nat (length b) = n).
Proof. exact c59_kdf. Qed.
Print Assumptions C59_kdf.
(** Over HKDF the KDF works: every secret of at least the output size expands to one again. *)
Theorem C59_working : forall p P cs k, sized_prims p -> hkdf_prims p -> bundled p P -> p_hpke P cs = Ok k -> working_kdf P cs k.
Proof. exact c59_working. Qed.
Print Assumptions C59_working.
(** The sizes of the suites the providers serve. *)
Theorem C59_sizes : forall p P cs h k, bundled p P -> p_hash P cs = Ok h -> p_hpke P cs = Ok k ->
  h_size h = 32 /\ k_extract_size k = 32 /\ a_nonce_size k = 12 /\ (a_key_size k = 16 \/ a_key_size k = 32) /\ (a_key_size k = 32 <-> cs = Suite3).
Proof. exact c59_agree. Qed.
Print Assumptions C59_sizes.
(** Also for the algorithms of the suites that are not served today. *)
Theorem C59_all_sizes : forall p s k, k = rust_hpke p s \/ k = ring_hpke p s ->
  k_extract_size k = kdf_bytes (hs_kdf s) /\ a_key_size k = aead_key_bytes (hs_aead s) /\ a_nonce_size k = 12.
Proof. exact c59_all_sizes. Qed.
Print Assumptions C59_all_sizes.
Example C59_example : sized_prims ex_prims /\ bundled ex_prims (ring_provider ex_prims) /\
  (exists h, p_hash (ring_provider ex_prims) Suite3 = Ok h) /\ (exists k, p_hpke (ring_provider ex_prims) Suite3 = Ok k).
Proof. split; [exact ex_sized|]. split; [right; reflexivity|]. split; eexists; reflexivity. Qed.
(** SHA-2, HMAC and HKDF as their standards define them (Primitives.v) are such libraries. *)
Example C59_real : sized_prims real_prims /\ hkdf_prims real_prims /\ exists k, working_kdf (rust_provider real_prims) Suite3 k.
Proof.
  split; [exact real_sized|]. split; [exact real_hkdf|]. eexists.
  apply (C59_working real_prims); [exact real_sized|exact real_hkdf|left; reflexivity|reflexivity].
Qed.

(* ------------------------------------------------------------------------------------------- *)
(** * C60 *)

Theorem C60_rust : forall p cs, aead_prims_ok p -> aead_ok (rust_provider p) cs.
Proof. exact c60_rust. Qed.
Print Assumptions C60_rust.
(** With ring, opening never gives back what was sealed, for any suite, key or message, although the library works: *)
Theorem C60_ring_refuted : forall p cs h k n pt ad c, aead_prims_ok p -> p_hpke (ring_provider p) cs = Ok h -> a_seal h k n pt ad = Ok c -> a_open h k n c ad <> Ok pt.
Proof. exact c60_ring_never. Qed.
Print Assumptions C60_ring_refuted.
(** it gives back the plaintext followed by 16 more bytes. *)
Theorem C60_ring : forall p cs h k n pt ad c, aead_prims_ok p -> p_hpke (ring_provider p) cs = Ok h -> a_seal h k n pt ad = Ok c ->
  exists tail, length tail = 16%nat /\ a_open h k n c ad = Ok (pt ++ tail)%list.
Proof. exact c60_ring. Qed.
Print Assumptions C60_ring.
Example C60_example : aead_prims_ok ex_prims /\ exists h c, p_hpke (ring_provider ex_prims) Suite1 = Ok h /\ a_seal h [x01] [x02] (str "text") [x03] = Ok c /\
  a_open h [x01] [x02] c [x03] = Ok (str "text" ++ rev (str "text") ++ [x01; x02; x03] ++ repeat x00 9)%list.
Proof. split; [exact ex_aead|]. eexists. eexists. split; [reflexivity|]. split; [reflexivity|vm_compute; reflexivity]. Qed.
(** AES-128-GCM and ChaCha20-Poly1305 as their standards define them (Primitives.v) are such libraries. *)
Example C60_real : aead_prims_ok real_prims /\ exists h, p_hpke (rust_provider real_prims) Suite3 = Ok h /\
  match a_seal h (repeat x01 32) (repeat x02 12) (str "text") [x03] with Ok c => a_open h (repeat x01 32) (repeat x02 12) c [x03] = Ok (str "text") | _ => False end.
Proof.
  split; [exact real_aead|]. exists (rust_hpke real_prims (MkHpkeSuite KEM_X25519 KDF_SHA256 ChaCha20Poly1305)).
  split; [reflexivity|]. vm_compute. reflexivity.
Qed.

(* ------------------------------------------------------------------------------------------- *)
(** * C61 *)

Theorem C61_rust : forall p cs sk pk r sds c sd ctx m, aead_prims_ok p -> (forall d, rfc_suite cs = Some d -> pair_prims_ok p (d_signature d) sk pk) ->
  wf_framed_content c -> wf_sender_data sd -> new_private_message (rust_provider p) cs sk r sds c sd ctx = Ok m ->
  decrypt_sender_data (rust_provider p) cs m sds = Ok sd /\
  exists pc, decrypt_content (rust_provider p) cs m r (sd_reuse_guard sd) = Ok pc /\ pc_content pc = fc_content c /\
    (fc_sender c = SMember (sd_leaf_index sd) ->
     ac_content (private_auth_content m sd pc) = c /\ verify_content_signature (rust_provider p) cs (private_auth_content m sd pc) pk ctx = Ok tt).
Proof. exact c61_rust. Qed.
Print Assumptions C61_rust.
(** The tag bytes that ring's opening leaves are taken for padding, which that build does not check. *)
Theorem C61_ring : forall p cs sk pk r sds c sd ctx m, aead_prims_ok p -> (forall d, rfc_suite cs = Some d -> pair_prims_ok p (d_signature d) sk pk) ->
  wf_framed_content c -> wf_sender_data sd -> new_private_message (ring_provider p) cs sk r sds c sd ctx = Ok m ->
  decrypt_sender_data (ring_provider p) cs m sds = Ok sd /\
  exists pc, decrypt_content_ring (ring_provider p) cs m r (sd_reuse_guard sd) = Ok pc /\ pc_content pc = fc_content c /\
    (fc_sender c = SMember (sd_leaf_index sd) ->
     ac_content (private_auth_content m sd pc) = c /\ verify_content_signature (ring_provider p) cs (private_auth_content m sd pc) pk ctx = Ok tt).
Proof. exact c61_ring. Qed.
Print Assumptions C61_ring.
(** Refuted for that build: any bytes at all pass for padding. *)
Theorem C61_padding_refuted : forall c p pad, wf_private_content c -> se_private_content c = Ok p ->
  de_private_content_ring (content_type_of (pc_content c)) (p ++ pad) = Ok c.
Proof. exact ring_content_rt. Qed.
Print Assumptions C61_padding_refuted.

Definition ex_sd1 : sender_data := MkSenderData 2 7 [x01; x02; x03; x04].
Definition ex_rat : ratchet_secret := MkRatchet (repeat x41 32) 7.
Definition ex_sk32 : bytes := repeat x05 32.
Definition ex_msg (P : provider) : res private_message :=
  new_private_message P Suite1 ex_sk32 ex_rat (repeat x42 32) (ex_framed (SMember 2) (CCommit ex_commit)) ex_sd1 ex_gc.
Example C61_example : aead_prims_ok ex_prims /\ pair_prims_ok ex_prims ED25519 ex_sk32 (x01 :: ex_sk32) /\ wf_sender_data ex_sd1 /\
  (exists m, ex_msg (rust_provider ex_prims) = Ok m) /\ (exists m, ex_msg (ring_provider ex_prims) = Ok m) /\
  (exists m e, ex_msg (ring_provider ex_prims) = Ok m /\ decrypt_content (ring_provider ex_prims) Suite1 m ex_rat (sd_reuse_guard ex_sd1) = Err e).
Proof.
  split; [exact ex_aead|]. split; [apply ex_pair|]. split; [repeat split; reflexivity|]. split; [eexists; vm_compute; reflexivity|]. split; [eexists; vm_compute; reflexivity|].
  eexists. eexists. split; [vm_compute; reflexivity|vm_compute; reflexivity].
Qed.
Example C61_padding_example : exists c p, se_private_content c = Ok p /\ pc_content c = CApplication (str "hi") /\
  de_private_content_ring CTApplication (p ++ [x07])%list = Ok c /\ de_private_content CTApplication (p ++ [x07])%list = Err PaddingContainsNonZeroBytes.
Proof.
  exists (MkPrivateContent (CApplication (str "hi")) (MkAuth [x01] [])). eexists. split; [reflexivity|]. split; [reflexivity|]. split; [vm_compute; reflexivity|vm_compute; reflexivity].
Qed.

(* ------------------------------------------------------------------------------------------- *)
(** * C62 *)

(** Refuted: with the default provider and the NIST P-256 suite, building a package panics for every key pair whose public key does
    not have the 32 bytes of a private key (an encoded P-256 point has 33 or 65). *)
Theorem C62_refuted : forall p f1 f2 s b v cred skp leaf_tbs i1 i2, length (skp_public skp) <> 32%nat -> skp_scheme skp = ECDSA_SECP256R1_SHA256 ->
  f1 32 = Ok i1 -> f2 32 = Ok i2 ->
  se_leaf_node_tbs (MkLeafPayload (hkp_public (pr_derive p KEM_P256 i2)) (skp_public skp) cred (or_default (b_capabilities b) (MkCapabilities [] [] [] [] []))
     (LSKeyPackage (or_default (b_lifetime b) (MkLifetime 0 0))) (or_default (b_leaf_extensions b) [])) TIKeyPackage = Ok leaf_tbs ->
  fits30 leaf_tbs ->
  key_package_build (rust_provider p) f1 f2 s b v Suite2 cred skp = (s, Panic).
Proof. exact c62_panics. Qed.
Print Assumptions C62_refuted.
(** So no package of that suite can be built with such a pair. *)
Theorem C62_never_built : forall p f1 f2 s b v cred skp s' kp, length (skp_public skp) <> 32%nat ->
  key_package_build (rust_provider p) f1 f2 s b v Suite2 cred skp <> (s', Ok kp).
Proof. exact c62_never. Qed.
Print Assumptions C62_never_built.
Definition ex_skp2 : signature_key_pair := MkSigKeyPair (repeat x05 32) (x01 :: repeat x05 32) ECDSA_SECP256R1_SHA256.
Example C62_example : length (skp_public ex_skp2) <> 32%nat /\ skp_scheme ex_skp2 = ECDSA_SECP256R1_SHA256 /\ exists t,
  se_leaf_node_tbs (MkLeafPayload (hkp_public (pr_derive ex_prims KEM_P256 (repeat x77 32))) (skp_public ex_skp2) (CredBasic (str "bob"))
     (or_default (b_capabilities ex_builder) (MkCapabilities [] [] [] [] []))
     (LSKeyPackage (or_default (b_lifetime ex_builder) (MkLifetime 0 0))) (or_default (b_leaf_extensions ex_builder) [])) TIKeyPackage = Ok t /\ fits30 t.
Proof. split; [discriminate|]. split; [reflexivity|]. eexists. split; [vm_compute; reflexivity|reflexivity]. Qed.
