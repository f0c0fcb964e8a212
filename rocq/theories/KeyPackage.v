(** Model of key packages and the key store: rmls/src/key_package/mod.rs, rmls/src/key_package/builder.rs,
    rmls/src/crypto/provider/key_store.rs. *)
From Verif Require Export Crypto LeafNode.
Local Open Scope N_scope.

(** The derived equality of framing/mod.rs:26 (ProtocolVersion): variants are compared, not their wire values. *)
Definition version_eqb (a b : protocol_version) : bool :=
  match a, b with
  | MLS10, MLS10 => true
  | VersionUnsupported x, VersionUnsupported y => x =? y
  | _, _ => false
  end.
(** The derived equality of crypto/cipher_suite.rs:9 (CipherSuite). *)
Definition suite_eqb (a b : cipher_suite) : bool :=
  match a, b with
  | Suite1, Suite1 | Suite2, Suite2 | Suite3, Suite3 | Suite4, Suite4 | Suite5, Suite5 | Suite6, Suite6 | Suite7, Suite7 => true
  | SuiteUnknown x, SuiteUnknown y => x =? y
  | _, _ => false
  end.
(** The derived equality of SignatureScheme (crypto/provider/mod.rs), compared in key_package/mod.rs:159-165. *)
Definition scheme_eqb (a b : signature_scheme) : bool :=
  match a, b with
  | ECDSA_SECP256R1_SHA256, ECDSA_SECP256R1_SHA256 | ECDSA_SECP384R1_SHA384, ECDSA_SECP384R1_SHA384
  | ECDSA_SECP521R1_SHA512, ECDSA_SECP521R1_SHA512 | ED25519, ED25519 | ED448, ED448 => true
  | _, _ => false
  end.

(** Models key_package/mod.rs:27. *)
Definition key_package_label : bytes := str "KeyPackageTBS".

(** Models key_package/mod.rs:190-228 (KeyPackage::from_keys). The signing key is the pair's public key, as in the code (line 222). *)
Definition key_package_from_keys (P : provider) (fill : N -> res bytes) (v : protocol_version) (cs : cipher_suite) (cred : credential)
    (skp : signature_key_pair) (lt : lifetime) (kexts : extensions) (caps : capabilities) (lexts : extensions) (init : bytes)
    : res (key_package * hpke_key_pair) :=
  let* (leaf, ekp) := leaf_node_new P fill cs cred skp (LSKeyPackage lt) caps lexts TIKeyPackage in
  let payload := MkKeyPackageTBS v cs init leaf kexts in
  let* raw := se_key_package_tbs payload in
  let* sig := sign_with_label P cs (skp_public skp) key_package_label raw in
  Ok (MkKeyPackage payload sig, ekp).

(** Models key_package/mod.rs:149-187 (KeyPackage::new). [fill1] and [fill2] are the outcomes of the two requests for random bytes. *)
Definition key_package_new (P : provider) (fill1 fill2 : N -> res bytes) (v : protocol_version) (cs : cipher_suite) (cred : credential)
    (skp : signature_key_pair) (lt : lifetime) (kexts : extensions) (caps : capabilities) (lexts : extensions)
    : res (key_package * hpke_key_pair * bytes) :=
  let* s := p_sig P cs in
  if negb (scheme_eqb (s_scheme s) (skp_scheme skp)) then Err CipherSuiteNotMatchSignatureScheme else
  let* h := p_hash P cs in
  let* ikm := fill1 (h_size h) in
  let* k := p_hpke P cs in
  let* init := k_derive_key_pair k ikm in
  let* (kp, ekp) := key_package_from_keys P fill2 v cs cred skp lt kexts caps lexts (hkp_public init) in
  Ok (kp, ekp, hkp_private init).

(** Models key_package/mod.rs:230-241 (verify_signature). *)
Definition key_package_verify_signature (P : provider) (kp : key_package) : res unit :=
  let* raw := se_key_package_tbs (kp_payload kp) in
  verify_with_label P (kp_suite (kp_payload kp)) (lp_signature_key (ln_payload (kp_leaf (kp_payload kp)))) key_package_label raw (kp_signature kp).

(** Models key_package/mod.rs:244-262 (KeyPackage::verify). *)
Definition key_package_verify (P : provider) (kp : key_package) (ctx : group_context) : res unit :=
  let p := kp_payload kp in
  if negb (version_eqb (kp_version p) (gc_version ctx)) then Err KeyPackageVersionNotMatchGroupContext else
  if negb (suite_eqb (kp_suite p) (gc_suite ctx)) then Err CipherSuiteNotMatchGroupContext else
  match lp_source (ln_payload (kp_leaf p)) with
  | LSKeyPackage _ =>
      let* ok := is_ok (key_package_verify_signature P kp) in
      if negb ok then Err InvalidKeyPackageSignature else
      if bytes_eqb (lp_encryption_key (ln_payload (kp_leaf p))) (kp_init_key p) then Err KeyPackageEncryptionKeyAndInitKeyIdentical else
      Ok tt
  | _ => Err KeyPackageContainsLeafNodeWithInvalidSource
  end.

(** Models key_package/mod.rs:267-277 (generate_ref). *)
Definition generate_ref (P : provider) (kp : key_package) : res bytes :=
  let* raw := se_key_package kp in
  ref_hash P (kp_suite (kp_payload kp)) (str "MLS 1.0 KeyPackage Reference") raw.

(** Models crypto/provider/key_store.rs:6 (MemoryKeyStore): the hash map as an association list. The lock is never poisoned: no code
    that holds it panics. *)
Definition key_store : Type := list (bytes * bytes).
(** Models key_store.rs:18-21 (retrieve). *)
Fixpoint ks_retrieve (s : key_store) (k : bytes) : option bytes :=
  match s with
  | [] => None
  | (k', v) :: r => if bytes_eqb k k' then Some v else ks_retrieve r k
  end.
(** Models key_store.rs:23-26 (delete): the store afterwards; the value returned is [ks_retrieve s k]. *)
Fixpoint ks_delete (s : key_store) (k : bytes) : key_store :=
  match s with
  | [] => []
  | (k', v) :: r => if bytes_eqb k k' then ks_delete r k else (k', v) :: ks_delete r k
  end.
(** Models key_store.rs:9-16 (store). *)
Definition ks_store (s : key_store) (k v : bytes) : key_store := (k, v) :: ks_delete s k.

(** Models key_package/builder.rs:43-77 (build): the store afterwards and the result. A failure after an insertion leaves it in the store. *)
Definition sbind {A B} (s : key_store) (m : res A) (k : A -> key_store * res B) : key_store * res B :=
  match m with Ok a => k a | Err e => (s, Err e) | Panic => (s, Panic) | Hang => (s, Hang) end.
(** Models key_package/builder.rs:5-10 (KeyPackageBuilder); its setters (12-40) store their argument. *)
Record builder : Type := MkBuilder {
  b_lifetime : option lifetime; b_extensions : option extensions; b_capabilities : option capabilities; b_leaf_extensions : option extensions }.
(** Models [unwrap_or_default] at builder.rs:55-58. *)
Definition or_default {A} (o : option A) (d : A) : A := match o with Some x => x | None => d end.
(** Models key_package/builder.rs:43-77 (build). *)
Definition key_package_build (P : provider) (fill1 fill2 : N -> res bytes) (s : key_store) (b : builder) (v : protocol_version) (cs : cipher_suite)
    (cred : credential) (skp : signature_key_pair) : key_store * res key_package :=
  sbind s (key_package_new P fill1 fill2 v cs cred skp (or_default (b_lifetime b) (MkLifetime 0 0)) (or_default (b_extensions b) [])
             (or_default (b_capabilities b) (MkCapabilities [] [] [] [] [])) (or_default (b_leaf_extensions b) [])) (fun '(kp, ekp, init_priv) =>
  sbind s (generate_ref P kp) (fun ref =>
  sbind s (se_key_package kp) (fun raw =>
  let s := ks_store s ref raw in
  sbind s (se_hpke_key_pair ekp) (fun rawe =>
  let s := ks_store s (hkp_public ekp) rawe in
  sbind s (se_secret_key init_priv) (fun rawi =>
  let s := ks_store s (kp_init_key (kp_payload kp)) rawi in
  (s, Ok kp)))))).
