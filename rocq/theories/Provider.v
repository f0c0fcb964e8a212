(** Model of the two bundled providers: rmls/src/crypto/provider/rust.rs and rust/*, rmls/src/crypto/provider/ring.rs and ring/*.
    The cryptographic libraries they call are the record [prims]; the theorems quantify over it. *)
From Verif Require Export Crypto Messages.
Local Open Scope N_scope.

(** Models crypto/provider/mod.rs:31-36 (HashScheme). *)
Inductive hash_scheme : Type := SHA256 | SHA384 | SHA512.
(** Models crypto/mod.rs:63-80 (Kem). *)
Inductive kem : Type := KEM_P256 | KEM_P384 | KEM_P521 | KEM_X25519 | KEM_X448 | KEM_X25519_KYBER768.
(** Models crypto/mod.rs:87-95 (Kdf). *)
Inductive kdf : Type := KDF_SHA256 | KDF_SHA384 | KDF_SHA512.
(** Models crypto/mod.rs:102-110 (Aead). *)
Inductive aead : Type := AES128GCM | AES256GCM | ChaCha20Poly1305.
(** Models crypto/provider/mod.rs:42-46 (HpkeSuite). *)
Record hpke_suite : Type := MkHpkeSuite { hs_kem : kem; hs_kdf : kdf; hs_aead : aead }.
(** Models rust.rs:11-15 and ring.rs:11-15 (CipherSuiteDescription). *)
Record description : Type := MkDescription { d_hash : hash_scheme; d_hpke : hpke_suite; d_signature : signature_scheme }.

(** Models rust.rs:17-88 (CIPHER_SUITE_DESCRIPTIONS). *)
Definition rust_table : list description :=
  [ MkDescription SHA256 (MkHpkeSuite KEM_X25519 KDF_SHA256 AES128GCM) ED25519;
    MkDescription SHA256 (MkHpkeSuite KEM_P256 KDF_SHA256 AES128GCM) ECDSA_SECP256R1_SHA256;
    MkDescription SHA256 (MkHpkeSuite KEM_X25519 KDF_SHA256 ChaCha20Poly1305) ED25519;
    MkDescription SHA512 (MkHpkeSuite KEM_X448 KDF_SHA512 AES256GCM) ED448;
    MkDescription SHA512 (MkHpkeSuite KEM_P521 KDF_SHA512 AES256GCM) ECDSA_SECP521R1_SHA512;
    MkDescription SHA512 (MkHpkeSuite KEM_X448 KDF_SHA512 ChaCha20Poly1305) ED448;
    MkDescription SHA384 (MkHpkeSuite KEM_P384 KDF_SHA384 AES256GCM) ECDSA_SECP384R1_SHA384 ].
(** Models ring.rs:17-88 (CIPHER_SUITE_DESCRIPTIONS). *)
Definition ring_table : list description :=
  [ MkDescription SHA256 (MkHpkeSuite KEM_X25519 KDF_SHA256 AES128GCM) ED25519;
    MkDescription SHA256 (MkHpkeSuite KEM_P256 KDF_SHA256 AES128GCM) ECDSA_SECP256R1_SHA256;
    MkDescription SHA256 (MkHpkeSuite KEM_X25519 KDF_SHA256 ChaCha20Poly1305) ED25519;
    MkDescription SHA512 (MkHpkeSuite KEM_X448 KDF_SHA512 AES256GCM) ED448;
    MkDescription SHA512 (MkHpkeSuite KEM_P521 KDF_SHA512 AES256GCM) ECDSA_SECP521R1_SHA512;
    MkDescription SHA512 (MkHpkeSuite KEM_X448 KDF_SHA512 ChaCha20Poly1305) ED448;
    MkDescription SHA384 (MkHpkeSuite KEM_P384 KDF_SHA384 AES256GCM) ECDSA_SECP384R1_SHA384 ].

(** Models rust.rs:98-105 and ring.rs:98-105 (supports). *)
Definition provider_supports (cs : cipher_suite) : bool :=
  match cs with Suite1 | Suite3 | Suite2 => true | _ => false end.
(** Models rust.rs:107-113 and ring.rs:107-113 (supported). *)
Definition provider_supported : list cipher_suite := [Suite1; Suite3; Suite2].
(** Models the lookup that rust.rs:123-148 and ring.rs:123-148 (hash, hpke, signature) share: [index as usize - 1] panics below
    zero and indexing panics beyond the end. *)
Definition lookup (table : list description) (cs : cipher_suite) : res description :=
  if provider_supports cs then
    let i := u16_of_cipher_suite cs in
    if i =? 0 then Panic else
    match nth_error table (N.to_nat (i - 1)) with Some d => Ok d | None => Panic end
  else Err UnsupportedCipherSuite.

(** The libraries called in crypto/provider/rust/hash.rs:19-57, hpke.rs:24-233, signature.rs:13-123 and the files of the same
    names in crypto/provider/ring. Conversions of keys and nonces to fixed-size types are part of [pr_seal] and [pr_open], whose failures are
    whatever they are. [pr_open] yields the plaintext and what is left in the buffer behind it. *)
Record prims : Type := MkPrims {
  pr_digest : hash_scheme -> bytes -> bytes;
  pr_hmac : hash_scheme -> bytes -> bytes -> bytes (* key, message *);
  pr_prk : hash_scheme -> bytes -> bool (* is this a usable pseudo-random key *);
  pr_expand : hash_scheme -> bytes -> bytes -> N -> option bytes (* key, info, length *);
  pr_derive : kem -> bytes -> hpke_key_pair;
  pr_seal : aead -> bytes -> bytes -> bytes -> bytes -> res bytes (* key, nonce, plaintext, aad *);
  pr_open : aead -> bytes -> bytes -> bytes -> bytes -> res (bytes * bytes) (* key, nonce, ciphertext, aad *);
  pr_sign : signature_scheme -> bytes -> bytes -> option bytes (* None: not a private key *);
  pr_verify : signature_scheme -> bytes -> bytes -> bytes -> res unit;
  pr_base_seal : cipher_suite -> bytes -> bytes -> bytes -> bytes -> res (bytes * bytes);
  pr_base_open : cipher_suite -> bytes -> bytes -> bytes -> bytes -> res bytes }.

(** Models rust/hash.rs:11-17 and ring/hash.rs:13-19 (size). *)
Definition hash_size (h : hash_scheme) : N := match h with SHA256 => 32 | SHA384 => 48 | SHA512 => 64 end.
(** Models rust/hash.rs:19-57 and ring/hash.rs:21-37 (digest, mac). *)
Definition bundled_hash (p : prims) (h : hash_scheme) : hash_alg := MkHash (hash_size h) (pr_digest p h) (pr_hmac p h).
(** Models the matches on the KDF at rust/hpke.rs:47-66, 72-88 and ring/hpke.rs:52-56, 71-75: the hash of a KDF. *)
Definition kdf_hash (k : kdf) : hash_scheme := match k with KDF_SHA256 => SHA256 | KDF_SHA384 => SHA384 | KDF_SHA512 => SHA512 end.
(** Models rust/hpke.rs:24-42 and ring/hpke.rs:31-49 (kem_derive_key_pair). *)
Definition derive_key_pair (p : prims) (k : kem) (ikm : bytes) : res hpke_key_pair :=
  match k with KEM_X25519 | KEM_P256 => Ok (pr_derive p k ikm) | _ => Err UnsupportedKem end.
(** Models rust/hpke.rs:44-69 (kdf_expand): the secret must be usable as a pseudo-random key. *)
Definition rust_expand (p : prims) (k : kdf) (secret info : bytes) (len : N) : res bytes :=
  if pr_prk p (kdf_hash k) secret then
    match pr_expand p (kdf_hash k) secret info len with Some b => Ok b | None => Err RustCryptoError end
  else Err RustCryptoError.
(** Models ring/hpke.rs:51-68 (kdf_expand): every secret is used. *)
Definition ring_expand (p : prims) (k : kdf) (secret info : bytes) (len : N) : res bytes :=
  match pr_expand p (kdf_hash k) secret info len with Some b => Ok b | None => Err RingCryptoError end.
(** Models rust/hpke.rs:71-89 and ring/hpke.rs:70-77 (kdf_extract): HMAC keyed with the salt. *)
Definition bundled_extract (p : prims) (k : kdf) (secret salt : bytes) : res bytes := Ok (pr_hmac p (kdf_hash k) salt secret).
(** Models rust/hpke.rs:91-97 and ring/hpke.rs:79-85 (kdf_extract_size). *)
Definition extract_size (k : kdf) : N := match k with KDF_SHA256 => 32 | KDF_SHA384 => 48 | KDF_SHA512 => 64 end.
(** Models rust/hpke.rs:100-106 and ring/hpke.rs:88-94 (aead_key_size). *)
Definition key_size (a : aead) : N := match a with AES128GCM => 16 | AES256GCM => 32 | ChaCha20Poly1305 => 32 end.
(** Models rust/hpke.rs:109-113 and ring/hpke.rs:97-101 (aead_nonce_size). *)
Definition nonce_size (a : aead) : N := match a with AES128GCM | AES256GCM | ChaCha20Poly1305 => 12 end.
(** Models rust/hpke.rs:115-173 (aead_open): [decrypt_in_place] on a vector cuts it to the plaintext. *)
Definition rust_open (p : prims) (a : aead) (key nonce ct aad : bytes) : res bytes :=
  let* (pt, _) := pr_open p a key nonce ct aad in Ok pt.
(** Models ring/hpke.rs:103-137 (aead_open): [open_in_place] returns the plaintext as a part of the buffer, but the code drops that
    and returns the whole buffer. *)
Definition ring_open (p : prims) (a : aead) (key nonce ct aad : bytes) : res bytes :=
  let* (pt, tail) := pr_open p a key nonce ct aad in Ok (pt ++ tail)%list.

(** Models rust/hpke.rs:19-234 (impl Hpke): the Hpke object of a suite. *)
Definition rust_hpke (p : prims) (s : hpke_suite) : hpke_alg :=
  MkHpke (derive_key_pair p (hs_kem s)) (rust_expand p (hs_kdf s)) (bundled_extract p (hs_kdf s)) (extract_size (hs_kdf s))
    (nonce_size (hs_aead s)) (key_size (hs_aead s)) (rust_open p (hs_aead s)) (pr_seal p (hs_aead s)).
(** Models ring/hpke.rs:26-174 (impl Hpke): the Hpke object of a suite. *)
Definition ring_hpke (p : prims) (s : hpke_suite) : hpke_alg :=
  MkHpke (derive_key_pair p (hs_kem s)) (ring_expand p (hs_kdf s)) (bundled_extract p (hs_kdf s)) (extract_size (hs_kdf s))
    (nonce_size (hs_aead s)) (key_size (hs_aead s)) (ring_open p (hs_aead s)) (pr_seal p (hs_aead s)).

(** Models rust/signature.rs:63-89 (sign). For ECDSA [sign_key.into()] converts a slice to an array of the curve's size and panics if
    the length differs. *)
Definition rust_sign (p : prims) (s : signature_scheme) (key msg : bytes) : res bytes :=
  let ecdsa n := if (length key =? n)%nat then match pr_sign p s key msg with Some x => Ok x | None => Err InvalidECDSAPrivateKey end else Panic in
  match s with
  | ED25519 => if (length key =? 32)%nat then match pr_sign p s key msg with Some x => Ok x | None => Err InvalidEd25519PrivateKey end else Err InvalidEd25519PrivateKey
  | ECDSA_SECP256R1_SHA256 => ecdsa 32%nat
  | ECDSA_SECP384R1_SHA384 => ecdsa 48%nat
  | ECDSA_SECP521R1_SHA512 => Err UnsupportedEcdsa
  | ED448 => Err UnsupportedEd448
  end.
(** Models ring/signature.rs:67-89 (sign). *)
Definition ring_sign (p : prims) (s : signature_scheme) (key msg : bytes) : res bytes :=
  let ecdsa n := if (length key =? n)%nat then match pr_sign p s key msg with Some x => Ok x | None => Err InvalidECDSAPrivateKey end else Panic in
  match s with
  | ED25519 => match pr_sign p s key msg with Some x => Ok x | None => Err InvalidEd25519PrivateKey end
  | ECDSA_SECP256R1_SHA256 => ecdsa 32%nat
  | ECDSA_SECP384R1_SHA384 => ecdsa 48%nat
  | ECDSA_SECP521R1_SHA512 => Err UnsupportedEcdsa
  | ED448 => Err UnsupportedEd448
  end.
(** Models rust/signature.rs:91-122 and ring/signature.rs:91-114 (verify): unsupported schemes, or what the library says. *)
Definition bundled_verify (p : prims) (s : signature_scheme) (key msg sig : bytes) : res unit :=
  match s with
  | ED25519 | ECDSA_SECP256R1_SHA256 | ECDSA_SECP384R1_SHA384 => pr_verify p s key msg sig
  | ECDSA_SECP521R1_SHA512 => Err UnsupportedEcdsa
  | ED448 => Err UnsupportedEd448
  end.

(** Models rust.rs:90-149 (RustCryptoProvider). *)
Definition rust_provider (p : prims) : provider :=
  MkProvider provider_supports provider_supported
    (fun cs => let* d := lookup rust_table cs in Ok (bundled_hash p (d_hash d)))
    (fun cs => let* d := lookup rust_table cs in Ok (rust_hpke p (d_hpke d)))
    (fun cs => let* d := lookup rust_table cs in Ok (MkSig (d_signature d) (rust_sign p (d_signature d)) (bundled_verify p (d_signature d))))
    (pr_base_seal p) (pr_base_open p).
(** Models ring.rs:90-149 (RingCryptoProvider). *)
Definition ring_provider (p : prims) : provider :=
  MkProvider provider_supports provider_supported
    (fun cs => let* d := lookup ring_table cs in Ok (bundled_hash p (d_hash d)))
    (fun cs => let* d := lookup ring_table cs in Ok (ring_hpke p (d_hpke d)))
    (fun cs => let* d := lookup ring_table cs in Ok (MkSig (d_signature d) (ring_sign p (d_signature d)) (bundled_verify p (d_signature d))))
    (pr_base_seal p) (pr_base_open p).

(** Models framing/private_message.rs:194-218 built with the feature RingCryptoProvider, which leaves out the padding check. *)
Definition de_private_content_ring (ct : content_type) (bs : bytes) : res private_content :=
  let* (c, bs) :=
    match ct with
    | CTApplication => let* (d, bs) := de_opaque bs in Ok (CApplication d, bs)
    | CTProposal => let* (p, bs) := de_proposal bs in Ok (CProposal p, bs)
    | CTCommit => let* (m, bs) := de_commit bs in Ok (CCommit m, bs)
    end in
  let* (a, bs) := de_auth_data ct bs in
  Ok (MkPrivateContent c a).
(** Models framing/private_message.rs:133-164 (decrypt_content) in that build. *)
Definition decrypt_content_ring (P : provider) (cs : cipher_suite) (m : private_message) (r : ratchet_secret) (guard : bytes) : res private_content :=
  let* (key, nonce) := message_key_nonce P cs r guard in
  let* aad := se_private_content_aad (MkPrivateAAD (pv_group_id m) (pv_epoch m) (pv_content_type m) (pv_auth_data m)) in
  let* k := p_hpke P cs in
  let* raw := a_open k key nonce (pv_ciphertext m) aad in
  de_private_content_ring (pv_content_type m) raw.
