(** What the provider properties talk about. *)
From Verif Require Export WireWF SpecMessages Provider.
Local Open Scope N_scope.

(** The algorithms of the cipher suites (RFC 9420, Section 17.1, and RFC 9180 for the KEM's and KDF's hash). *)
Definition rfc_suite (cs : cipher_suite) : option description :=
  match cs with
  | Suite1 => Some (MkDescription SHA256 (MkHpkeSuite KEM_X25519 KDF_SHA256 AES128GCM) ED25519)
  | Suite2 => Some (MkDescription SHA256 (MkHpkeSuite KEM_P256 KDF_SHA256 AES128GCM) ECDSA_SECP256R1_SHA256)
  | Suite3 => Some (MkDescription SHA256 (MkHpkeSuite KEM_X25519 KDF_SHA256 ChaCha20Poly1305) ED25519)
  | Suite4 => Some (MkDescription SHA512 (MkHpkeSuite KEM_X448 KDF_SHA512 AES256GCM) ED448)
  | Suite5 => Some (MkDescription SHA512 (MkHpkeSuite KEM_P521 KDF_SHA512 AES256GCM) ECDSA_SECP521R1_SHA512)
  | Suite6 => Some (MkDescription SHA512 (MkHpkeSuite KEM_X448 KDF_SHA512 ChaCha20Poly1305) ED448)
  | Suite7 => Some (MkDescription SHA384 (MkHpkeSuite KEM_P384 KDF_SHA384 AES256GCM) ECDSA_SECP384R1_SHA384)
  | SuiteUnknown _ => None
  end.

(** The hash a KDF is HKDF over (RFC 9180, Section 7.2). *)
Definition hash_of_kdf (k : kdf) : hash_scheme := match k with KDF_SHA256 => SHA256 | KDF_SHA384 => SHA384 | KDF_SHA512 => SHA512 end.
(** Output lengths in bytes of the hashes. *)
Definition digest_bytes (h : hash_scheme) : nat := match h with SHA256 => 32 | SHA384 => 48 | SHA512 => 64 end.
(** Key lengths of the AEADs, Nk in RFC 9180, Section 7.3; their nonces have 12 bytes. *)
Definition aead_key_bytes (a : aead) : N := match a with AES128GCM => 16 | AES256GCM | ChaCha20Poly1305 => 32 end.
(** Nh of the KDFs, Section 7.2. *)
Definition kdf_bytes (k : kdf) : N := match k with KDF_SHA256 => 32 | KDF_SHA384 => 48 | KDF_SHA512 => 64 end.
Definition sized_prims (p : prims) : Prop :=
  (forall h x, length (pr_digest p h x) = digest_bytes h) /\ (forall h k x, length (pr_hmac p h k x) = digest_bytes h) /\
  (forall h s i n b, pr_expand p h s i n = Some b -> N.of_nat (length b) = n).
(** HKDF (RFC 5869): a pseudo-random key is at least as long as the hash, and gives outputs of up to 255 times that length. *)
Definition hkdf_prims (p : prims) : Prop :=
  (forall h s, (digest_bytes h <= length s)%nat -> pr_prk p h s = true) /\
  (forall h s i n, n <= 255 * N.of_nat (digest_bytes h) -> exists b, pr_expand p h s i n = Some b).
(** The AEADs work, and leave their 16-byte tag behind the plaintext. *)
Definition aead_prims_ok (p : prims) : Prop :=
  forall a k n pt ad c, pr_seal p a k n pt ad = Ok c -> exists tail, pr_open p a k n c ad = Ok (pt, tail) /\ length tail = 16%nat.
(** The pair works in the library. *)
Definition pair_prims_ok (p : prims) (s : signature_scheme) (sk pk : bytes) : Prop :=
  forall m sig, pr_sign p s sk m = Some sig -> pr_verify p s pk m sig = Ok tt.
(** One of the two bundled providers. *)
Definition bundled (p : prims) (P : provider) : Prop := P = rust_provider p \/ P = ring_provider p.
