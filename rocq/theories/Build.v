(** Model of the builders, constructors and accessors: rmls/src/crypto/config.rs, rmls/src/group/config.rs,
    rmls/src/key_package/builder.rs, rmls/src/crypto/credential.rs, rmls/src/extensibility/mod.rs, and of the generation of signature
    key pairs by the two bundled providers. *)
From Verif Require Export Group Provider.
Local Open Scope N_scope.

(** Models crypto/config.rs:4-8 (CryptoConfig). *)
Record crypto_config : Type := MkCryptoConfig { cc_version : protocol_version; cc_suite : cipher_suite }.
(** Models crypto/config.rs:12-14, 24-26 (builder, CryptoConfigBuilder::new): the derived defaults of framing/mod.rs:26-31 and
    crypto/cipher_suite.rs:9-13. The builder is the configuration built so far. *)
Definition crypto_config_builder : crypto_config := MkCryptoConfig MLS10 Suite1.
(** Models crypto/config.rs:29-32 (with_version). *)
Definition cc_with_version (c : crypto_config) (v : protocol_version) : crypto_config := MkCryptoConfig v (cc_suite c).
(** Models crypto/config.rs:35-38 (with_cipher_suite). *)
Definition cc_with_cipher_suite (c : crypto_config) (cs : cipher_suite) : crypto_config := MkCryptoConfig (cc_version c) cs.
(** Models crypto/config.rs:41-43 (build). *)
Definition cc_build (c : crypto_config) : crypto_config := c.

(** Models group/config.rs:3-6 (GroupConfig). *)
Record group_config : Type := MkGroupConfig { gcf_crypto : crypto_config }.
(** Models group/config.rs:10-12, 22-24 (builder, GroupConfigBuilder::new). *)
Definition group_config_builder : group_config := MkGroupConfig crypto_config_builder.
(** Models group/config.rs:27-30 (with_crypto_config). *)
Definition gcf_with_crypto_config (g : group_config) (c : crypto_config) : group_config := MkGroupConfig c.
(** Models group/config.rs:33-35 (build). *)
Definition gcf_build (g : group_config) : group_config := g.

(** Models key_package/mod.rs:144-146 and key_package/builder.rs:14-16 (new). *)
Definition kpb_new : builder := MkBuilder None None None None.
(** Models key_package/builder.rs:19-22 (with_key_package_lifetime). *)
Definition kpb_with_lifetime (b : builder) (x : lifetime) : builder :=
  MkBuilder (Some x) (b_extensions b) (b_capabilities b) (b_leaf_extensions b).
(** Models key_package/builder.rs:25-28 (with_key_package_extensions). *)
Definition kpb_with_extensions (b : builder) (x : extensions) : builder :=
  MkBuilder (b_lifetime b) (Some x) (b_capabilities b) (b_leaf_extensions b).
(** Models key_package/builder.rs:31-34 (with_leaf_node_capabilities). *)
Definition kpb_with_capabilities (b : builder) (x : capabilities) : builder :=
  MkBuilder (b_lifetime b) (b_extensions b) (Some x) (b_leaf_extensions b).
(** Models key_package/builder.rs:37-40 (with_leaf_node_extensions). *)
Definition kpb_with_leaf_extensions (b : builder) (x : extensions) : builder :=
  MkBuilder (b_lifetime b) (b_extensions b) (b_capabilities b) (Some x).

(** Models crypto/credential.rs:129-131 (Credential::default). *)
Definition default_credential : credential := CredBasic [].
(** Models crypto/credential.rs:136-138 (from_identity); an Identity is its bytes (lines 48-50, 56-58). *)
Definition credential_from_identity (i : bytes) : credential := CredBasic i.
(** Models crypto/credential.rs:141-143 (from_certificates); a Certificate is its bytes (lines 89-91). *)
Definition credential_from_certificates (l : list bytes) : credential := CredX509 l.
(** Models crypto/credential.rs:146-152 (identity). *)
Definition credential_identity (c : credential) : option bytes := match c with CredBasic i => Some i | _ => None end.
(** Models crypto/credential.rs:155-161 (certificates). *)
Definition credential_certificates (c : credential) : option (list bytes) := match c with CredX509 l => Some l | _ => None end.

(** The libraries' key generation, from the entropy they draw: rust/signature.rs:16-19 (the 64 bytes of an Ed25519 key pair),
    rust/signature.rs:29-34, 42-47 and ring/signature.rs:33-38, 46-51 (private and public part of an ECDSA pair), and
    ring/signature.rs:24-25 (the public part for an Ed25519 seed). *)
Record keygen : Type := MkKeygen {
  kg_entropy : Type;
  kg_ed25519_pair : kg_entropy -> bytes;
  kg_ecdsa : signature_scheme -> kg_entropy -> bytes * bytes;
  kg_seed : kg_entropy -> bytes;
  kg_ed25519_public : bytes -> option bytes }.
(** Models rust/signature.rs:13-57 (signature_key_pair). [split_at] panics if the string is shorter than 32 bytes. *)
Definition rust_key_pair (g : keygen) (s : signature_scheme) (e : kg_entropy g) : res signature_key_pair :=
  match s with
  | ED25519 =>
      let raw := kg_ed25519_pair g e in
      if (length raw <? 32)%nat then Panic else Ok (MkSigKeyPair (firstn 32 raw) (skipn 32 raw) ED25519)
  | ECDSA_SECP256R1_SHA256 | ECDSA_SECP384R1_SHA384 => let (sk, pk) := kg_ecdsa g s e in Ok (MkSigKeyPair sk pk s)
  | ECDSA_SECP521R1_SHA512 => Err UnsupportedEcdsa
  | ED448 => Err UnsupportedEd448
  end.
(** Models ring/signature.rs:17-61 (signature_key_pair). *)
Definition ring_key_pair (g : keygen) (s : signature_scheme) (e : kg_entropy g) : res signature_key_pair :=
  match s with
  | ED25519 =>
      match kg_ed25519_public g (kg_seed g e) with
      | Some pk => Ok (MkSigKeyPair (kg_seed g e) pk ED25519)
      | None => Err InvalidEd25519PrivateKey
      end
  | ECDSA_SECP256R1_SHA256 | ECDSA_SECP384R1_SHA384 => let (sk, pk) := kg_ecdsa g s e in Ok (MkSigKeyPair sk pk s)
  | ECDSA_SECP521R1_SHA512 => Err UnsupportedEcdsa
  | ED448 => Err UnsupportedEd448
  end.
(** Models [crypto_provider.signature(cipher_suite)?.signature_key_pair()?] (rust.rs:141-148 then rust/signature.rs:13-57). *)
Definition rust_suite_key_pair (g : keygen) (cs : cipher_suite) (e : kg_entropy g) : res signature_key_pair :=
  let* d := lookup rust_table cs in rust_key_pair g (d_signature d) e.
(** The same with ring.rs:141-148 and ring/signature.rs:17-61. *)
Definition ring_suite_key_pair (g : keygen) (cs : cipher_suite) (e : kg_entropy g) : res signature_key_pair :=
  let* d := lookup ring_table cs in ring_key_pair g (d_signature d) e.
