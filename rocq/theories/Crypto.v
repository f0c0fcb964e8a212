(** Model of rmls/src/crypto/provider/mod.rs: the provider traits and the label helpers built on them. A
    provider is a record of functions; the theorems quantify over all of them. Primitives (digest, MAC,
    KDF, AEAD, signature, HPKE) are deterministic functions of their arguments; where the code draws
    randomness, the random bytes are an explicit argument. *)
From Verif Require Export Base Serde Wire.
Local Open Scope N_scope.

(** Models crypto/provider/mod.rs:112-121 (trait Hash). *)
Record hash_alg : Type := MkHash {
  h_size : N;
  h_digest : bytes -> bytes;
  h_mac : bytes -> bytes -> bytes (* key, message *) }.

(** Models crypto/provider/mod.rs:126-168 (trait Hpke), without [hpke_suite], which returns the algorithm
    identifiers; see Provider.v. *)
Record hpke_alg : Type := MkHpke {
  k_derive_key_pair : bytes -> res hpke_key_pair;
  k_expand : bytes -> bytes -> N -> res bytes (* secret, info, length *);
  k_extract : bytes -> bytes -> res bytes (* secret, salt *);
  k_extract_size : N;
  a_nonce_size : N;
  a_key_size : N;
  a_open : bytes -> bytes -> bytes -> bytes -> res bytes (* key, nonce, ciphertext, aad *);
  a_seal : bytes -> bytes -> bytes -> bytes -> res bytes (* key, nonce, plaintext, aad *) }.

(** Models crypto/provider/mod.rs:172-184 (trait Signature), without key generation. *)
Record sig_alg : Type := MkSig {
  s_scheme : signature_scheme;
  s_sign : bytes -> bytes -> res bytes (* key, message *);
  s_verify : bytes -> bytes -> bytes -> res unit (* key, message, signature *) }.

(** Models crypto/provider/mod.rs:188-208 (trait CryptoProvider, required methods except rand and
    key_store, which are explicit arguments where used). [p_base_seal] and [p_base_open] are the HPKE
    base-mode operations of the hpke crate that the default methods at 299-479 call. *)
Record provider : Type := MkProvider {
  p_supports : cipher_suite -> bool;
  p_supported : list cipher_suite;
  p_hash : cipher_suite -> res hash_alg;
  p_hpke : cipher_suite -> res hpke_alg;
  p_sig : cipher_suite -> res sig_alg;
  p_base_seal : cipher_suite -> bytes -> bytes -> bytes -> bytes -> res (bytes * bytes)
    (* public key, info, entropy, plaintext *);
  p_base_open : cipher_suite -> bytes -> bytes -> bytes -> bytes -> res bytes
    (* private key, info, kem output, ciphertext *) }.

(** Models crypto/provider/mod.rs:211-214 (sign_mac). *)
Definition sign_mac (P : provider) (cs : cipher_suite) (key msg : bytes) : res bytes :=
  let* h := p_hash P cs in Ok (h_mac h key msg).

(** Models crypto/provider/mod.rs:217-229 (verify_mac). *)
Definition verify_mac (P : provider) (cs : cipher_suite) (key msg tag : bytes) : res unit :=
  let* m := sign_mac P cs key msg in
  if bytes_eqb tag m then Ok tt else Err VerifyConfirmationTagFailed.

(** Models crypto/provider/mod.rs:232-239 (ref_hash). *)
Definition ref_hash (P : provider) (cs : cipher_suite) (label value : bytes) : res bytes :=
  let* input := se_opaque label +++ se_opaque value in
  let* h := p_hash P cs in Ok (h_digest h input).

(** Models crypto/provider/mod.rs:27 (MLS_PREFIX). *)
Definition mls_prefix : bytes := str "MLS 1.0 ".

(** Models crypto/provider/mod.rs:482-490 (mls_prefix_label_data). *)
Definition mls_prefix_label_data (label data : bytes) : res bytes :=
  se_opaque (mls_prefix ++ label) +++ se_opaque data.

(** The info string built at crypto/provider/mod.rs:250-257. *)
Definition expand_info (label context : bytes) (len : N) : res bytes :=
  put_u16 len +++ se_opaque (mls_prefix ++ label) +++ se_opaque context.

(** Models crypto/provider/mod.rs:242-259 (expand_with_label). *)
Definition expand_with_label (P : provider) (cs : cipher_suite) (secret label context : bytes) (len : N) : res bytes :=
  let* info := expand_info label context len in
  let* k := p_hpke P cs in k_expand k secret info len.

(** Models crypto/provider/mod.rs:262-270 (derive_secret); [length as u16] truncates. *)
Definition derive_secret (P : provider) (cs : cipher_suite) (secret label : bytes) : res bytes :=
  let* k := p_hpke P cs in
  expand_with_label P cs secret label [] (k_extract_size k mod 65536).

(** Models crypto/provider/mod.rs:273-282 (sign_with_label). *)
Definition sign_with_label (P : provider) (cs : cipher_suite) (key label content : bytes) : res bytes :=
  let* m := mls_prefix_label_data label content in
  let* s := p_sig P cs in s_sign s key m.

(** Models crypto/provider/mod.rs:285-296 (verify_with_label). *)
Definition verify_with_label (P : provider) (cs : cipher_suite) (key label content sig : bytes) : res unit :=
  let* m := mls_prefix_label_data label content in
  let* s := p_sig P cs in s_verify s key m sig.

(** The match arms of crypto/provider/mod.rs:308-392 and 406-478 that reach the hpke crate. *)
Definition hpke_suite_ok (cs : cipher_suite) : bool :=
  match cs with Suite1 | Suite2 | Suite3 => true | _ => false end.

(** Models crypto/provider/mod.rs:299-393 (encrypt_with_label). The three arms differ only in the types
    they pick for the hpke crate, which [p_base_seal] receives as the suite. *)
Definition encrypt_with_label (P : provider) (cs : cipher_suite) (entropy pk label context pt : bytes) : res (bytes * bytes) :=
  let* info := mls_prefix_label_data label context in
  if hpke_suite_ok cs then p_base_seal P cs pk info entropy pt else Err UnsupportedCipherSuite.

(** Models crypto/provider/mod.rs:396-479 (decrypt_with_label). *)
Definition decrypt_with_label (P : provider) (cs : cipher_suite) (sk label context kem ct : bytes) : res bytes :=
  let* info := mls_prefix_label_data label context in
  if hpke_suite_ok cs then p_base_open P cs sk info kem ct else Err UnsupportedCipherSuite.
