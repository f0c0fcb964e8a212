(** Model of the wire types of rmls and of their Serializer / Deserializer implementations.
    Paths are relative to rmls/src. A decoder has type [bytes -> res (A * bytes)] (value and the unread
    rest of the buffer); an encoder has type [A -> res bytes] (the bytes appended to the buffer).
    Fixed-width integers are [N]; the Rust type's range is a separate predicate (WireWF.v). *)
From Verif Require Export Serde.
Local Open Scope N_scope.

(* ------------------------------------------------------------------------------------------- *)
(** * crypto/mod.rs, crypto/cipher_suite.rs, crypto/credential.rs, crypto/key_pair.rs *)

(** Models crypto/mod.rs:16-45 (SecretKey), 50-56 (HPKEPublicKey, HPKEPrivateKey, SignaturePublicKey,
    SignaturePrivateKey are aliases of it). The newtype wrapper is dropped. *)
Notation secret_key := bytes (only parsing).
(** Models crypto/mod.rs:27-35. *)
Definition de_secret_key : bytes -> res (secret_key * bytes) := de_opaque.
(** Models crypto/mod.rs:37-45. *)
Definition se_secret_key : secret_key -> res bytes := se_opaque.

(** Models crypto/cipher_suite.rs:11-20 (enum CipherSuite). *)
Inductive cipher_suite : Type :=
| Suite1  (* MLS_128_DHKEMX25519_AES128GCM_SHA256_Ed25519 *)
| Suite2  (* MLS_128_DHKEMP256_AES128GCM_SHA256_P256 *)
| Suite3  (* MLS_128_DHKEMX25519_CHACHA20POLY1305_SHA256_Ed25519 *)
| Suite4  (* MLS_256_DHKEMX448_AES256GCM_SHA512_Ed448 *)
| Suite5  (* MLS_256_DHKEMP521_AES256GCM_SHA512_P521 *)
| Suite6  (* MLS_256_DHKEMX448_CHACHA20POLY1305_SHA512_Ed448 *)
| Suite7  (* MLS_256_DHKEMP384_AES256GCM_SHA384_P384 *)
| SuiteUnknown (v : N).

(** Models crypto/cipher_suite.rs:23-36 (From<u16>). *)
Definition cipher_suite_of_u16 (v : N) : cipher_suite :=
  match v with
  | 1 => Suite1 | 2 => Suite2 | 3 => Suite3 | 4 => Suite4 | 5 => Suite5 | 6 => Suite6 | 7 => Suite7
  | _ => SuiteUnknown v
  end.
(** Models crypto/cipher_suite.rs:38-51 (From<CipherSuite> for u16). *)
Definition u16_of_cipher_suite (c : cipher_suite) : N :=
  match c with
  | Suite1 => 1 | Suite2 => 2 | Suite3 => 3 | Suite4 => 4 | Suite5 => 5 | Suite6 => 6 | Suite7 => 7
  | SuiteUnknown v => v
  end.

(** Models crypto/credential.rs:13-20 (enum CredentialType). *)
Inductive credential_type : Type := CtBasic | CtX509 | CtUnknown (v : N).
(** Models crypto/credential.rs:22-30. *)
Definition credential_type_of_u16 (v : N) : credential_type :=
  match v with 1 => CtBasic | 2 => CtX509 | _ => CtUnknown v end.
(** Models crypto/credential.rs:32-40. *)
Definition u16_of_credential_type (c : credential_type) : N :=
  match c with CtBasic => 1 | CtX509 => 2 | CtUnknown v => v end.

(** Models crypto/credential.rs:44-79 (Identity) and 83-114 (Certificate); both wrap Bytes. *)
Notation identity := bytes (only parsing).
(** Models crypto/credential.rs:61-69. *)
Definition de_identity : bytes -> res (identity * bytes) := de_opaque.
(** Models crypto/credential.rs:71-79. *)
Definition se_identity : identity -> res bytes := se_opaque.
(** Models crypto/credential.rs:83-85 (Certificate). *)
Notation certificate := bytes (only parsing).
(** Models crypto/credential.rs:94-104. *)
Definition de_certificate : bytes -> res (certificate * bytes) := de_opaque.
(** Models crypto/credential.rs:106-114. *)
Definition se_certificate : certificate -> res bytes := se_opaque.

(** Models crypto/credential.rs:118-126 (enum Credential). *)
Inductive credential : Type :=
| CredBasic (id : identity)
| CredX509 (certs : list certificate).

(** Models crypto/credential.rs:210-217 (Credential::credential_type). *)
Definition credential_type_of (c : credential) : credential_type :=
  match c with CredBasic _ => CtBasic | CredX509 _ => CtX509 end.

(** Models crypto/credential.rs:164-190 (Credential::deserialize). *)
Definition de_credential (bs : bytes) : res (credential * bytes) :=
  let* (t, bs) := read_u16 bs in
  match credential_type_of_u16 t with
  | CtBasic => let* (i, bs) := de_identity bs in Ok (CredBasic i, bs)
  | CtX509 => let* (l, bs) := de_vector de_certificate bs in Ok (CredX509 l, bs)
  | CtUnknown _ => Err InvalidCredentialTypeValue
  end.
(** Models crypto/credential.rs:192-208 (Credential::serialize). *)
Definition se_credential (c : credential) : res bytes :=
  put_u16 (u16_of_credential_type (credential_type_of c)) +++
  match c with
  | CredBasic i => se_identity i
  | CredX509 l => se_vector se_certificate l
  end.

(** Models crypto/provider/mod.rs:52-64 (enum SignatureScheme). *)
Inductive signature_scheme : Type :=
| ECDSA_SECP256R1_SHA256 | ECDSA_SECP384R1_SHA384 | ECDSA_SECP521R1_SHA512 | ED25519 | ED448.
(** Models the discriminants at crypto/provider/mod.rs:55-63. *)
Definition u16_of_signature_scheme (s : signature_scheme) : N :=
  match s with
  | ECDSA_SECP256R1_SHA256 => 0x0403 | ECDSA_SECP384R1_SHA384 => 0x0503
  | ECDSA_SECP521R1_SHA512 => 0x0603 | ED25519 => 0x0807 | ED448 => 0x0808
  end.
(** Models crypto/provider/mod.rs:66-85 (SignatureScheme::deserialize). *)
Definition de_signature_scheme (bs : bytes) : res (signature_scheme * bytes) :=
  let* (v, bs) := read_u16 bs in
  if v =? 0x0403 then Ok (ECDSA_SECP256R1_SHA256, bs)
  else if v =? 0x0503 then Ok (ECDSA_SECP384R1_SHA384, bs)
  else if v =? 0x0603 then Ok (ECDSA_SECP521R1_SHA512, bs)
  else if v =? 0x0807 then Ok (ED25519, bs)
  else if v =? 0x0808 then Ok (ED448, bs)
  else Err (InvalidSignatureSchemeValue v).
(** Models crypto/provider/mod.rs:87-96. *)
Definition se_signature_scheme (s : signature_scheme) : res bytes :=
  put_u16 (u16_of_signature_scheme s).

(** Models crypto/key_pair.rs:9-13 (SignatureKeyPair). *)
Record signature_key_pair : Type := MkSigKeyPair {
  skp_private : secret_key; skp_public : secret_key; skp_scheme : signature_scheme }.
(** Models crypto/key_pair.rs:15-30. *)
Definition de_signature_key_pair (bs : bytes) : res (signature_key_pair * bytes) :=
  let* (a, bs) := de_secret_key bs in
  let* (b, bs) := de_secret_key bs in
  let* (c, bs) := de_signature_scheme bs in
  Ok (MkSigKeyPair a b c, bs).
(** Models crypto/key_pair.rs:32-42. *)
Definition se_signature_key_pair (k : signature_key_pair) : res bytes :=
  se_secret_key (skp_private k) +++ se_secret_key (skp_public k) +++ se_signature_scheme (skp_scheme k).

(** Models crypto/key_pair.rs:63-66 (HPKEKeyPair, alias EncryptionKeyPair at 106). *)
Record hpke_key_pair : Type := MkHpkeKeyPair { hkp_private : secret_key; hkp_public : secret_key }.
(** Models crypto/key_pair.rs:68-81. *)
Definition de_hpke_key_pair (bs : bytes) : res (hpke_key_pair * bytes) :=
  let* (a, bs) := de_secret_key bs in
  let* (b, bs) := de_secret_key bs in
  Ok (MkHpkeKeyPair a b, bs).
(** Models crypto/key_pair.rs:83-92. *)
Definition se_hpke_key_pair (k : hpke_key_pair) : res bytes :=
  se_secret_key (hkp_private k) +++ se_secret_key (hkp_public k).

(* ------------------------------------------------------------------------------------------- *)
(** * framing/mod.rs: versions, content types, senders, wire formats *)

(** Models framing/mod.rs:28-35 (enum ProtocolVersion). *)
Inductive protocol_version : Type := MLS10 | VersionUnsupported (v : N).
(** Models framing/mod.rs:37-44. *)
Definition version_of_u16 (v : N) : protocol_version :=
  match v with 1 => MLS10 | _ => VersionUnsupported v end.
(** Models framing/mod.rs:46-53. *)
Definition u16_of_version (p : protocol_version) : N :=
  match p with MLS10 => 1 | VersionUnsupported v => v end.
(** The derived PartialEq test [version != ProtocolVersion::MLS10] (framing/mod.rs:528). *)
Definition is_mls10 (p : protocol_version) : bool := match p with MLS10 => true | _ => false end.

(** Models framing/mod.rs:58-68 (enum ContentType). *)
Inductive content_type : Type := CTApplication | CTProposal | CTCommit.
(** Models framing/mod.rs:70-81, 83-94. *)
Definition de_content_type (bs : bytes) : res (content_type * bytes) :=
  let* (v, bs) := read_u8 bs in
  match v with
  | 1 => Ok (CTApplication, bs) | 2 => Ok (CTProposal, bs) | 3 => Ok (CTCommit, bs)
  | _ => Err (InvalidContentTypeValue v)
  end.
(** Models framing/mod.rs:95-104. *)
Definition se_content_type (c : content_type) : res bytes :=
  put_u8 match c with CTApplication => 1 | CTProposal => 2 | CTCommit => 3 end.

(** Models framing/mod.rs:177-190 (enum SenderType). *)
Inductive sender_type : Type := STMember | STExternal | STNewMemberProposal | STNewMemberCommit.
(** Models framing/mod.rs:192-217. *)
Definition de_sender_type (bs : bytes) : res (sender_type * bytes) :=
  let* (v, bs) := read_u8 bs in
  match v with
  | 1 => Ok (STMember, bs) | 2 => Ok (STExternal, bs)
  | 3 => Ok (STNewMemberProposal, bs) | 4 => Ok (STNewMemberCommit, bs)
  | _ => Err (InvalidSenderTypeValue v)
  end.
(** Models framing/mod.rs:218-227. *)
Definition se_sender_type (c : sender_type) : res bytes :=
  put_u8 match c with STMember => 1 | STExternal => 2 | STNewMemberProposal => 3 | STNewMemberCommit => 4 end.

(** Models framing/mod.rs:231-244 (enum Sender). *)
Inductive sender : Type :=
| SMember (leaf_index : N) | SExternal (v : N) | SNewMemberProposal | SNewMemberCommit.
(** Models framing/mod.rs:295-304 (Sender::sender_type). *)
Definition sender_type_of (s : sender) : sender_type :=
  match s with
  | SMember _ => STMember | SExternal _ => STExternal
  | SNewMemberProposal => STNewMemberProposal | SNewMemberCommit => STNewMemberCommit
  end.
(** Models framing/mod.rs:246-273. *)
Definition de_sender (bs : bytes) : res (sender * bytes) :=
  let* _ := need 1 bs in
  let* (t, bs) := de_sender_type bs in
  match t with
  | STMember => let* (v, bs) := read_u32 bs in Ok (SMember v, bs)
  | STExternal => let* (v, bs) := read_u32 bs in Ok (SExternal v, bs)
  | STNewMemberProposal => Ok (SNewMemberProposal, bs)
  | STNewMemberCommit => Ok (SNewMemberCommit, bs)
  end.
(** Models framing/mod.rs:275-293. *)
Definition se_sender (s : sender) : res bytes :=
  se_sender_type (sender_type_of s) +++
  match s with
  | SMember v => put_u32 v
  | SExternal v => put_u32 v
  | SNewMemberProposal | SNewMemberCommit => Ok []
  end.

(** Models framing/mod.rs:309-325 (enum WireFormat). *)
Inductive wire_format : Type := WFPublicMessage | WFPrivateMessage | WFWelcome | WFGroupInfo | WFKeyPackage.
(** Models framing/mod.rs:327-354. *)
Definition de_wire_format (bs : bytes) : res (wire_format * bytes) :=
  let* (v, bs) := read_u16 bs in
  match v with
  | 1 => Ok (WFPublicMessage, bs) | 2 => Ok (WFPrivateMessage, bs) | 3 => Ok (WFWelcome, bs)
  | 4 => Ok (WFGroupInfo, bs) | 5 => Ok (WFKeyPackage, bs)
  | _ => Err (InvalidWireFormatValue v)
  end.
(** Models framing/mod.rs:356-366. *)
Definition se_wire_format (w : wire_format) : res bytes :=
  put_u16 match w with
          | WFPublicMessage => 1 | WFPrivateMessage => 2 | WFWelcome => 3
          | WFGroupInfo => 4 | WFKeyPackage => 5 end.

(* ------------------------------------------------------------------------------------------- *)
(** * extensibility/mod.rs *)

(** Models extensibility/mod.rs:21-30 (enum ExtensionType). *)
Inductive extension_type : Type :=
| ExtApplicationId | ExtRatchetTree | ExtRequiredCapabilities | ExtExternalPub | ExtExternalSenders
| ExtUnknown (v : N).
(** Models extensibility/mod.rs:32-43. *)
Definition extension_type_of_u16 (v : N) : extension_type :=
  match v with
  | 1 => ExtApplicationId | 2 => ExtRatchetTree | 3 => ExtRequiredCapabilities
  | 4 => ExtExternalPub | 5 => ExtExternalSenders | _ => ExtUnknown v
  end.
(** Models extensibility/mod.rs:45-56. *)
Definition u16_of_extension_type (e : extension_type) : N :=
  match e with
  | ExtApplicationId => 1 | ExtRatchetTree => 2 | ExtRequiredCapabilities => 3
  | ExtExternalPub => 4 | ExtExternalSenders => 5 | ExtUnknown v => v
  end.

(** Models extensibility/mod.rs:60-63 (Extension). *)
Record extension : Type := MkExtension { ext_type : extension_type; ext_data : bytes }.
(** Element closures at extensibility/mod.rs:99-110 and 120-123. *)
Definition de_extension (bs : bytes) : res (extension * bytes) :=
  let* (t, bs) := read_u16 bs in
  let* (d, bs) := de_opaque bs in
  Ok (MkExtension (extension_type_of_u16 t) d, bs).
(** Models extensibility/mod.rs:120-123. *)
Definition se_extension (e : extension) : res bytes :=
  put_u16 (u16_of_extension_type (ext_type e)) +++ se_opaque (ext_data e).

(** Models extensibility/mod.rs:84 (Extensions), 96-113, 115-126. The newtype wrapper is dropped. *)
Notation extensions := (list extension) (only parsing).
(** Models extensibility/mod.rs:96-113. *)
Definition de_extensions : bytes -> res (extensions * bytes) := de_vector de_extension.
(** Models extensibility/mod.rs:115-126. *)
Definition se_extensions : extensions -> res bytes := se_vector se_extension.

(** Models extensibility/mod.rs:20-30 (derived PartialEq of ExtensionType). *)
Definition extension_type_eqb (a b : extension_type) : bool :=
  match a, b with
  | ExtApplicationId, ExtApplicationId | ExtRatchetTree, ExtRatchetTree
  | ExtRequiredCapabilities, ExtRequiredCapabilities | ExtExternalPub, ExtExternalPub
  | ExtExternalSenders, ExtExternalSenders => true
  | ExtUnknown v, ExtUnknown w => v =? w
  | _, _ => false
  end.
(** Models extensibility/mod.rs:129-136 (find_extension_data). *)
Fixpoint find_extension_data (l : extensions) (t : extension_type) : option bytes :=
  match l with
  | [] => None
  | e :: r => if extension_type_eqb (ext_type e) t then Some (ext_data e) else find_extension_data r t
  end.

(** Models extensibility/mod.rs:141-176 (ApplicationIdExtension) and 434-469 (UnknownExtension). *)
Definition de_application_id : bytes -> res (bytes * bytes) := de_opaque.
(** Models extensibility/mod.rs:168-176. *)
Definition se_application_id : bytes -> res bytes := se_opaque.
(** Models extensibility/mod.rs:451-459 (UnknownExtension). *)
Definition de_unknown_extension : bytes -> res (bytes * bytes) := de_opaque.
(** Models extensibility/mod.rs:461-469. *)
Definition se_unknown_extension : bytes -> res bytes := se_opaque.
(** Models extensibility/mod.rs:340-376 (ExternalPubExtension). *)
Definition de_external_pub : bytes -> res (bytes * bytes) := de_secret_key.
(** Models extensibility/mod.rs:368-376. *)
Definition se_external_pub : bytes -> res bytes := se_secret_key.

(** Models extensibility/mod.rs:380-383 (ExternalSendersExtension). *)
Record external_senders : Type := MkExtSenders { es_signature_key : secret_key; es_credential : credential }.
(** Models extensibility/mod.rs:405-419. *)
Definition de_external_senders (bs : bytes) : res (external_senders * bytes) :=
  let* (k, bs) := de_secret_key bs in
  let* (c, bs) := de_credential bs in
  Ok (MkExtSenders k c, bs).
(** Models extensibility/mod.rs:421-430. *)
Definition se_external_senders (e : external_senders) : res bytes :=
  se_secret_key (es_signature_key e) +++ se_credential (es_credential e).

(** Models framing/proposal.rs:18-28 (enum ProposalType). *)
Inductive proposal_type : Type :=
| PtAdd | PtUpdate | PtRemove | PtPreSharedKey | PtReInit | PtExternalInit | PtGroupContextExtensions
| PtUnknown (v : N).
(** Models framing/proposal.rs:30-43. *)
Definition proposal_type_of_u16 (v : N) : proposal_type :=
  match v with
  | 1 => PtAdd | 2 => PtUpdate | 3 => PtRemove | 4 => PtPreSharedKey | 5 => PtReInit
  | 6 => PtExternalInit | 7 => PtGroupContextExtensions | _ => PtUnknown v
  end.
(** Models framing/proposal.rs:45-58. *)
Definition u16_of_proposal_type (p : proposal_type) : N :=
  match p with
  | PtAdd => 1 | PtUpdate => 2 | PtRemove => 3 | PtPreSharedKey => 4 | PtReInit => 5
  | PtExternalInit => 6 | PtGroupContextExtensions => 7 | PtUnknown v => v
  end.
(** Models framing/proposal.rs:60-71: only one byte is checked for, two are read. *)
Definition de_proposal_type (bs : bytes) : res (proposal_type * bytes) :=
  let* _ := need 1 bs in
  let* (v, bs) := get_u16 bs in
  Ok (proposal_type_of_u16 v, bs).
(** Models framing/proposal.rs:73-82. *)
Definition se_proposal_type (p : proposal_type) : res bytes := put_u16 (u16_of_proposal_type p).

(** The element closures "check 2 bytes, [get_u16().into()]" / "[put_u16(x.into())]" used for lists of
    versions, suites, extension types, proposal types and credential types
    (ratchet_tree/leaf_node.rs:86-132, 150-193; extensibility/mod.rs:264-291, 307-332). *)
Definition de_u16_as {A} (f : N -> A) (bs : bytes) : res (A * bytes) :=
  let* (v, bs) := read_u16 bs in Ok (f v, bs).
(** Models the element closures at ratchet_tree/leaf_node.rs:150-193 and extensibility/mod.rs:307-332. *)
Definition se_u16_as {A} (g : A -> N) (a : A) : res bytes := put_u16 (g a).

(** Models extensibility/mod.rs:221-225 (RequiredCapabilitiesExtension). *)
Record required_capabilities : Type := MkRequiredCapabilities {
  rc_extensions : list extension_type;
  rc_proposals : list proposal_type;
  rc_credentials : list credential_type }.
(** Models extensibility/mod.rs:257-299. *)
Definition de_required_capabilities (bs : bytes) : res (required_capabilities * bytes) :=
  let* (e, bs) := de_vector (de_u16_as extension_type_of_u16) bs in
  let* (p, bs) := de_vector (de_u16_as proposal_type_of_u16) bs in
  let* (c, bs) := de_vector (de_u16_as credential_type_of_u16) bs in
  Ok (MkRequiredCapabilities e p c, bs).
(** Models extensibility/mod.rs:301-336. *)
Definition se_required_capabilities (r : required_capabilities) : res bytes :=
  se_vector (se_u16_as u16_of_extension_type) (rc_extensions r) +++
  se_vector (se_u16_as u16_of_proposal_type) (rc_proposals r) +++
  se_vector (se_u16_as u16_of_credential_type) (rc_credentials r).

(* ------------------------------------------------------------------------------------------- *)
(** * ratchet_tree/leaf_node.rs *)

(** Models ratchet_tree/leaf_node.rs:204-207 (Lifetime). *)
Record lifetime : Type := MkLifetime { not_before : N; not_after : N }.
(** Models ratchet_tree/leaf_node.rs:209-227: eight bytes are checked for, sixteen are read. *)
Definition de_lifetime (bs : bytes) : res (lifetime * bytes) :=
  let* _ := need 8 bs in
  let* (b, bs) := get_u64 bs in
  let* (a, bs) := get_u64 bs in
  Ok (MkLifetime b a, bs).
(** Models ratchet_tree/leaf_node.rs:229-239. *)
Definition se_lifetime (l : lifetime) : res bytes := put_u64 (not_before l) +++ put_u64 (not_after l).

(** Models ratchet_tree/leaf_node.rs:20-25 (enum LeafNodeSource). *)
Inductive leaf_node_source : Type :=
| LSKeyPackage (l : lifetime) | LSUpdate | LSCommit (parent_hash : bytes).
(** Models ratchet_tree/leaf_node.rs:27-44. *)
Definition de_leaf_node_source (bs : bytes) : res (leaf_node_source * bytes) :=
  let* (v, bs) := read_u8 bs in
  match v with
  | 1 => let* (l, bs) := de_lifetime bs in Ok (LSKeyPackage l, bs)
  | 2 => Ok (LSUpdate, bs)
  | 3 => let* (h, bs) := de_opaque bs in Ok (LSCommit h, bs)
  | _ => Err (InvalidLeafNodeSourceValue v)
  end.
(** Models ratchet_tree/leaf_node.rs:46-66. *)
Definition se_leaf_node_source (s : leaf_node_source) : res bytes :=
  match s with
  | LSKeyPackage l => put_u8 1 +++ se_lifetime l
  | LSUpdate => put_u8 2
  | LSCommit h => put_u8 3 +++ se_opaque h
  end.

(** Models ratchet_tree/leaf_node.rs:70-76 (Capabilities). *)
Record capabilities : Type := MkCapabilities {
  cap_versions : list protocol_version;
  cap_suites : list cipher_suite;
  cap_extensions : list extension_type;
  cap_proposals : list proposal_type;
  cap_credentials : list credential_type }.
(** Models ratchet_tree/leaf_node.rs:78-142. *)
Definition de_capabilities (bs : bytes) : res (capabilities * bytes) :=
  let* (v, bs) := de_vector (de_u16_as version_of_u16) bs in
  let* (s, bs) := de_vector (de_u16_as cipher_suite_of_u16) bs in
  let* (e, bs) := de_vector (de_u16_as extension_type_of_u16) bs in
  let* (p, bs) := de_vector (de_u16_as proposal_type_of_u16) bs in
  let* (c, bs) := de_vector (de_u16_as credential_type_of_u16) bs in
  Ok (MkCapabilities v s e p c, bs).
(** Models ratchet_tree/leaf_node.rs:144-197. *)
Definition se_capabilities (c : capabilities) : res bytes :=
  se_vector (se_u16_as u16_of_version) (cap_versions c) +++
  se_vector (se_u16_as u16_of_cipher_suite) (cap_suites c) +++
  se_vector (se_u16_as u16_of_extension_type) (cap_extensions c) +++
  se_vector (se_u16_as u16_of_proposal_type) (cap_proposals c) +++
  se_vector (se_u16_as u16_of_credential_type) (cap_credentials c).

(** Models ratchet_tree/leaf_node.rs:269-276 (LeafNodePayload). *)
Record leaf_node_payload : Type := MkLeafPayload {
  lp_encryption_key : secret_key;
  lp_signature_key : secret_key;
  lp_credential : credential;
  lp_capabilities : capabilities;
  lp_source : leaf_node_source;
  lp_extensions : extensions }.
(** Models ratchet_tree/leaf_node.rs:278-302. *)
Definition de_leaf_payload (bs : bytes) : res (leaf_node_payload * bytes) :=
  let* (e, bs) := de_secret_key bs in
  let* (s, bs) := de_secret_key bs in
  let* (c, bs) := de_credential bs in
  let* (cap, bs) := de_capabilities bs in
  let* (src, bs) := de_leaf_node_source bs in
  let* (ext, bs) := de_extensions bs in
  Ok (MkLeafPayload e s c cap src ext, bs).
(** Models ratchet_tree/leaf_node.rs:304-317. *)
Definition se_leaf_payload (p : leaf_node_payload) : res bytes :=
  se_opaque (lp_encryption_key p) +++ se_opaque (lp_signature_key p) +++
  se_credential (lp_credential p) +++ se_capabilities (lp_capabilities p) +++
  se_leaf_node_source (lp_source p) +++ se_extensions (lp_extensions p).

(** Models ratchet_tree/leaf_node.rs:321-324 (LeafNode). *)
Record leaf_node : Type := MkLeafNode { ln_payload : leaf_node_payload; ln_signature : bytes }.
(** Models ratchet_tree/leaf_node.rs:326-337. *)
Definition de_leaf_node (bs : bytes) : res (leaf_node * bytes) :=
  let* (p, bs) := de_leaf_payload bs in
  let* (s, bs) := de_opaque bs in
  Ok (MkLeafNode p s, bs).
(** Models ratchet_tree/leaf_node.rs:339-348. *)
Definition se_leaf_node (l : leaf_node) : res bytes :=
  se_leaf_payload (ln_payload l) +++ se_opaque (ln_signature l).

(** Models ratchet_tree/leaf_node.rs:350-360 (TreePosition, TreeInfoTBS). *)
Inductive tree_info_tbs : Type := TIKeyPackage | TIUpdateOrCommit (group_id : bytes) (leaf_index : N).
(** Models ratchet_tree/leaf_node.rs:364-389 (LeafNodeTBS::serialize). *)
Definition se_leaf_node_tbs (p : leaf_node_payload) (t : tree_info_tbs) : res bytes :=
  se_leaf_payload p +++
  match lp_source p with
  | LSUpdate | LSCommit _ =>
      match t with
      | TIUpdateOrCommit g i => se_opaque g +++ put_u32 i
      | TIKeyPackage => Ok []
      end
  | LSKeyPackage _ => Ok []
  end.

(* ------------------------------------------------------------------------------------------- *)
(** * ratchet_tree/parent_node.rs, ratchet_tree/mod.rs *)

(** Models ratchet_tree/parent_node.rs:10-23 (ParentNode). *)
Record parent_node : Type := MkParentNode {
  pn_encryption_key : secret_key; pn_parent_hash : bytes; pn_unmerged : list N }.
(** Element closure at ratchet_tree/parent_node.rs:35-42: one byte is checked for, four are read. *)
Definition de_unmerged_leaf (bs : bytes) : res (N * bytes) := let* _ := need 1 bs in get_u32 bs.
(** Models ratchet_tree/parent_node.rs:25-50. *)
Definition de_parent_node (bs : bytes) : res (parent_node * bytes) :=
  let* (k, bs) := de_secret_key bs in
  let* (h, bs) := de_opaque bs in
  let* (u, bs) := de_vector de_unmerged_leaf bs in
  Ok (MkParentNode k h u, bs).
(** Models ratchet_tree/parent_node.rs:52-69. *)
Definition se_parent_node (p : parent_node) : res bytes :=
  se_opaque (pn_encryption_key p) +++ se_opaque (pn_parent_hash p) +++ se_vector put_u32 (pn_unmerged p).

(** Models ratchet_tree/mod.rs:31-34 (HPKECiphertext), 36-50, 52-62. *)
Record hpke_ciphertext : Type := MkHpkeCiphertext { hc_kem_output : bytes; hc_ciphertext : bytes }.
(** Models ratchet_tree/mod.rs:36-50. *)
Definition de_hpke_ciphertext (bs : bytes) : res (hpke_ciphertext * bytes) :=
  let* (k, bs) := de_opaque bs in
  let* (c, bs) := de_opaque bs in
  Ok (MkHpkeCiphertext k c, bs).
(** Models ratchet_tree/mod.rs:52-62. *)
Definition se_hpke_ciphertext (h : hpke_ciphertext) : res bytes :=
  se_opaque (hc_kem_output h) +++ se_opaque (hc_ciphertext h).

(** Models ratchet_tree/mod.rs:66-69 (UpdatePathNode), 71-90, 92-107. *)
Record update_path_node : Type := MkUpdatePathNode {
  upn_encryption_key : secret_key; upn_encrypted : list hpke_ciphertext }.
(** Models ratchet_tree/mod.rs:71-90. *)
Definition de_update_path_node (bs : bytes) : res (update_path_node * bytes) :=
  let* (k, bs) := de_secret_key bs in
  let* (l, bs) := de_vector de_hpke_ciphertext bs in
  Ok (MkUpdatePathNode k l, bs).
(** Models ratchet_tree/mod.rs:92-107. *)
Definition se_update_path_node (u : update_path_node) : res bytes :=
  se_opaque (upn_encryption_key u) +++ se_vector se_hpke_ciphertext (upn_encrypted u).

(** Models ratchet_tree/mod.rs:116-119 (UpdatePath), 121-137, 139-152. *)
Record update_path : Type := MkUpdatePath { up_leaf : leaf_node; up_nodes : list update_path_node }.
(** Models ratchet_tree/mod.rs:121-137. *)
Definition de_update_path (bs : bytes) : res (update_path * bytes) :=
  let* (l, bs) := de_leaf_node bs in
  let* (n, bs) := de_vector de_update_path_node bs in
  Ok (MkUpdatePath l n, bs).
(** Models ratchet_tree/mod.rs:139-152. *)
Definition se_update_path (u : update_path) : res bytes :=
  se_leaf_node (up_leaf u) +++ se_vector se_update_path_node (up_nodes u).

(** Models ratchet_tree/mod.rs:157-161 (NodeType), 163-180, 182-199. *)
Inductive node_type : Type := NtLeaf | NtParent.
(** Models ratchet_tree/mod.rs:163-180. *)
Definition de_node_type (bs : bytes) : res (node_type * bytes) :=
  let* (v, bs) := read_u8 bs in
  match v with 1 => Ok (NtLeaf, bs) | 2 => Ok (NtParent, bs) | _ => Err (InvalidNodeTypeValue v) end.
(** Models ratchet_tree/mod.rs:182-199. *)
Definition se_node_type (t : node_type) : res bytes := put_u8 match t with NtLeaf => 1 | NtParent => 2 end.

(** Models ratchet_tree/mod.rs:203-206 (enum Node), 246-253 (node_type). *)
Inductive node : Type := Leaf (l : leaf_node) | Parent (p : parent_node).
(** Models ratchet_tree/mod.rs:246-253. *)
Definition node_type_of (n : node) : node_type := match n with Leaf _ => NtLeaf | Parent _ => NtParent end.
(** Models ratchet_tree/mod.rs:214-230. *)
Definition de_node (bs : bytes) : res (node * bytes) :=
  let* _ := need 1 bs in
  let* (t, bs) := de_node_type bs in
  match t with
  | NtLeaf => let* (l, bs) := de_leaf_node bs in Ok (Leaf l, bs)
  | NtParent => let* (p, bs) := de_parent_node bs in Ok (Parent p, bs)
  end.
(** Models ratchet_tree/mod.rs:232-244. *)
Definition se_node (n : node) : res bytes :=
  se_node_type (node_type_of n) +++
  match n with Leaf l => se_leaf_node l | Parent p => se_parent_node p end.

(** Models ratchet_tree/mod.rs:257 (RatchetTree). The newtype wrapper is dropped. *)
Notation ratchet_tree := (list (option node)) (only parsing).

(** Models utilities/tree_math/mod.rs:201-203 (is_power_of_two). *)
Definition is_power_of_two (x : N) : bool := negb (x =? 0) && (N.land x (x - 1) =? 0).

(** Models ratchet_tree/mod.rs:278-280: push blanks while len+1 is not a power of two. [fuel] bounds the
    number of pushes. Simplification: [nodes.len() as u32 + 1] is taken without wrap-around; a decoded
    vector has fewer than 2^30 entries (varint limit), so the Rust expression never wraps. *)
Fixpoint pad_blank (fuel : nat) (t : ratchet_tree) : res ratchet_tree :=
  if is_power_of_two (N.of_nat (length t) + 1) then Ok t
  else match fuel with O => Hang | S k => pad_blank k (t ++ [None]) end.

(** Models ratchet_tree/mod.rs:259-284 (RatchetTree::deserialize). [length l + 1] pushes always suffice
    (theorem in the proofs: never Hang). *)
Definition de_ratchet_tree (bs : bytes) : res (ratchet_tree * bytes) :=
  let* (l, bs) := de_vector (de_option de_node) bs in
  let* t := pad_blank (length l + 1) l in
  Ok (t, bs).

(** Models ratchet_tree/mod.rs:292-295: drop the blank nodes at the end. *)
Fixpoint trim_blank (t : ratchet_tree) : ratchet_tree :=
  match t with
  | [] => []
  | x :: r => match x, trim_blank r with
              | None, [] => []
              | _, r' => x :: r'
              end
  end.
(** Models ratchet_tree/mod.rs:286-305 (RatchetTree::serialize). *)
Definition se_ratchet_tree (t : ratchet_tree) : res bytes :=
  se_vector (se_option se_node) (trim_blank t).

(** Models extensibility/mod.rs:180-217 (RatchetTreeExtension). *)
Definition de_ratchet_tree_extension : bytes -> res (ratchet_tree * bytes) := de_ratchet_tree.
(** Models extensibility/mod.rs:209-217. *)
Definition se_ratchet_tree_extension : ratchet_tree -> res bytes := se_ratchet_tree.

(* ------------------------------------------------------------------------------------------- *)
(** * key_package/mod.rs *)

(** Models key_package/mod.rs:31-59 (KeyPackageRef). *)
Notation key_package_ref := bytes (only parsing).
(** Models key_package/mod.rs:41-49. *)
Definition de_key_package_ref : bytes -> res (key_package_ref * bytes) := de_opaque.
(** Models key_package/mod.rs:51-59. *)
Definition se_key_package_ref : key_package_ref -> res bytes := se_opaque.

(** Models key_package/mod.rs:63-69 (KeyPackageTBS). *)
Record key_package_tbs : Type := MkKeyPackageTBS {
  kp_version : protocol_version;
  kp_suite : cipher_suite;
  kp_init_key : secret_key;
  kp_leaf : leaf_node;
  kp_extensions : extensions }.
(** Models key_package/mod.rs:71-95. *)
Definition de_key_package_tbs (bs : bytes) : res (key_package_tbs * bytes) :=
  let* _ := need 4 bs in
  let* (v, bs) := get_u16 bs in
  let* (c, bs) := get_u16 bs in
  let* (k, bs) := de_secret_key bs in
  let* (l, bs) := de_leaf_node bs in
  let* (e, bs) := de_extensions bs in
  Ok (MkKeyPackageTBS (version_of_u16 v) (cipher_suite_of_u16 c) k l e, bs).
(** Models key_package/mod.rs:97-109. *)
Definition se_key_package_tbs (k : key_package_tbs) : res bytes :=
  put_u16 (u16_of_version (kp_version k)) +++ put_u16 (u16_of_cipher_suite (kp_suite k)) +++
  se_opaque (kp_init_key k) +++ se_leaf_node (kp_leaf k) +++ se_extensions (kp_extensions k).

(** Models key_package/mod.rs:113-116 (KeyPackage), 118-129, 131-140. *)
Record key_package : Type := MkKeyPackage { kp_payload : key_package_tbs; kp_signature : bytes }.
(** Models key_package/mod.rs:118-129. *)
Definition de_key_package (bs : bytes) : res (key_package * bytes) :=
  let* (p, bs) := de_key_package_tbs bs in
  let* (s, bs) := de_opaque bs in
  Ok (MkKeyPackage p s, bs).
(** Models key_package/mod.rs:131-140. *)
Definition se_key_package (k : key_package) : res bytes :=
  se_key_package_tbs (kp_payload k) +++ se_opaque (kp_signature k).

(* ------------------------------------------------------------------------------------------- *)
(** * key_schedule/mod.rs *)

(** Models key_schedule/mod.rs:51-68 (GroupContext). *)
Record group_context : Type := MkGroupContext {
  gc_version : protocol_version;
  gc_suite : cipher_suite;
  gc_group_id : bytes;
  gc_epoch : N;
  gc_tree_hash : bytes;
  gc_confirmed : bytes;
  gc_extensions : extensions }.
(** Models key_schedule/mod.rs:70-106. *)
Definition de_group_context (bs : bytes) : res (group_context * bytes) :=
  let* _ := need 4 bs in
  let* (v, bs) := get_u16 bs in
  let* (c, bs) := get_u16 bs in
  let* (g, bs) := de_opaque bs in
  let* (e, bs) := read_u64 bs in
  let* (t, bs) := de_opaque bs in
  let* (h, bs) := de_opaque bs in
  if negb (is_mls10 (version_of_u16 v)) then Err (InvalidProposalTypeValue (u16_of_version (version_of_u16 v)))
  else
    let* (x, bs) := de_extensions bs in
    Ok (MkGroupContext (version_of_u16 v) (cipher_suite_of_u16 c) g e t h x, bs).
(** Models key_schedule/mod.rs:107-121. *)
Definition se_group_context (g : group_context) : res bytes :=
  put_u16 (u16_of_version (gc_version g)) +++ put_u16 (u16_of_cipher_suite (gc_suite g)) +++
  se_opaque (gc_group_id g) +++ put_u64 (gc_epoch g) +++ se_opaque (gc_tree_hash g) +++
  se_opaque (gc_confirmed g) +++ se_extensions (gc_extensions g).

(** Models key_schedule/mod.rs:324-328 (PSKType), 330-353, 354-363. *)
Inductive psk_type : Type := PskExternal | PskResumption.
(** Models key_schedule/mod.rs:330-353. *)
Definition de_psk_type (bs : bytes) : res (psk_type * bytes) :=
  let* (v, bs) := read_u8 bs in
  match v with 1 => Ok (PskExternal, bs) | 2 => Ok (PskResumption, bs) | _ => Err (InvalidPskTypeValue v) end.
(** Models key_schedule/mod.rs:354-363. *)
Definition se_psk_type (t : psk_type) : res bytes :=
  put_u8 match t with PskExternal => 1 | PskResumption => 2 end.

(** Models key_schedule/mod.rs:422-427 (ResumptionPSKUsage), 429-454, 455-464. *)
Inductive psk_usage : Type := UseApplication | UseReinit | UseBranch.
(** Models key_schedule/mod.rs:429-454. *)
Definition de_psk_usage (bs : bytes) : res (psk_usage * bytes) :=
  let* (v, bs) := read_u8 bs in
  match v with
  | 1 => Ok (UseApplication, bs) | 2 => Ok (UseReinit, bs) | 3 => Ok (UseBranch, bs)
  | _ => Err (InvalidResumptionPSKUsageValue v)
  end.
(** Models key_schedule/mod.rs:455-464. *)
Definition se_psk_usage (u : psk_usage) : res bytes :=
  put_u8 match u with UseApplication => 1 | UseReinit => 2 | UseBranch => 3 end.

(** Models key_schedule/mod.rs:468-472 (Resumption), 474-492, 494-505. *)
Record resumption : Type := MkResumption { rs_usage : psk_usage; rs_group_id : bytes; rs_epoch : N }.
(** Models key_schedule/mod.rs:474-492. *)
Definition de_resumption (bs : bytes) : res (resumption * bytes) :=
  let* (u, bs) := de_psk_usage bs in
  let* (g, bs) := de_opaque bs in
  let* (e, bs) := read_u64 bs in
  Ok (MkResumption u g e, bs).
(** Models key_schedule/mod.rs:494-505. *)
Definition se_resumption (r : resumption) : res bytes :=
  se_psk_usage (rs_usage r) +++ se_opaque (rs_group_id r) +++ put_u64 (rs_epoch r).

(** Models key_schedule/mod.rs:367-370 (enum PSK), 410-417 (psk_type). *)
Inductive psk : Type := PExternal (id : bytes) | PResumption (r : resumption).
(** Models key_schedule/mod.rs:410-417. *)
Definition psk_type_of (p : psk) : psk_type :=
  match p with PExternal _ => PskExternal | PResumption _ => PskResumption end.
(** Models key_schedule/mod.rs:378-394. *)
Definition de_psk (bs : bytes) : res (psk * bytes) :=
  let* _ := need 2 bs in
  let* (t, bs) := de_psk_type bs in
  match t with
  | PskExternal => let* (i, bs) := de_opaque bs in Ok (PExternal i, bs)
  | PskResumption => let* (r, bs) := de_resumption bs in Ok (PResumption r, bs)
  end.
(** Models key_schedule/mod.rs:396-408. *)
Definition se_psk (p : psk) : res bytes :=
  se_psk_type (psk_type_of p) +++
  match p with PExternal i => se_opaque i | PResumption r => se_resumption r end.

(** Models key_schedule/mod.rs:509-512 (PreSharedKeyID), 514-528, 529-538. *)
Record psk_id : Type := MkPskId { pi_psk : psk; pi_nonce : bytes }.
(** Models key_schedule/mod.rs:514-528. *)
Definition de_psk_id (bs : bytes) : res (psk_id * bytes) :=
  let* _ := need 1 bs in
  let* (p, bs) := de_psk bs in
  let* (n, bs) := de_opaque bs in
  Ok (MkPskId p n, bs).
(** Models key_schedule/mod.rs:529-538. *)
Definition se_psk_id (p : psk_id) : res bytes := se_psk (pi_psk p) +++ se_opaque (pi_nonce p).

(** Models key_schedule/mod.rs:542-546 (PSKLabel), 548-563, 565-576. *)
Record psk_label : Type := MkPskLabel { pl_id : psk_id; pl_index : N; pl_count : N }.
(** Models key_schedule/mod.rs:548-563. *)
Definition de_psk_label (bs : bytes) : res (psk_label * bytes) :=
  let* (p, bs) := de_psk_id bs in
  let* _ := need 4 bs in
  let* (i, bs) := get_u16 bs in
  let* (c, bs) := get_u16 bs in
  Ok (MkPskLabel p i c, bs).
(** Models key_schedule/mod.rs:565-576. *)
Definition se_psk_label (p : psk_label) : res bytes :=
  se_psk_id (pl_id p) +++ put_u16 (pl_index p) +++ put_u16 (pl_count p).

(* ------------------------------------------------------------------------------------------- *)
(** * framing/proposal.rs, framing/commit.rs *)

(** Models framing/proposal.rs:171-173 (AddProposal), 175-194. *)
Record add_proposal : Type := MkAdd { add_key_package : key_package }.
(** Models framing/proposal.rs:175-184. *)
Definition de_add_proposal (bs : bytes) : res (add_proposal * bytes) :=
  let* (k, bs) := de_key_package bs in Ok (MkAdd k, bs).
(** Models framing/proposal.rs:186-194. *)
Definition se_add_proposal (a : add_proposal) : res bytes := se_key_package (add_key_package a).

(** Models framing/proposal.rs:197-199 (UpdateProposal), 201-220. *)
Record update_proposal : Type := MkUpdate { upd_leaf : leaf_node }.
(** Models framing/proposal.rs:201-210. *)
Definition de_update_proposal (bs : bytes) : res (update_proposal * bytes) :=
  let* (k, bs) := de_leaf_node bs in Ok (MkUpdate k, bs).
(** Models framing/proposal.rs:212-220. *)
Definition se_update_proposal (a : update_proposal) : res bytes := se_leaf_node (upd_leaf a).

(** Models framing/proposal.rs:223-225 (RemoveProposal), 227-251. *)
Record remove_proposal : Type := MkRemove { rem_removed : N }.
(** Models framing/proposal.rs:227-239. *)
Definition de_remove_proposal (bs : bytes) : res (remove_proposal * bytes) :=
  let* (v, bs) := read_u32 bs in Ok (MkRemove v, bs).
(** Models framing/proposal.rs:241-251. *)
Definition se_remove_proposal (r : remove_proposal) : res bytes := put_u32 (rem_removed r).

(** Models framing/proposal.rs:254-256 (PreSharedKeyProposal), 258-276. *)
Record psk_proposal : Type := MkPskProposal { pp_psk : psk_id }.
(** Models framing/proposal.rs:258-267. *)
Definition de_psk_proposal (bs : bytes) : res (psk_proposal * bytes) :=
  let* (p, bs) := de_psk_id bs in Ok (MkPskProposal p, bs).
(** Models framing/proposal.rs:268-276. *)
Definition se_psk_proposal (p : psk_proposal) : res bytes := se_psk_id (pp_psk p).

(** Models framing/proposal.rs:279-284 (ReInitProposal), 286-309, 310-321. *)
Record reinit_proposal : Type := MkReInit {
  ri_group_id : bytes; ri_version : protocol_version; ri_suite : cipher_suite; ri_extensions : extensions }.
(** Models framing/proposal.rs:286-309. *)
Definition de_reinit_proposal (bs : bytes) : res (reinit_proposal * bytes) :=
  let* (g, bs) := de_opaque bs in
  let* _ := need 4 bs in
  let* (v, bs) := get_u16 bs in
  let* (c, bs) := get_u16 bs in
  let* (e, bs) := de_extensions bs in
  Ok (MkReInit g (version_of_u16 v) (cipher_suite_of_u16 c) e, bs).
(** Models framing/proposal.rs:310-321. *)
Definition se_reinit_proposal (r : reinit_proposal) : res bytes :=
  se_opaque (ri_group_id r) +++ put_u16 (u16_of_version (ri_version r)) +++
  put_u16 (u16_of_cipher_suite (ri_suite r)) +++ se_extensions (ri_extensions r).

(** Models framing/proposal.rs:324-326 (ExternalInitProposal), 328-346. *)
Record external_init_proposal : Type := MkExternalInit { ei_kem_output : bytes }.
(** Models framing/proposal.rs:328-337. *)
Definition de_external_init_proposal (bs : bytes) : res (external_init_proposal * bytes) :=
  let* (k, bs) := de_opaque bs in Ok (MkExternalInit k, bs).
(** Models framing/proposal.rs:338-346. *)
Definition se_external_init_proposal (e : external_init_proposal) : res bytes := se_opaque (ei_kem_output e).

(** Models framing/proposal.rs:349-351 (GroupContextExtensionsProposal), 353-372. *)
Record gce_proposal : Type := MkGce { gce_extensions : extensions }.
(** Models framing/proposal.rs:353-363. *)
Definition de_gce_proposal (bs : bytes) : res (gce_proposal * bytes) :=
  let* (e, bs) := de_extensions bs in Ok (MkGce e, bs).
(** Models framing/proposal.rs:364-372. *)
Definition se_gce_proposal (g : gce_proposal) : res bytes := se_extensions (gce_extensions g).

(** Models framing/proposal.rs:85-93 (enum Proposal). *)
Inductive proposal : Type :=
| PAdd (p : add_proposal)
| PUpdate (p : update_proposal)
| PRemove (p : remove_proposal)
| PPreSharedKey (p : psk_proposal)
| PReInit (p : reinit_proposal)
| PExternalInit (p : external_init_proposal)
| PGroupContextExtensions (p : gce_proposal).
(** Models framing/proposal.rs:101-129. *)
Definition de_proposal (bs : bytes) : res (proposal * bytes) :=
  let* (t, bs) := read_u16 bs in
  match proposal_type_of_u16 t with
  | PtAdd => let* (p, bs) := de_add_proposal bs in Ok (PAdd p, bs)
  | PtUpdate => let* (p, bs) := de_update_proposal bs in Ok (PUpdate p, bs)
  | PtRemove => let* (p, bs) := de_remove_proposal bs in Ok (PRemove p, bs)
  | PtPreSharedKey => let* (p, bs) := de_psk_proposal bs in Ok (PPreSharedKey p, bs)
  | PtReInit => let* (p, bs) := de_reinit_proposal bs in Ok (PReInit p, bs)
  | PtExternalInit => let* (p, bs) := de_external_init_proposal bs in Ok (PExternalInit p, bs)
  | PtGroupContextExtensions => let* (p, bs) := de_gce_proposal bs in Ok (PGroupContextExtensions p, bs)
  | PtUnknown v => Err (InvalidProposalTypeValue v)
  end.
(** Models framing/proposal.rs:131-168. *)
Definition se_proposal (p : proposal) : res bytes :=
  match p with
  | PAdd p => put_u16 (u16_of_proposal_type PtAdd) +++ se_add_proposal p
  | PUpdate p => put_u16 (u16_of_proposal_type PtUpdate) +++ se_update_proposal p
  | PRemove p => put_u16 (u16_of_proposal_type PtRemove) +++ se_remove_proposal p
  | PPreSharedKey p => put_u16 (u16_of_proposal_type PtPreSharedKey) +++ se_psk_proposal p
  | PReInit p => put_u16 (u16_of_proposal_type PtReInit) +++ se_reinit_proposal p
  | PExternalInit p => put_u16 (u16_of_proposal_type PtExternalInit) +++ se_external_init_proposal p
  | PGroupContextExtensions p => put_u16 (u16_of_proposal_type PtGroupContextExtensions) +++ se_gce_proposal p
  end.

(** Models framing/proposal.rs:377-380 (enum ProposalOrRef), 388-404, 405-422. *)
Inductive proposal_or_ref : Type := PorProposal (p : proposal) | PorReference (r : bytes).
(** Models framing/proposal.rs:388-404. *)
Definition de_proposal_or_ref (bs : bytes) : res (proposal_or_ref * bytes) :=
  let* (v, bs) := read_u8 bs in
  match v with
  | 1 => let* (p, bs) := de_proposal bs in Ok (PorProposal p, bs)
  | 2 => let* (r, bs) := de_opaque bs in Ok (PorReference r, bs)
  | _ => Err (InvalidProposalOrRefValue v)
  end.
(** Models framing/proposal.rs:405-422. *)
Definition se_proposal_or_ref (p : proposal_or_ref) : res bytes :=
  match p with
  | PorProposal p => put_u8 1 +++ se_proposal p
  | PorReference r => put_u8 2 +++ se_opaque r
  end.

(** Models framing/commit.rs:9-12 (Commit), 14-35, 37-55. *)
Record commit : Type := MkCommit { cm_proposals : list proposal_or_ref; cm_path : option update_path }.
(** Models framing/commit.rs:14-35. *)
Definition de_commit (bs : bytes) : res (commit * bytes) :=
  let* (l, bs) := de_vector de_proposal_or_ref bs in
  let* (p, bs) := de_option de_update_path bs in
  Ok (MkCommit l p, bs).
(** Models framing/commit.rs:37-55. *)
Definition se_commit (c : commit) : res bytes :=
  se_vector se_proposal_or_ref (cm_proposals c) +++ se_option se_update_path (cm_path c).

(* ------------------------------------------------------------------------------------------- *)
(** * framing/mod.rs: content, framed content, authenticated content *)

(** Models framing/mod.rs:108-117 (enum Content), 163-172 (content_type). *)
Inductive content : Type := CApplication (d : bytes) | CProposal (p : proposal) | CCommit (c : commit).
(** Models framing/mod.rs:163-172. *)
Definition content_type_of (c : content) : content_type :=
  match c with CApplication _ => CTApplication | CProposal _ => CTProposal | CCommit _ => CTCommit end.
(** Models framing/mod.rs:125-141. *)
Definition de_content (bs : bytes) : res (content * bytes) :=
  let* _ := need 1 bs in
  let* (t, bs) := de_content_type bs in
  match t with
  | CTApplication => let* (d, bs) := de_opaque bs in Ok (CApplication d, bs)
  | CTProposal => let* (p, bs) := de_proposal bs in Ok (CProposal p, bs)
  | CTCommit => let* (c, bs) := de_commit bs in Ok (CCommit c, bs)
  end.
(** The match shared by Content::serialize (framing/mod.rs:149-157) and
    PrivateMessageContent::serialize (framing/private_message.rs:227-231). *)
Definition se_content_body (c : content) : res bytes :=
  match c with
  | CApplication d => se_opaque d
  | CProposal p => se_proposal p
  | CCommit m => se_commit m
  end.
(** Models framing/mod.rs:142-161. *)
Definition se_content (c : content) : res bytes := se_content_type (content_type_of c) +++ se_content_body c.

(** Models framing/mod.rs:464-470 (FramedContent), 472-495, 497-509. *)
Record framed_content : Type := MkFramed {
  fc_group_id : bytes; fc_epoch : N; fc_sender : sender; fc_auth_data : bytes; fc_content : content }.
(** Models framing/mod.rs:472-495. *)
Definition de_framed_content (bs : bytes) : res (framed_content * bytes) :=
  let* (g, bs) := de_opaque bs in
  let* (e, bs) := read_u64 bs in
  let* (s, bs) := de_sender bs in
  let* (a, bs) := de_opaque bs in
  let* (c, bs) := de_content bs in
  Ok (MkFramed g e s a c, bs).
(** Models framing/mod.rs:497-509. *)
Definition se_framed_content (f : framed_content) : res bytes :=
  se_opaque (fc_group_id f) +++ put_u64 (fc_epoch f) +++ se_sender (fc_sender f) +++
  se_opaque (fc_auth_data f) +++ se_content (fc_content f).

(** Models framing/mod.rs:712-715 (FramedContentAuthData), 718-734, 736-747. *)
Record auth_data : Type := MkAuth { ad_signature : bytes; ad_confirmation_tag : bytes }.
(** Models framing/mod.rs:718-734. *)
Definition de_auth_data (ct : content_type) (bs : bytes) : res (auth_data * bytes) :=
  let* (s, bs) := de_opaque bs in
  match ct with
  | CTCommit => let* (t, bs) := de_opaque bs in Ok (MkAuth s t, bs)
  | _ => Ok (MkAuth s [], bs)
  end.
(** Models framing/mod.rs:736-747. *)
Definition se_auth_data (ct : content_type) (a : auth_data) : res bytes :=
  se_opaque (ad_signature a) +++
  match ct with
  | CTCommit => se_opaque (ad_confirmation_tag a)
  | _ => Ok []
  end.

(** Models framing/mod.rs:553-557 (AuthenticatedContent), 559-575, 577-588. *)
Record auth_content : Type := MkAuthContent {
  ac_wire_format : wire_format; ac_content : framed_content; ac_auth : auth_data }.
(** Models framing/mod.rs:559-575. *)
Definition de_auth_content (bs : bytes) : res (auth_content * bytes) :=
  let* (w, bs) := de_wire_format bs in
  let* (c, bs) := de_framed_content bs in
  let* (a, bs) := de_auth_data (content_type_of (fc_content c)) bs in
  Ok (MkAuthContent w c a, bs).
(** Models framing/mod.rs:577-588. *)
Definition se_auth_content (a : auth_content) : res bytes :=
  se_wire_format (ac_wire_format a) +++ se_framed_content (ac_content a) +++
  se_auth_data (content_type_of (fc_content (ac_content a))) (ac_auth a).

(** Models framing/mod.rs:652-657 (FramedContentTBS), 659-683, 685-707. *)
Record framed_content_tbs : Type := MkTBS {
  tbs_version : protocol_version; tbs_wire_format : wire_format;
  tbs_content : framed_content; tbs_context : option group_context }.
(** Models framing/mod.rs:659-683. *)
Definition de_framed_content_tbs (bs : bytes) : res (framed_content_tbs * bytes) :=
  let* (v, bs) := read_u16 bs in
  let* (w, bs) := de_wire_format bs in
  let* (c, bs) := de_framed_content bs in
  match fc_sender c with
  | SMember _ | SNewMemberCommit =>
      let* (g, bs) := de_group_context bs in Ok (MkTBS (version_of_u16 v) w c (Some g), bs)
  | _ => Ok (MkTBS (version_of_u16 v) w c None, bs)
  end.
(** Models framing/mod.rs:685-707. *)
Definition se_framed_content_tbs (t : framed_content_tbs) : res bytes :=
  put_u16 (u16_of_version (tbs_version t)) +++ se_wire_format (tbs_wire_format t) +++
  se_framed_content (tbs_content t) +++
  match fc_sender (tbs_content t) with
  | SMember _ | SNewMemberCommit =>
      match tbs_context t with
      | Some g => se_group_context g
      | None => Err SenderMemberAndNewMemberCommitNoGroupContext
      end
  | _ => Ok []
  end.

(** Models framing/mod.rs:810-813 (AuthenticatedContentTBM), 815-826, 828-838. *)
Record auth_content_tbm : Type := MkTBM { tbm_tbs : framed_content_tbs; tbm_auth : auth_data }.
(** Models framing/mod.rs:815-826. *)
Definition de_auth_content_tbm (bs : bytes) : res (auth_content_tbm * bytes) :=
  let* (t, bs) := de_framed_content_tbs bs in
  let* (a, bs) := de_auth_data (content_type_of (fc_content (tbs_content t))) bs in
  Ok (MkTBM t a, bs).
(** Models framing/mod.rs:828-838. *)
Definition se_auth_content_tbm (t : auth_content_tbm) : res bytes :=
  se_framed_content_tbs (tbm_tbs t) +++
  se_auth_data (content_type_of (fc_content (tbs_content (tbm_tbs t)))) (tbm_auth t).

(** Models framing/mod.rs:845-849 (SenderData), 868-888, 890-901.
    The [u8; 4] reuse guard is a byte list; its length is part of well-formedness. *)
Record sender_data : Type := MkSenderData { sd_leaf_index : N; sd_generation : N; sd_reuse_guard : bytes }.
(** Models framing/mod.rs:868-888. *)
Definition de_sender_data (bs : bytes) : res (sender_data * bytes) :=
  let* _ := need 12 bs in
  let* (i, bs) := get_u32 bs in
  let* (g, bs) := get_u32 bs in
  let* (r, bs) := copy_to_bytes 4 bs in
  Ok (MkSenderData i g r, bs).
(** Models framing/mod.rs:890-901. *)
Definition se_sender_data (s : sender_data) : res bytes :=
  put_u32 (sd_leaf_index s) +++ put_u32 (sd_generation s) +++ Ok (sd_reuse_guard s).

(** Models framing/mod.rs:906-922 (SenderDataAAD; it has no Deserializer). *)
Record sender_data_aad : Type := MkSenderDataAAD { sda_group_id : bytes; sda_epoch : N; sda_content_type : content_type }.
(** Models framing/mod.rs:912-922. *)
Definition se_sender_data_aad (s : sender_data_aad) : res bytes :=
  se_opaque (sda_group_id s) +++ put_u64 (sda_epoch s) +++ se_content_type (sda_content_type s).

(* ------------------------------------------------------------------------------------------- *)
(** * framing/public_message.rs, framing/private_message.rs *)

(** Models framing/public_message.rs:6-10 (PublicMessage), 12-33, 35-53. *)
Record public_message : Type := MkPublic {
  pm_content : framed_content; pm_auth : auth_data; pm_tag : option bytes }.
(** Models framing/public_message.rs:12-33. *)
Definition de_public_message (bs : bytes) : res (public_message * bytes) :=
  let* (c, bs) := de_framed_content bs in
  let* (a, bs) := de_auth_data (content_type_of (fc_content c)) bs in
  match fc_sender c with
  | SMember _ => let* (t, bs) := de_opaque bs in Ok (MkPublic c a (Some t), bs)
  | _ => Ok (MkPublic c a None, bs)
  end.
(** Models framing/public_message.rs:35-53. *)
Definition se_public_message (m : public_message) : res bytes :=
  se_framed_content (pm_content m) +++
  se_auth_data (content_type_of (fc_content (pm_content m))) (pm_auth m) +++
  match fc_sender (pm_content m) with
  | SMember _ => match pm_tag m with Some t => se_opaque t | None => Ok [] end
  | _ => Ok []
  end.

(** Models framing/private_message.rs:6-13 (PrivateMessage), 15-40, 42-55. *)
Record private_message : Type := MkPrivate {
  pv_group_id : bytes; pv_epoch : N; pv_content_type : content_type;
  pv_auth_data : bytes; pv_sender_data : bytes; pv_ciphertext : bytes }.
(** Models framing/private_message.rs:15-40. *)
Definition de_private_message (bs : bytes) : res (private_message * bytes) :=
  let* (g, bs) := de_opaque bs in
  let* (e, bs) := read_u64 bs in
  let* (t, bs) := de_content_type bs in
  let* (a, bs) := de_opaque bs in
  let* (s, bs) := de_opaque bs in
  let* (c, bs) := de_opaque bs in
  Ok (MkPrivate g e t a s c, bs).
(** Models framing/private_message.rs:42-55. *)
Definition se_private_message (m : private_message) : res bytes :=
  se_opaque (pv_group_id m) +++ put_u64 (pv_epoch m) +++ se_content_type (pv_content_type m) +++
  se_opaque (pv_auth_data m) +++ se_opaque (pv_sender_data m) +++ se_opaque (pv_ciphertext m).

(** Models framing/private_message.rs:188-191 (PrivateMessageContent). *)
Record private_content : Type := MkPrivateContent { pc_content : content; pc_auth : auth_data }.
(** The padding loop, framing/private_message.rs:210-214 (RustCryptoProvider build: the loop is compiled in). *)
Fixpoint check_padding (bs : bytes) : res unit :=
  match bs with
  | [] => Ok tt
  | b :: r => if b2n b =? 0 then check_padding r else Err PaddingContainsNonZeroBytes
  end.
(** Models framing/private_message.rs:194-218 (PrivateMessageContent::deserialize). It consumes the whole
    buffer, so no rest is returned. *)
Definition de_private_content (ct : content_type) (bs : bytes) : res private_content :=
  let* (c, bs) :=
    match ct with
    | CTApplication => let* (d, bs) := de_opaque bs in Ok (CApplication d, bs)
    | CTProposal => let* (p, bs) := de_proposal bs in Ok (CProposal p, bs)
    | CTCommit => let* (m, bs) := de_commit bs in Ok (CCommit m, bs)
    end in
  let* (a, bs) := de_auth_data ct bs in
  let* _ := check_padding bs in
  Ok (MkPrivateContent c a).
(** Models framing/private_message.rs:221-235. *)
Definition se_private_content (p : private_content) : res bytes :=
  se_content_body (pc_content p) +++ se_auth_data (content_type_of (pc_content p)) (pc_auth p).

(** Models framing/private_message.rs:241-246 (PrivateContentAAD), 248-269, 271-282. *)
Record private_content_aad : Type := MkPrivateAAD {
  pa_group_id : bytes; pa_epoch : N; pa_content_type : content_type; pa_auth_data : bytes }.
(** Models framing/private_message.rs:248-269. *)
Definition de_private_content_aad (bs : bytes) : res (private_content_aad * bytes) :=
  let* (g, bs) := de_opaque bs in
  let* (e, bs) := read_u64 bs in
  let* (t, bs) := de_content_type bs in
  let* (a, bs) := de_opaque bs in
  Ok (MkPrivateAAD g e t a, bs).
(** Models framing/private_message.rs:271-282. *)
Definition se_private_content_aad (p : private_content_aad) : res bytes :=
  se_opaque (pa_group_id p) +++ put_u64 (pa_epoch p) +++ se_content_type (pa_content_type p) +++
  se_opaque (pa_auth_data p).

(* ------------------------------------------------------------------------------------------- *)
(** * framing/group_info.rs, framing/welcome.rs *)

(** Models framing/group_info.rs:11-17 (GroupInfo), 19-42, 44-53, 56-66 (serialize_base). *)
Record group_info : Type := MkGroupInfo {
  gi_context : group_context; gi_extensions : extensions; gi_confirmation_tag : bytes;
  gi_signer : N; gi_signature : bytes }.
(** Models framing/group_info.rs:19-42. *)
Definition de_group_info (bs : bytes) : res (group_info * bytes) :=
  let* (c, bs) := de_group_context bs in
  let* (e, bs) := de_extensions bs in
  let* (t, bs) := de_opaque bs in
  let* (i, bs) := read_u32 bs in
  let* (s, bs) := de_opaque bs in
  Ok (MkGroupInfo c e t i s, bs).
(** Models framing/group_info.rs:56-66 (serialize_base). *)
Definition se_group_info_base (g : group_info) : res bytes :=
  se_group_context (gi_context g) +++ se_extensions (gi_extensions g) +++
  se_opaque (gi_confirmation_tag g) +++ put_u32 (gi_signer g).
(** Models framing/group_info.rs:44-53. *)
Definition se_group_info (g : group_info) : res bytes :=
  se_group_info_base g +++ se_opaque (gi_signature g).

(** Models framing/group_info.rs:110-114 (GroupSecrets), 116-143, 145-164. *)
Record group_secrets : Type := MkGroupSecrets {
  gs_joiner_secret : bytes; gs_path_secret : option bytes; gs_psk_ids : list psk_id }.
(** Models framing/group_info.rs:116-143. *)
Definition de_group_secrets (bs : bytes) : res (group_secrets * bytes) :=
  let* (j, bs) := de_opaque bs in
  let* (p, bs) := de_option de_opaque bs in
  let* (l, bs) := de_vector de_psk_id bs in
  Ok (MkGroupSecrets j p l, bs).
(** Models framing/group_info.rs:145-164. *)
Definition se_group_secrets (g : group_secrets) : res bytes :=
  se_opaque (gs_joiner_secret g) +++ se_option se_opaque (gs_path_secret g) +++
  se_vector se_psk_id (gs_psk_ids g).

(** Models framing/welcome.rs:142-145 (EncryptedGroupSecrets), 147-162, 163-172. *)
Record encrypted_group_secrets : Type := MkEGS { egs_new_member : key_package_ref; egs_secrets : hpke_ciphertext }.
(** Models framing/welcome.rs:147-162. *)
Definition de_egs (bs : bytes) : res (encrypted_group_secrets * bytes) :=
  let* (n, bs) := de_key_package_ref bs in
  let* (s, bs) := de_hpke_ciphertext bs in
  Ok (MkEGS n s, bs).
(** Models framing/welcome.rs:163-172. *)
Definition se_egs (e : encrypted_group_secrets) : res bytes :=
  se_key_package_ref (egs_new_member e) +++ se_hpke_ciphertext (egs_secrets e).

(** Models framing/welcome.rs:12-16 (Welcome), 18-43, 45-59. *)
Record welcome : Type := MkWelcome {
  w_suite : cipher_suite; w_secrets : list encrypted_group_secrets; w_group_info : bytes }.
(** Models framing/welcome.rs:18-43. *)
Definition de_welcome (bs : bytes) : res (welcome * bytes) :=
  let* (c, bs) := read_u16 bs in
  let* (l, bs) := de_vector de_egs bs in
  let* (g, bs) := de_opaque bs in
  Ok (MkWelcome (cipher_suite_of_u16 c) l g, bs).
(** Models framing/welcome.rs:45-59. *)
Definition se_welcome (w : welcome) : res bytes :=
  put_u16 (u16_of_cipher_suite (w_suite w)) +++ se_vector se_egs (w_secrets w) +++ se_opaque (w_group_info w).

(* ------------------------------------------------------------------------------------------- *)
(** * framing/mod.rs: WireMessage, MLSMessage; key_schedule/mod.rs: ConfirmedTranscriptHashInput *)

(** Models framing/mod.rs:370-385 (enum WireMessage), 445-456 (wire_format). *)
Inductive wire_message : Type :=
| WMPublic (m : public_message) | WMPrivate (m : private_message) | WMWelcome (w : welcome)
| WMGroupInfo (g : group_info) | WMKeyPackage (k : key_package).
(** Models framing/mod.rs:445-456. *)
Definition wire_format_of (m : wire_message) : wire_format :=
  match m with
  | WMPublic _ => WFPublicMessage | WMPrivate _ => WFPrivateMessage | WMWelcome _ => WFWelcome
  | WMGroupInfo _ => WFGroupInfo | WMKeyPackage _ => WFKeyPackage
  end.
(** Models framing/mod.rs:393-415. *)
Definition de_wire_message (bs : bytes) : res (wire_message * bytes) :=
  let* _ := need 1 bs in
  let* (w, bs) := de_wire_format bs in
  match w with
  | WFPublicMessage => let* (m, bs) := de_public_message bs in Ok (WMPublic m, bs)
  | WFPrivateMessage => let* (m, bs) := de_private_message bs in Ok (WMPrivate m, bs)
  | WFWelcome => let* (m, bs) := de_welcome bs in Ok (WMWelcome m, bs)
  | WFGroupInfo => let* (m, bs) := de_group_info bs in Ok (WMGroupInfo m, bs)
  | WFKeyPackage => let* (m, bs) := de_key_package bs in Ok (WMKeyPackage m, bs)
  end.
(** Models framing/mod.rs:417-443. *)
Definition se_wire_message (m : wire_message) : res bytes :=
  se_wire_format (wire_format_of m) +++
  match m with
  | WMPublic m => se_public_message m
  | WMPrivate m => se_private_message m
  | WMWelcome m => se_welcome m
  | WMGroupInfo m => se_group_info m
  | WMKeyPackage m => se_key_package m
  end.

(** Models framing/mod.rs:513-516 (MLSMessage), 518-538, 539-548. *)
Record mls_message : Type := MkMLSMessage { mm_version : protocol_version; mm_wire : wire_message }.
(** Models framing/mod.rs:518-538. *)
Definition de_mls_message (bs : bytes) : res (mls_message * bytes) :=
  let* (v, bs) := read_u16 bs in
  if negb (is_mls10 (version_of_u16 v)) then Err (InvalidProtocolVersion (u16_of_version (version_of_u16 v)))
  else
    let* (m, bs) := de_wire_message bs in
    Ok (MkMLSMessage (version_of_u16 v) m, bs).
(** Models framing/mod.rs:539-548. *)
Definition se_mls_message (m : mls_message) : res bytes :=
  put_u16 (u16_of_version (mm_version m)) +++ se_wire_message (mm_wire m).

(** Models key_schedule/mod.rs:213-217 (ConfirmedTranscriptHashInput), 219-241, 243-260. *)
Record confirmed_input : Type := MkConfirmedInput {
  ci_wire_format : wire_format; ci_content : framed_content; ci_signature : bytes }.
(** Models key_schedule/mod.rs:219-241. *)
Definition de_confirmed_input (bs : bytes) : res (confirmed_input * bytes) :=
  let* (w, bs) := de_wire_format bs in
  let* (c, bs) := de_framed_content bs in
  match fc_content c with
  | CApplication _ | CProposal _ => Err ConfirmedTranscriptHashInputContainContentCommitOnly
  | CCommit _ => let* (s, bs) := de_opaque bs in Ok (MkConfirmedInput w c s, bs)
  end.
(** Models key_schedule/mod.rs:243-260. *)
Definition se_confirmed_input (c : confirmed_input) : res bytes :=
  match fc_content (ci_content c) with
  | CApplication _ | CProposal _ => Err ConfirmedTranscriptHashInputContainContentCommitOnly
  | CCommit _ =>
      se_wire_format (ci_wire_format c) +++ se_framed_content (ci_content c) +++ se_opaque (ci_signature c)
  end.
