(** What printing an error or a cipher suite with [{}] gives: rmls/src/utilities/error.rs and rmls/src/crypto/cipher_suite.rs. *)
From Verif Require Export Printing.
From Coq Require Import Decimal DecimalN.
From Coq Require Strings.String.
Import Coq.Init.Byte.
Local Open Scope N_scope.
Local Open Scope string_scope.
Local Open Scope list_scope.

(** The digits of a number, first one first (as in utilities/error.rs:22, through Display of the integer). *)
Fixpoint digits (u : Decimal.uint) : text :=
  match u with
  | Decimal.Nil => []
  | D0 r => x30 :: digits r | D1 r => x31 :: digits r | D2 r => x32 :: digits r | D3 r => x33 :: digits r | D4 r => x34 :: digits r
  | D5 r => x35 :: digits r | D6 r => x36 :: digits r | D7 r => x37 :: digits r | D8 r => x38 :: digits r | D9 r => x39 :: digits r
  end.
(** An integer of any size, printed with [{0}] (as in utilities/error.rs:22-23). *)
Definition show_number (n : N) : text := digits (N.to_uint n).

(** utilities/error.rs:8-165: the message of an error, which thiserror derives from the attributes. [detail] is the text that the error
    of another crate, or the caller of Error::Other, gives. Simplified: ForeignError stands for SerdeJson, Sec1, Ecdsa and SignatureDigest,
    and [detail] then includes the words "serde_json error: ". *)
Definition error_text (detail : text) (e : error) : text :=
  match e with
  | BufferTooSmall => txt "buffer too small"
  | InvalidVariableLengthIntegerPrefix => txt "invalid variable length integer prefix"
  | MinimumEncodingWasNotUsed => txt "minimum encoding was not used"
  | VarintExceeds30Bits => txt "varint exceeds 30 bits"
  | OpaqueSizeExceedsMaximumValueOfU32 => txt "opaque size exceeds maximum value of uint32"
  | InvalidOptionalValue => txt "invalid optional value"
  | InputContainsExcessBytes v => txt "input contains " ++ show_number v ++ txt " excess bytes"
  | InvalidSibling => txt "invalid sibling"
  | InvalidSignatureSchemeValue v => txt "invalid signature scheme value " ++ show_number v
  | InvalidLeafNodeSourceValue v => txt "invalid leaf node source value " ++ show_number v
  | InvalidExtensionTypeValue v => txt "invalid extension type value " ++ show_number v
  | InvalidProposalTypeValue v => txt "invalid proposal type value " ++ show_number v
  | InvalidCredentialTypeValue => txt "invalid credential type value"
  | InvalidContentTypeValue v => txt "invalid content type value " ++ show_number v
  | InvalidResumptionPSKUsageValue v => txt "invalid resumption PSK usage value " ++ show_number v
  | InvalidPskTypeValue v => txt "invalid PSK type value " ++ show_number v
  | InvalidSenderTypeValue v => txt "invalid sender type value " ++ show_number v
  | InvalidProposalOrRefValue v => txt "invalid ProposalOrRef value " ++ show_number v
  | InvalidWireFormatValue v => txt "invalid wire format value " ++ show_number v
  | InvalidCipherSuiteValue v => txt "invalid cipher suite value " ++ show_number v
  | LeafNodeSignatureVerificationFailed => txt "leaf node signature verification failed"
  | VerifyConfirmationTagFailed => txt "verify confirmation tag failed"
  | CredentialTypeUsedByLeafNodeNotSupportedByAllMembers v => txt "credential type " ++ show_number v ++ txt " used by leaf node not supported by all members"
  | LifetimeVerificationFailed => txt "lifetime verification failed"
  | ExtensionTypeUsedByLeafNodeNotSupportedByThatLeafNode v => txt "extension type " ++ show_number v ++ txt " used by leaf node not supported by that leaf node"
  | DuplicateSignatureKeyInRatchetTree => txt "duplicate signature key in ratchet tree"
  | DuplicateEncryptionKeyInRatchetTree => txt "duplicate encryption key in ratchet tree"
  | InvalidNodeTypeValue v => txt "invalid node type value " ++ show_number v
  | InvalidLeafNode => txt "invalid leaf node"
  | InvalidParentNode => txt "invalid parent node"
  | InvalidChildren => txt "invalid children"
  | TreeHashVerificationFailed => txt "tree hash verification failed"
  | ParentHashesVerificationFailed => txt "parent hashes verification failed"
  | UnmergedLeafIsNotDescendantOfTheParentNode => txt "unmerged leaf is not a descendant of the parent node"
  | NonBlankIntermediateNodeMissingUnmergedLeaf => txt "non-blank intermediate node is missing unmerged leaf"
  | UpdatePathAndFilteredDirectPathHasDifferentNode => txt "updatePath and filtered direct path has different node"
  | ParentHashMismatchForUpdatePathLeafNode => txt "parent hash mismatch for update path's leaf node"
  | InvalidEd25519PrivateKey => txt "invalid Ed25519 private key"
  | InvalidECDSAPrivateKey => txt "invalid ECDSA private key"
  | UnsupportedKem => txt "unsupported Kem"
  | UnsupportedEcdsa => txt "unsupported Ecdsa"
  | UnsupportedEd448 => txt "unsupported Ed448"
  | RingCryptoError => txt "RingCrypto error " ++ detail
  | RustCryptoError => txt "RustCrypto error " ++ detail
  | HpkeError => txt "Hpke error " ++ detail
  | UnsupportedCipherSuite => txt "unsupported CipherSuite"
  | UnsupportedHkpeKem => txt "unsupported HKPE KEM"
  | KeyPackageVersionNotMatchGroupContext => txt "key package version doesn't match group context"
  | CipherSuiteNotMatchGroupContext => txt "cipher suite doesn't match group context"
  | CipherSuiteNotMatchSignatureScheme => txt "cipher suite doesn't match signature scheme"
  | KeyPackageContainsLeafNodeWithInvalidSource => txt "key package contains a leaf node with an invalid source"
  | InvalidKeyPackageSignature => txt "invalid key package signature"
  | KeyPackageEncryptionKeyAndInitKeyIdentical => txt "key package encryption key and init key are identical"
  | ProposalsLenNotMatchSendersLen => txt "Proposals len not match senders len"
  | MultipleAddProposalsHaveTheSameSignatureKey => txt "multiple add proposals have the same signature key"
  | UpdateProposalGeneratedByTheCommitter => txt "update proposal generated by the committer"
  | MultipleUpdateRemoveProposalsApplyToTheSameLeaf => txt "multiple update and/or remove proposals apply to the same leaf"
  | RemoveProposalRemovesTheCommitter => txt "remove proposal removes the committer"
  | MultiplePSKProposalsReferenceTheSamePSKId => txt "multiple PSK proposals reference the same PSK ID"
  | MultipleGroupContextExtensionsProposals => txt "multiple group context extensions proposals"
  | ReinitProposalTogetherWithAnyOtherProposal => txt "reinit proposal together with any other proposal"
  | ExternalInitProposalNotAllowed => txt "external init proposal is not allowed"
  | EncryptedGroupSecretsNotFoundForProvidedKeyPackageRef => txt "encrypted group secrets not found for provided key package ref"
  | PskIDsAndPskLenNotMatch => txt "PSK IDs and PSKs len doesn't match"
  | ConfirmedTranscriptHashInputContainContentCommitOnly => txt "ConfirmedTranscriptHashInput can only contain Content::Commit"
  | SenderMemberAndNewMemberCommitNoGroupContext => txt "senderTypeMember and senderTypeNewMemberCommit should have GroupContext"
  | NonceAndReuseGuardLenNotMatch => txt "nonce and reuse_guard len not match"
  | PaddingContainsNonZeroBytes => txt "padding contains non-zero bytes"
  | InvalidProtocolVersion v => txt "invalid protocol version " ++ show_number v
  | NoMatchingKeyPackage => txt "no matching key package"
  | ForeignError => detail
  | OtherError => detail
  end.

(** crypto/cipher_suite.rs:11-21, 53-57: the name of a cipher suite, which is that of the variant (derived Debug). *)
Definition suite_text (cs : cipher_suite) : text :=
  match cs with
  | Suite1 => txt "MLS_128_DHKEMX25519_AES128GCM_SHA256_Ed25519"
  | Suite2 => txt "MLS_128_DHKEMP256_AES128GCM_SHA256_P256"
  | Suite3 => txt "MLS_128_DHKEMX25519_CHACHA20POLY1305_SHA256_Ed25519"
  | Suite4 => txt "MLS_256_DHKEMX448_AES256GCM_SHA512_Ed448"
  | Suite5 => txt "MLS_256_DHKEMP521_AES256GCM_SHA512_P521"
  | Suite6 => txt "MLS_256_DHKEMX448_CHACHA20POLY1305_SHA512_Ed448"
  | Suite7 => txt "MLS_256_DHKEMP384_AES256GCM_SHA384_P384"
  | SuiteUnknown v => txt "Unknown(" ++ show_number v ++ txt ")"
  end.
