(** Outcomes, errors and raw byte access: the vocabulary of every model file. *)
From Coq Require Export Strings.Byte Strings.String.
From Coq Require Export NArith ZArith List Bool Lia.
Export ListNotations.
Local Open Scope N_scope.

(** Models: rmls/src/utilities/error.rs:9-165 (enum Error). One constructor per variant; string and
    foreign-error payloads are dropped. *)
Inductive error : Type :=
| BufferTooSmall
| InvalidVariableLengthIntegerPrefix
| MinimumEncodingWasNotUsed
| VarintExceeds30Bits
| OpaqueSizeExceedsMaximumValueOfU32
| InvalidOptionalValue
| InputContainsExcessBytes (n : N)
| InvalidSibling
| InvalidSignatureSchemeValue (v : N)
| InvalidLeafNodeSourceValue (v : N)
| InvalidExtensionTypeValue (v : N)
| InvalidProposalTypeValue (v : N)
| InvalidCredentialTypeValue
| InvalidContentTypeValue (v : N)
| InvalidResumptionPSKUsageValue (v : N)
| InvalidPskTypeValue (v : N)
| InvalidSenderTypeValue (v : N)
| InvalidProposalOrRefValue (v : N)
| InvalidWireFormatValue (v : N)
| InvalidCipherSuiteValue (v : N)
| LeafNodeSignatureVerificationFailed
| VerifyConfirmationTagFailed
| CredentialTypeUsedByLeafNodeNotSupportedByAllMembers (v : N)
| LifetimeVerificationFailed
| ExtensionTypeUsedByLeafNodeNotSupportedByThatLeafNode (v : N)
| DuplicateSignatureKeyInRatchetTree
| DuplicateEncryptionKeyInRatchetTree
| InvalidNodeTypeValue (v : N)
| InvalidLeafNode
| InvalidParentNode
| InvalidChildren
| TreeHashVerificationFailed
| ParentHashesVerificationFailed
| UnmergedLeafIsNotDescendantOfTheParentNode
| NonBlankIntermediateNodeMissingUnmergedLeaf
| UpdatePathAndFilteredDirectPathHasDifferentNode
| ParentHashMismatchForUpdatePathLeafNode
| InvalidEd25519PrivateKey
| InvalidECDSAPrivateKey
| UnsupportedKem
| UnsupportedEcdsa
| UnsupportedEd448
| RingCryptoError
| RustCryptoError
| HpkeError
| UnsupportedCipherSuite
| UnsupportedHkpeKem
| KeyPackageVersionNotMatchGroupContext
| CipherSuiteNotMatchGroupContext
| CipherSuiteNotMatchSignatureScheme
| KeyPackageContainsLeafNodeWithInvalidSource
| InvalidKeyPackageSignature
| KeyPackageEncryptionKeyAndInitKeyIdentical
| ProposalsLenNotMatchSendersLen
| MultipleAddProposalsHaveTheSameSignatureKey
| UpdateProposalGeneratedByTheCommitter
| MultipleUpdateRemoveProposalsApplyToTheSameLeaf
| RemoveProposalRemovesTheCommitter
| MultiplePSKProposalsReferenceTheSamePSKId
| MultipleGroupContextExtensionsProposals
| ReinitProposalTogetherWithAnyOtherProposal
| ExternalInitProposalNotAllowed
| EncryptedGroupSecretsNotFoundForProvidedKeyPackageRef
| PskIDsAndPskLenNotMatch
| ConfirmedTranscriptHashInputContainContentCommitOnly
| SenderMemberAndNewMemberCommitNoGroupContext
| NonceAndReuseGuardLenNotMatch
| PaddingContainsNonZeroBytes
| InvalidProtocolVersion (v : N)
| NoMatchingKeyPackage
| ForeignError  (* SerdeJson, Sec1, Ecdsa, SignatureDigest *)
| OtherError    (* Other(String) *).

(** Outcome of a Rust call; the [Result] of utilities/error.rs:5. [Panic]: the thread panics (dev profile, overflow checks on).
    [Hang]: the call does not return (loop fuel exhausted). *)
Inductive res (A : Type) : Type :=
| Ok (a : A)
| Err (e : error)
| Panic
| Hang.
Arguments Ok {A} a.
Arguments Err {A} e.
Arguments Panic {A}.
Arguments Hang {A}.

(** The [?] operator, as in utilities/serde/mod.rs:52. *)
Definition bind {A B} (m : res A) (f : A -> res B) : res B :=
  match m with
  | Ok a => f a
  | Err e => Err e
  | Panic => Panic
  | Hang => Hang
  end.

(** [let p = m?; k], as in utilities/serde/mod.rs:52. *)
Notation "'let*' p ':=' m 'in' k" := (bind m (fun p => k))
  (at level 61, p pattern, m at next level, k at level 200, right associativity).

(** The contents of a Buf, a BufMut or a Bytes (utilities/serde/mod.rs:6). *)
Notation bytes := (list byte).

(** Sequencing of two writes into the same growing buffer, as in utilities/serde/mod.rs:65-67. A
    failed write loses the buffer: serialize_detached (utilities/serde/mod.rs:146-153) drops it. *)
Definition seqw (x y : res bytes) : res bytes :=
  let* a := x in let* b := y in Ok (a ++ b)%list.
(** [x?; y], as in utilities/serde/mod.rs:65-67. *)
Notation "x +++ y" := (seqw x y) (at level 60, right associativity).

(** [b as u32] of a byte, as in utilities/serde/mod.rs:22. *)
Definition b2n (b : byte) : N := Byte.to_N b.
(** [n as u8], as in utilities/serde/mod.rs:40. *)
Definition n2b (n : N) : byte :=
  match Byte.of_N (n mod 256) with Some b => b | None => x00 end.

(** Big-endian fixed-width integers. Models bytes::BufMut::put_u8/put_u16/put_u32/put_u64 on a
    growable buffer (utilities/serde/mod.rs:40-44): [be k n] writes the low [8k] bits of [n]. *)
Fixpoint be (k : nat) (n : N) : bytes :=
  match k with
  | O => []
  | S k' => n2b (n / 256 ^ N.of_nat k') :: be k' n
  end.

(** BufMut::put_u8, as in utilities/serde/mod.rs:40. *)
Definition put_u8 (n : N) : res bytes := Ok (be 1 n).
(** BufMut::put_u16, as in utilities/serde/mod.rs:42. *)
Definition put_u16 (n : N) : res bytes := Ok (be 2 n).
(** BufMut::put_u32, as in utilities/serde/mod.rs:44. *)
Definition put_u32 (n : N) : res bytes := Ok (be 4 n).
(** BufMut::put_u64, as in framing/mod.rs:502. *)
Definition put_u64 (n : N) : res bytes := Ok (be 8 n).

(** Value of a big-endian byte string; the loop body of utilities/serde/mod.rs:23-29 is one step. *)
Fixpoint unbe (acc : N) (bs : bytes) : N :=
  match bs with
  | [] => acc
  | b :: r => unbe (256 * acc + b2n b) r
  end.

(** Models bytes::Buf::get_u8/get_u16/get_u32/get_u64: panics when fewer than [k] bytes
    remain. Used at utilities/serde/mod.rs:14 and in every decoder. *)
Definition get_be (k : nat) (bs : bytes) : res (N * bytes) :=
  if Nat.ltb (length bs) k then Panic
  else Ok (unbe 0 (firstn k bs), skipn k bs).
(** Buf::get_u8, as in utilities/serde/mod.rs:14. *)
Definition get_u8 := get_be 1.
(** Buf::get_u16, as in extensibility/mod.rs:103. *)
Definition get_u16 := get_be 2.
(** Buf::get_u32, as in framing/proposal.rs:236. *)
Definition get_u32 := get_be 4.
(** Buf::get_u64, as in framing/mod.rs:482. *)
Definition get_u64 := get_be 8.

(** The idiom [if buf.remaining() < k { return Err(BufferTooSmall) }] in front of a read, as in
    utilities/serde/mod.rs:11-13. *)
Definition need (k : nat) (bs : bytes) : res unit :=
  if Nat.ltb (length bs) k then Err BufferTooSmall else Ok tt.

(** A checked one-byte read: utilities/serde/mod.rs:11-14. *)
Definition read_u8 (bs : bytes) : res (N * bytes) := let* _ := need 1 bs in get_u8 bs.
(** A checked two-byte read: extensibility/mod.rs:100-103. *)
Definition read_u16 (bs : bytes) : res (N * bytes) := let* _ := need 2 bs in get_u16 bs.
(** A checked four-byte read: framing/proposal.rs:232-236. *)
Definition read_u32 (bs : bytes) : res (N * bytes) := let* _ := need 4 bs in get_u32 bs.
(** A checked eight-byte read: framing/mod.rs:479-482. *)
Definition read_u64 (bs : bytes) : res (N * bytes) := let* _ := need 8 bs in get_u64 bs.

(** Models bytes::Buf::copy_to_bytes (utilities/serde/mod.rs:57, 81): panics when fewer than [n]
    bytes remain. *)
Definition copy_to_bytes (n : N) (bs : bytes) : res (bytes * bytes) :=
  if N.of_nat (length bs) <? n then Panic
  else Ok (firstn (N.to_nat n) bs, skipn (N.to_nat n) bs).

(** A Rust byte string literal, as at key_schedule/mod.rs:200. *)
Definition str (s : string) : bytes := String.list_byte_of_string s.
Arguments str s%string.

(** [==] of two byte strings, as at framing/welcome.rs:70. *)
Definition bytes_eqb (x y : bytes) : bool :=
  if list_eq_dec Byte.byte_eq_dec x y then true else false.
