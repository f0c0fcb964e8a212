(** What users may expect of the messages of errors. *)
From Verif Require Export Base.

(** The errors that the library words itself: all but those that pass on the text of another crate or of a caller. *)
Definition own_words (e : error) : Prop := e <> ForeignError /\ e <> OtherError.

(** The errors that are about a number. *)
Definition about_a_number : list (N -> error) :=
  [InputContainsExcessBytes; InvalidSignatureSchemeValue; InvalidLeafNodeSourceValue; InvalidExtensionTypeValue;
   InvalidProposalTypeValue; InvalidContentTypeValue; InvalidResumptionPSKUsageValue; InvalidPskTypeValue;
   InvalidSenderTypeValue; InvalidProposalOrRefValue; InvalidWireFormatValue; InvalidCipherSuiteValue;
   CredentialTypeUsedByLeafNodeNotSupportedByAllMembers; ExtensionTypeUsedByLeafNodeNotSupportedByThatLeafNode; InvalidNodeTypeValue; InvalidProtocolVersion].

(** The number that a row of decimal digits stands for. *)
Definition digit_value (b : byte) : option N :=
  let n := Byte.to_N b in if ((48 <=? n) && (n <=? 57))%N then Some (n - 48)%N else None.
Definition reads_as (t : list byte) (v : N) : Prop :=
  t <> [] /\ exists ds, map digit_value t = map Some ds /\ v = fold_left (fun a d => 10 * a + d)%N ds 0%N.

(** The names of the cipher suites, RFC 9420 section 17.1. *)
Definition rfc_suite_name (v : N) : option String.string :=
  match v with
  | 1 => Some "MLS_128_DHKEMX25519_AES128GCM_SHA256_Ed25519"
  | 2 => Some "MLS_128_DHKEMP256_AES128GCM_SHA256_P256"
  | 3 => Some "MLS_128_DHKEMX25519_CHACHA20POLY1305_SHA256_Ed25519"
  | 4 => Some "MLS_256_DHKEMX448_AES256GCM_SHA512_Ed448"
  | 5 => Some "MLS_256_DHKEMP521_AES256GCM_SHA512_P521"
  | 6 => Some "MLS_256_DHKEMX448_CHACHA20POLY1305_SHA512_Ed448"
  | 7 => Some "MLS_256_DHKEMP384_AES256GCM_SHA384_P384"
  | _ => None
  end%N%string.
