(** What the error of a refused encoding says about the bytes. *)
From Verif Require Export Base Wire SpecLayout.
From Coq Require Import List NArith.
From Coq.Strings Require Import Byte.
Import ListNotations.
Local Open Scope N_scope.
Local Open Scope list_scope.

(** In [x] an item is cut short: an integer (of at most 8 bytes), or a string or vector whose length is given as [n]. *)
Definition cut_short (x : bytes) : Prop :=
  (length x < 8)%nat \/ exists n y, n < 1073741824 /\ x = size_header n ++ y /\ N.of_nat (length y) < n.
(** A vector has its length before it, and its last bytes are [x]; [pre] is all that comes before [x]. *)
Definition ends_vector (pre x : bytes) : Prop :=
  exists p c, pre = p ++ size_header (N.of_nat (length (c ++ x))) ++ c.

(** An integer of 1 or 2 bytes that is not one of the registered values [known]. *)
Definition not_one_of8 (known : list N) (v : N) (f : bytes) : Prop := v < 256 /\ f = uint8 v /\ ~ In v known.
Definition not_one_of16 (known : list N) (v : N) (f : bytes) : Prop := v < 65536 /\ f = uint16 v /\ ~ In v known.

(** What is wrong with the part [f] of [pre ++ f ++ post] if the error [e] is true (RFC 9420, Sections 2.1, 5.3, 6, 7.2, 7.8, 8.4, 12.1 and 12.4;
    RFC 8446, Section 4.2.3). *)
Definition fault (e : error) (pre f post : bytes) : Prop :=
  match e with
  | BufferTooSmall => cut_short f /\ (post = [] \/ ends_vector pre f)
  | InvalidVariableLengthIntegerPrefix => exists v, 192 <= v < 256 /\ f = uint8 v
  | MinimumEncodingWasNotUsed => (exists n, n < 64 /\ f = uint16 (16384 + n)) \/ (exists n, n < 16384 /\ f = uint32 (2147483648 + n))
  | InvalidOptionalValue => exists v, not_one_of8 [0; 1] v f
  | InvalidCredentialTypeValue => exists v, not_one_of16 [1; 2] v f
  | InvalidSignatureSchemeValue v => not_one_of16 [1027; 1283; 1539; 2055; 2056] v f
  | InvalidContentTypeValue v => not_one_of8 [1; 2; 3] v f
  | InvalidSenderTypeValue v => not_one_of8 [1; 2; 3; 4] v f
  | InvalidWireFormatValue v => not_one_of16 [1; 2; 3; 4; 5] v f
  | InvalidLeafNodeSourceValue v => not_one_of8 [1; 2; 3] v f
  | InvalidNodeTypeValue v => not_one_of8 [1; 2] v f
  | InvalidPskTypeValue v => not_one_of8 [1; 2] v f
  | InvalidResumptionPSKUsageValue v => not_one_of8 [1; 2; 3] v f
  | InvalidProposalTypeValue v => not_one_of16 [1; 2; 3; 4; 5; 6; 7] v f
  | InvalidProposalOrRefValue v => not_one_of8 [1; 2] v f
  | InvalidProtocolVersion v => not_one_of16 [1] v f
  | PaddingContainsNonZeroBytes => exists v, not_one_of8 [0] v f
  | _ => False
  end.

(** The error [e] of decoding [bs] is true: some part of [bs] is wrong in the way [e] says, and that settles it, whatever follows. *)
Definition true_of {A} (de : bytes -> res A) (bs : bytes) (e : error) : Prop :=
  exists pre f post, bs = pre ++ f ++ post /\ fault e pre f post /\
    forall post', length post' = length post -> de (pre ++ f ++ post') = Err e.
Definition truthful {A} (de : bytes -> res A) : Prop := forall bs e, de bs = Err e -> true_of de bs e.

(** The error [e] stands for a version [v] other than 1 at the start of a group context; [pre] comes before the group context. *)
Definition of_version (pre bs : bytes) (e : error) : Prop :=
  exists v post, v < 65536 /\ v <> 1 /\ e = InvalidProposalTypeValue v /\ bs = pre ++ uint16 v ++ post.
