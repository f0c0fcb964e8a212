(** Model of rmls/src/utilities/serde/mod.rs. *)
From Verif Require Export Base.
Local Open Scope N_scope.

(** The loop [for _ in 0..n-1] of deserialize_varint. Models serde/mod.rs:23-29.
    Simplification: [v << 8] and [+] cannot overflow u32 here (at most 30 bits), so plain N. *)
Fixpoint varint_tail (k : nat) (v : N) (bs : bytes) : res (N * bytes) :=
  match k with
  | O => Ok (v, bs)
  | S k' => let* (b, bs) := read_u8 bs in varint_tail k' (N.shiftl v 8 + b) bs
  end.

(** Models serde/mod.rs:10-36 (deserialize_varint). *)
Definition de_varint (bs : bytes) : res (N * bytes) :=
  let* (b, bs) := read_u8 bs in
  let prefix := N.shiftr b 6 in
  if prefix =? 3 then Err InvalidVariableLengthIntegerPrefix else
  let n := N.shiftl 1 prefix in
  let v := N.land b 63 in
  let* (v, bs) := varint_tail (N.to_nat (n - 1)) v bs in
  if (1 <=? prefix) && (v <? N.shiftl 1 (8 * (n / 2) - 2))
  then Err MinimumEncodingWasNotUsed
  else Ok (v, bs).

(** Models serde/mod.rs:38-49 (serialize_varint). *)
Definition se_varint (n : N) : res bytes :=
  if n <? N.shiftl 1 6 then put_u8 n
  else if n <? N.shiftl 1 14 then put_u16 (N.lor (N.shiftl 1 14) n)
  else if n <? N.shiftl 1 30 then put_u32 (N.lor (N.shiftl 2 30) n)
  else Err VarintExceeds30Bits.

(** Models serde/mod.rs:51-58 (deserialize_opaque_vec). *)
Definition de_opaque (bs : bytes) : res (bytes * bytes) :=
  let* (n, bs) := de_varint bs in
  if N.of_nat (length bs) <? n then Err BufferTooSmall
  else copy_to_bytes n bs.

(** Models serde/mod.rs:60-70 (serialize_opaque_vec). *)
Definition se_opaque (v : bytes) : res bytes :=
  if 2 ^ 32 - 1 <=? N.of_nat (length v) then Err OpaqueSizeExceedsMaximumValueOfU32
  else se_varint (N.of_nat (length v)) +++ Ok v.

(** Models serde/mod.rs:83-85: the [while ss.has_remaining() { f(ss)? }] loop. The closures in the
    code push the decoded element; here the elements are collected. [fuel] bounds the iterations;
    running out is [Hang]. *)
Fixpoint vec_loop {A} (f : bytes -> res (A * bytes)) (fuel : nat) (bs : bytes) : res (list A) :=
  match bs with
  | [] => Ok []
  | _ :: _ =>
      match fuel with
      | O => Hang
      | S k => let* (a, r) := f bs in
               let* l := vec_loop f k r in
               Ok (a :: l)
      end
  end.

(** Models serde/mod.rs:72-87 (deserialize_vector). *)
Definition de_vector {A} (f : bytes -> res (A * bytes)) (bs : bytes) : res (list A * bytes) :=
  let* (n, bs) := de_varint bs in
  if N.of_nat (length bs) <? n then Err BufferTooSmall else
  let* (v, rest) := copy_to_bytes n bs in
  let* l := vec_loop f (length v) v in
  Ok (l, rest).

(** The element loop of serialize_vector. Models serde/mod.rs:96-99. *)
Fixpoint se_elems {A} (g : A -> res bytes) (l : list A) : res bytes :=
  match l with
  | [] => Ok []
  | a :: r => g a +++ se_elems g r
  end.

(** Models serde/mod.rs:89-104 (serialize_vector). *)
Definition se_vector {A} (g : A -> res bytes) (l : list A) : res bytes :=
  let* raw := se_elems g l in se_opaque raw.

(** Models serde/mod.rs:106-117 (deserialize_optional). *)
Definition de_optflag (bs : bytes) : res (bool * bytes) :=
  let* (b, bs) := read_u8 bs in
  if b =? 0 then Ok (false, bs)
  else if b =? 1 then Ok (true, bs)
  else Err InvalidOptionalValue.

(** Models serde/mod.rs:119-123 (serialize_optional). *)
Definition se_optflag (b : bool) : res bytes := put_u8 (if b then 1 else 0).

(** The idiom "serialize_optional, then the value if present" used by RatchetTree
    (ratchet_tree/mod.rs:262-268, 297-301), Commit (framing/commit.rs) and GroupSecrets
    (framing/group_info.rs). *)
Definition de_option {A} (f : bytes -> res (A * bytes)) (bs : bytes) : res (option A * bytes) :=
  let* (b, bs) := de_optflag bs in
  if b then let* (a, bs) := f bs in Ok (Some a, bs) else Ok (None, bs).
(** The writing half of the same idiom: ratchet_tree/mod.rs:297-301, framing/commit.rs:46-53, framing/group_info.rs:152-158. *)
Definition se_option {A} (g : A -> res bytes) (o : option A) : res bytes :=
  match o with
  | None => se_optflag false
  | Some a => se_optflag true +++ g a
  end.

(** Models serde/mod.rs:131-137 (Deserializer::deserialize_exact): the leftover is dropped. *)
Definition de_exact {A} (f : bytes -> res (A * bytes)) (bs : bytes) : res A :=
  let* (a, _) := f bs in Ok a.
