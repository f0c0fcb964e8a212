(** How long a tag is compared, and what that tells. *)
From Verif Require Import Crypto Messages Group.
Import Coq.Init.Byte.
Local Open Scope N_scope.

(** Comparing two byte strings: the verdict, and how many pairs of bytes are looked at. Models the slice comparison at
    crypto/provider/mod.rs:224: slices of different lengths are told apart by their lengths, others by the first pair that differs
    (Rust's [==] on slices of bytes is memcmp; simplified: memcmp may look at several bytes at a time). *)
Fixpoint compare_upto (a b : bytes) : bool * N :=
  match a, b with
  | [], [] => (true, 0)
  | x :: a, y :: b => if Byte.eqb x y then let (v, n) := compare_upto a b in (v, 1 + n) else (false, 1)
  | _, _ => (false, 0)
  end.
Definition compare_counted (a b : bytes) : bool * N := if Nat.eqb (length a) (length b) then compare_upto a b else (false, 0).

(** Models crypto/provider/mod.rs:217-229 (verify_mac) with the number of pairs of bytes that were compared. *)
Definition timed_verify_mac (P : provider) (cs : cipher_suite) (key msg tag : bytes) : res (bool * N) :=
  let* m := sign_mac P cs key msg in Ok (compare_counted tag m).

(** Someone who has no key, but can have tags checked: [ask] gives the verdict and the time. The tag of [n] bytes is found byte by
    byte: the right next byte is the one with which the comparison goes on. [asked] counts the questions. *)
Definition candidates : list byte := map (fun i => match Byte.of_N (N.of_nat i) with Some b => b | None => x00 end) (seq 0 256).
Fixpoint next_byte (ask : bytes -> bool * N) (known : bytes) (after : nat) (bs : list byte) (asked : N) : option (byte * N) :=
  match bs with
  | [] => None
  | b :: bs =>
      let (v, t) := ask (known ++ b :: repeat x00 after)%list in
      if v || (N.of_nat (length known) + 1 <? t) then Some (b, asked + 1) else next_byte ask known after bs (asked + 1)
  end.
Fixpoint find_tag (ask : bytes -> bool * N) (known : bytes) (n : nat) (asked : N) : option (bytes * N) :=
  match n with
  | O => Some (known, asked)
  | S n => match next_byte ask known n candidates asked with
           | Some (b, asked) => find_tag ask (known ++ [b])%list n asked
           | None => None
           end
  end.

(** Someone who sees verdicts only: what they try next depends on the answers so far. Is one of their next [q] tries the tag? *)
Fixpoint hit_within (next : list bool -> bytes) (tag : bytes) (answers : list bool) (q : nat) : Prop :=
  match q with
  | O => False
  | S q => if bytes_eqb (next answers) tag then True else hit_within next tag (answers ++ [false])%list q
  end.
