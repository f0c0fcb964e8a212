(** What it means that the build profile does not matter (C84). *)
From Verif Require Export Profile SpecCalm.
From Coq Require Import ZArith.

(** If the call of the dev build returns (a value or an error), the call of the other build returns the same. *)
Definition same {A} (dev_call other_call : res A) : Prop := returns dev_call -> other_call = dev_call.

(** The same for a call that also changes its object, and leaves it changed when it fails. *)
Definition same2 {A B} (dev_call other_call : A * res B) : Prop := returns (snd dev_call) -> other_call = dev_call.

(** The result [z] of an operation on unsigned numbers of 32 bits, with overflow checks and without. *)
Definition checked (z : Z) (m : res N) : Prop := m = if ((0 <=? z) && (z <? 2 ^ 32))%Z then Ok (Z.to_N z) else Panic.
Definition wrapped (z : Z) (m : res N) : Prop := m = Ok (Z.to_N (z mod 2 ^ 32)).
