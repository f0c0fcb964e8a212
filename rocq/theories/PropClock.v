(** Property C121: members stay valid for the time their lifetime says (SpecClock.v). *)
From Verif Require Import ClockFacts SpecClock TreeOps LeafFacts Verified Examples.
Local Open Scope N_scope.

(* ------------------------------------------------------------------------------------------- *)
(** * C121 *)

(** The clock makes no difference to a leaf node without a lifetime, and to others only by what is said in [same_side] (SpecClock.v). *)
Theorem C121_leaf : forall P l o now, (forall lt, lifetime_of l = Some lt -> same_side lt (lo_now o) now) ->
  leaf_verify P l (at_time o now) = leaf_verify P l o.
Proof. exact clock_leaf. Qed.
Print Assumptions C121_leaf.
(** The same for trees; the clock is read once for each member, and may show another time each time. *)
Theorem C121_tree : forall P t ctx now now', (forall i l lt, leaf_at t i = Some l -> lifetime_of l = Some lt -> same_side lt (now i) (now' i)) ->
  verify_integrity P t ctx now' = verify_integrity P t ctx now.
Proof. exact clock_tree. Qed.
Print Assumptions C121_tree.

(** What is accepted once is accepted ever after. *)
Theorem C121_leaf_later : forall P l o now, leaf_verify P l o = Ok tt -> (forall lt, lifetime_of l = Some lt -> (0 < lo_now o <= now)%Z) ->
  leaf_verify P l (at_time o now) = Ok tt.
Proof. exact clock_later. Qed.
Print Assumptions C121_leaf_later.
Theorem C121_tree_later : forall P t ctx now now', verify_integrity P t ctx now = Ok tt ->
  (forall i l lt, leaf_at t i = Some l -> lifetime_of l = Some lt -> (0 < now i <= now' i)%Z) -> verify_integrity P t ctx now' = Ok tt.
Proof. exact later_tree. Qed.
Print Assumptions C121_tree_later.
(** From some time on, the result is always the same. *)
Theorem C121_settled : forall P t ctx, exists T, forall now now', (forall i, (T <= now i)%Z) -> (forall i, (T <= now' i)%Z) ->
  verify_integrity P t ctx now' = verify_integrity P t ctx now.
Proof. exact settled_tree. Qed.
Print Assumptions C121_settled.

(** A leaf node is accepted years before its lifetime begins, and at all times after it has ended. *)
Theorem C121_refuted_outside : exists P l o lt now, lifetime_of l = Some lt /\ (0 < now < in_seconds (not_before lt))%Z /\ leaf_verify P l (at_time o now) = Ok tt /\
  forall later, (in_seconds (not_after lt) < later)%Z -> leaf_verify P l (at_time o later) = Ok tt.
Proof. exact ck_outside. Qed.
Print Assumptions C121_refuted_outside.
(** A lifetime of less than 2160000000 seconds (68 years) is never accepted, at no time at all; nor is a tree with such a member. *)
Theorem C121_refuted_during : forall P l o lt, lifetime_of l = Some lt -> (0 < lo_now o)%Z -> not_after lt < not_before lt + 2160000000 ->
  leaf_verify P l o <> Ok tt.
Proof. exact clock_short. Qed.
Print Assumptions C121_refuted_during.
Theorem C121_refuted_tree : forall P t ctx now d i l lt, usized t d -> leaf_at t i = Some l -> lifetime_of l = Some lt -> (0 < now i)%Z ->
  not_after lt < not_before lt + 2160000000 -> verify_integrity P t ctx now <> Ok tt.
Proof. exact tree_short. Qed.
Print Assumptions C121_refuted_tree.

Example C121_example : usized ck_tree 0 /\ leaf_at ck_tree 0 = Some ck_leaf /\ lifetime_of ck_leaf = Some ck_lifetime /\
  verify_integrity toy ck_tree (ex_context ck_tree) (fun _ => ck_time) = Ok tt /\
  verify_integrity toy ck_tree (ex_context ck_tree) (fun _ => 5200000000000%Z) = Err LifetimeVerificationFailed.
Proof. exact ck_tree_ok. Qed.
Example C121_example_leaf : leaf_verify toy ck_leaf (at_time (ex_options 0) ck_time) = Ok tt.
Proof. exact ck_now. Qed.
Example C121_example_year : during (MkLifetime 1700000000 1731536000) 1710000000000000000%Z /\
  leaf_verify toy ck_year (at_time (ex_options 0) 1710000000000000000%Z) = Err LifetimeVerificationFailed.
Proof. exact ck_year_refused. Qed.
