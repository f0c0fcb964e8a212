(** Specification vocabulary for the size of trees (RFC 9420 section 7.7). *)
From Verif Require Export SpecRoster.
Local Open Scope N_scope.

(** Somebody is in the right half of the leaves, or there is but one leaf and it is somebody's: no smaller tree would do. *)
Definition tight (t : tree) (d : N) : Prop := exists m l, m < 2 ^ d /\ leaf_at t m = Some l /\ (d = 0 \/ 2 ^ d <= 2 * m).
(** [m] is the index of the last member. *)
Definition last_member (t : tree) (m : N) : Prop := leaf_at t m <> None /\ forall j, m < j -> leaf_at t j = None.
Definition no_members (t : tree) : Prop := forall j, leaf_at t j = None.
