(** Lifetimes and the clock. Times are in nanoseconds since 1970, as the clock of the standard library gives them; the two fields of a
    lifetime are in seconds since 1970 (RFC 9420, 7.2). *)
From Verif Require Export SpecRatchet.
Local Open Scope N_scope.

(** The lifetime of a leaf node: only that of a key package has one. *)
Definition lifetime_of (l : leaf_node) : option lifetime :=
  match lp_source (ln_payload l) with LSKeyPackage lt => Some lt | LSUpdate | LSCommit _ => None end.
Definition in_seconds (s : N) : Z := (Z.of_N s * 1000000000)%Z.
(** The lifetime has begun and has not ended. *)
Definition during (lt : lifetime) (now : Z) : Prop := (in_seconds (not_before lt) <= now <= in_seconds (not_after lt))%Z.

(** The options with another time on the clock. *)
Definition at_time (o : leaf_options) (now : Z) : leaf_options :=
  MkLeafOptions (lo_suite o) (lo_group_id o) (lo_leaf_index o) (lo_supported_creds o) (lo_signature_keys o) (lo_encryption_keys o) now.

(** The code takes the end of a lifetime to be in microseconds: two times that are on the same side of that. A clock that shows 1970 or
    earlier is not looked at. *)
Definition same_side (lt : lifetime) (now now' : Z) : Prop :=
  ((0 < now)%Z <-> (0 < now')%Z) /\ ((Z.of_N (not_after lt) * 1000 < now)%Z <-> (Z.of_N (not_after lt) * 1000 < now')%Z).
