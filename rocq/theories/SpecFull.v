(** Who can be added to a group whose changes are checked. *)
From Verif Require Export SpecStays SpecChange.
Local Open Scope N_scope.

(** The new member with the key package [p] may go to any free place of [t]. *)
Definition comes (P : provider) (cs : cipher_suite) (g : bytes) (now : N -> Z) (t : tree) (p : key_package) : Prop :=
  (forall i, blank_at t i -> fit P cs g now t i (kp_leaf (kp_payload p))) /\ forall h, lp_source (ln_payload (kp_leaf (kp_payload p))) <> LSCommit h.
(** Two new members support each other's credentials and have different keys. *)
Definition get_along (p q : key_package) : Prop :=
  let a := kp_leaf (kp_payload p) in let b := kp_leaf (kp_payload q) in
  supports b (type_of a) /\ supports a (type_of b) /\ signature_key a <> signature_key b /\ encryption_key a <> encryption_key b.
(** There is room for [n] new members: the tree can grow, or has as many free places. *)
Definition places_for (t : tree) (d : N) (n : nat) : Prop :=
  full_size t d \/ exists free, NoDup free /\ length free = n /\ forall x, In x free -> x < 2 ^ d /\ blank_at t x.
