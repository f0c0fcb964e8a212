(** Changing who is a member. *)
From Verif Require Export SpecHeard SpecApply SpecMembers.
Local Open Scope N_scope.

(** Remove the members at the places [out], add those with the key packages [new]. *)
Definition changes (out : list N) (new : list key_package) : list proposal :=
  (map (fun x => PRemove (MkRemove x)) out ++ map (fun p => PAdd (MkAdd p)) new)%list.
(** [i] may propose this: it names other members, each once, and new ones with different signature keys. *)
Record sensible (t : tree) (i : N) (out : list N) (new : list key_package) : Prop := {
  sb_others : ~ In i out;
  sb_members : forall x, In x out -> ~ blank_at t x;
  sb_once : NoDup out;
  sb_keys : NoDup (map (fun p => signature_key (kp_leaf (kp_payload p))) new) }.
(** In [t'] those of [t] who are not in [out] have their places, the new ones are at places that were free or got free, in their order, and nobody else is there. *)
Definition changed (t : tree) (out : list N) (new : list key_package) (t' : tree) : Prop :=
  (forall x l, leaf_at t x = Some l -> ~ In x out -> leaf_at t' x = Some l) /\
  exists places, StronglySorted N.lt places /\ length places = length new /\
    (forall n x p, nth_error places n = Some x -> nth_error new n = Some p -> leaf_at t' x = Some (kp_leaf (kp_payload p)) /\ (leaf_at t x = None \/ In x out)) /\
    forall x l, leaf_at t' x = Some l -> In x places \/ leaf_at t x = Some l /\ ~ In x out.
