(** What applying a list of proposals to a tree should do, in terms of who is at which leaf. *)
From Verif Require Export SpecRatchet SpecProposals.
Local Open Scope N_scope.

(** The committer, every updated leaf and every removed leaf are members. *)
Definition names_members (t : tree) (ps : list proposal) (senders : list N) (committer : N) : Prop :=
  ~ blank_at t committer /\ forall n p s x, at_ ps senders n p s -> touched_leaf p s = Some x -> ~ blank_at t x.

Definition removed_leaf (ps : list proposal) (x : N) : Prop := exists m, In (PRemove m) ps /\ rem_removed m = x.
Definition updated_leaf (ps : list proposal) (senders : list N) (x : N) (l : leaf_node) : Prop :=
  exists n u, at_ ps senders n (PUpdate u) x /\ upd_leaf u = l.
(** Leaf position [x] is free once the removals are done. *)
Definition vacant (t : tree) (ps : list proposal) (x : N) : Prop := blank_at t x \/ removed_leaf ps x.
(** There is a member at [x], and there still is after the removals. *)
Definition stays (t : tree) (ps : list proposal) (x : N) : Prop := ~ blank_at t x /\ ~ removed_leaf ps x.

(** [t'] holds the members of [t], with the updated leaves replaced, the removed ones gone, and the new ones, in the
    order of the list, at the leftmost free positions. *)
Record applied (t : tree) (ps : list proposal) (senders : list N) (t' : tree) : Prop := {
  ap_updated : forall x l, updated_leaf ps senders x l -> leaf_at t' x = Some l;
  ap_kept : forall x, stays t ps x -> (forall l, ~ updated_leaf ps senders x l) -> leaf_at t' x = leaf_at t x;
  ap_added : exists pos, StronglySorted N.lt pos /\ length pos = length (adds_of ps) /\
    (forall n x l, nth_error pos n = Some x -> nth_error (adds_of ps) n = Some l -> leaf_at t' x = Some l) /\
    (forall x, In x pos -> vacant t ps x) /\
    (forall x y, In y pos -> x < y -> vacant t ps x -> In x pos) /\
    (forall x, vacant t ps x -> ~ In x pos -> blank_at t' x)
}.

(** There is room for the new members: the array is that of a complete tree, and either nobody is removed or somebody
    stays in its right half; or there are enough free positions in the tree, and if somebody is removed, in the smallest
    complete tree that holds a member who stays. *)
Definition room_for (t : tree) (d : N) (ps : list proposal) : Prop :=
  (full_size t d /\ (removes_of ps = [] \/ exists m, stays t ps m /\ 2 ^ d <= 2 * m)) \/
  (exists e free, NoDup free /\ length free = length (adds_of ps) /\ (forall x, In x free -> x < 2 ^ e /\ vacant t ps x) /\
     ((removes_of ps = [] /\ e = d) \/ exists m, stays t ps m /\ (e = 0 \/ 2 ^ e <= 2 * m))).
