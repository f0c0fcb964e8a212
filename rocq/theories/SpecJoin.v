(** A tree as a new member receives it. *)
From Verif Require Export SpecRatchet.
Local Open Scope N_scope.

(** The tree is no deeper than its members need: one of them sits in the right half. *)
Definition tight (t : tree) (d : N) : Prop := exists m, ~ blank_at t m /\ (d = 0 \/ 2 ^ d <= 2 * m).

(** The trees of a group that started with one member. *)
Definition reachable (P : provider) (cs : cipher_suite) (t : tree) : Prop :=
  exists l, tree_history P cs [Some (Leaf l)] t /\ t <> [].

(** ** The same operations on two copies of a tree *)

Inductive operation :=
| OpAdd (l : leaf_node)
| OpUpdate (i : N) (l : leaf_node)
| OpRemove (i : N)
| OpMerge (i : N) (u : update_path).
Definition perform (P : provider) (cs : cipher_suite) (t : tree) (o : operation) : res tree :=
  match o with
  | OpAdd l => tree_add t l
  | OpUpdate i l => tree_update t i l
  | OpRemove i => tree_remove t i
  | OpMerge i u => match merge_update_path P cs t i u with (t', Ok tt) => Ok t' | (_, Err e) => Err e | (_, Panic) => Panic | (_, Hang) => Hang end
  end.

(** The operations [os], all of which succeed, take [t] to [t']; whenever a member is added there is room. *)
Inductive performed (P : provider) (cs : cipher_suite) : tree -> list operation -> tree -> Prop :=
| pf_nil t : performed P cs t [] t
| pf_cons t o t1 os t2 : perform P cs t o = Ok t1 -> (forall l, o = OpAdd l -> has_room t) -> performed P cs t1 os t2 -> performed P cs t (o :: os) t2.

(** The same tree, up to blank nodes past the end of the shorter array. *)
Definition same_tree (t t' : tree) : Prop := forall x, tget t' x = tget t x.
(** [t'] is the array [t], or that of a complete tree to which [t] adds one blank node, as it does after a removal. *)
Definition copy_of (t t' : tree) : Prop := t = t' \/ (exists d, full_size t' d) /\ t = (t' ++ [None])%list.
(** The same outcome: the same failure, or copies of the same tree. *)
Definition same_outcome (r r' : res tree) : Prop :=
  match r, r' with Ok a, Ok b => copy_of a b | Err e, Err e' => e = e' | Panic, Panic => True | Hang, Hang => True | _, _ => False end.
