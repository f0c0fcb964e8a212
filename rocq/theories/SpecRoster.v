(** Specification vocabulary for the members of a tree over its history: a roster, which says who is at which leaf index, and what
    operations do to it. *)
From Verif Require Export SpecRatchet.
Local Open Scope N_scope.

Inductive operation : Type :=
| OAdd (l : leaf_node)
| OUpdate (i : N) (l : leaf_node)
| ORemove (i : N)
| OMerge (i : N) (u : update_path).

(** [performed t op ok t']: the operation turns [t] into [t'] and returns success ([ok]) or an error. Only [merge] can return an error
    once a tree is [shaped]; a panic ends the history. An add needs room (C16). *)
Inductive performed (P : provider) (cs : cipher_suite) (t : tree) : operation -> bool -> tree -> Prop :=
| pf_add l t' : has_room t -> tree_add t l = Ok t' -> performed P cs t (OAdd l) true t'
| pf_update i l t' : tree_update t i l = Ok t' -> performed P cs t (OUpdate i l) true t'
| pf_remove i t' : tree_remove t i = Ok t' -> performed P cs t (ORemove i) true t'
| pf_merge i u t' : merge_update_path P cs t i u = (t', Ok tt) -> performed P cs t (OMerge i u) true t'
| pf_rejected i u e t' : merge_update_path P cs t i u = (t', Err e) -> performed P cs t (OMerge i u) false t'.

(** A history, oldest operation first, with what each operation returned. *)
Inductive history_of (P : provider) (cs : cipher_suite) : tree -> list (operation * bool) -> tree -> Prop :=
| ho_nil t : history_of P cs t [] t
| ho_cons t op ok t1 r t2 : performed P cs t op ok t1 -> history_of P cs t1 r t2 -> history_of P cs t ((op, ok) :: r) t2.

(** Who is at which leaf index. *)
Definition roster : Type := N -> option leaf_node.
(** [m'] is [m] with [o] at index [i]. *)
Definition placed (m : roster) (i : N) (o : option leaf_node) (m' : roster) : Prop := m' i = o /\ forall j, j <> i -> m' j = m j.
Definition first_free (m : roster) (i : N) : Prop := m i = None /\ forall j, j < i -> m j <> None.

(** What an operation does to the roster: an add puts the member at the first free index; an update or a merge replaces the leaf at its
    index; a remove frees it; a rejected merge does nothing. *)
Inductive roster_step (m : roster) : operation -> bool -> roster -> Prop :=
| rs_add l i m' : first_free m i -> placed m i (Some l) m' -> roster_step m (OAdd l) true m'
| rs_update i l m' : placed m i (Some l) m' -> roster_step m (OUpdate i l) true m'
| rs_remove i m' : placed m i None m' -> roster_step m (ORemove i) true m'
| rs_merge i u m' : placed m i (Some (up_leaf u)) m' -> roster_step m (OMerge i u) true m'
| rs_rejected i u m' : (forall j, m' j = m j) -> roster_step m (OMerge i u) false m'.

Inductive roster_run : roster -> list (operation * bool) -> roster -> Prop :=
| rr_nil m m' : (forall j, m' j = m j) -> roster_run m [] m'
| rr_cons m op ok m1 r m2 : roster_step m op ok m1 -> roster_run m1 r m2 -> roster_run m ((op, ok) :: r) m2.

(** The operation names leaf index [i]. *)
Definition names (op : operation) (i : N) : Prop :=
  match op with OAdd _ => False | OUpdate j _ => j = i | ORemove j => j = i | OMerge j _ => j = i end.
(** The operation puts [l] at index [i], or, for an add, wherever there is room. *)
Definition brings (op : operation) (i : N) (l : leaf_node) : Prop :=
  match op with OAdd l' => l' = l | OUpdate j l' => j = i /\ l' = l | ORemove _ => False | OMerge j u => j = i /\ up_leaf u = l end.

(** The calls that carry out a list of proposals: updates at their senders' indices, then removes, then adds. *)
Definition calls_of (ps : list proposal) (senders : list N) : list (operation * bool) :=
  (map (fun u => (OUpdate (fst u) (snd u), true)) (updates_of (combine ps senders)) ++
   map (fun i => (ORemove i, true)) (removes_of ps) ++ map (fun l => (OAdd l, true)) (adds_of ps))%list.
