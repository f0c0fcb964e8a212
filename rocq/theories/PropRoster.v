(** Property C123: the members of a tree are those its history of operations put there (SpecRoster.v). *)
From Verif Require Import SpecRoster RosterFacts TreeFacts HashFacts Examples.
Local Open Scope N_scope.

(* ------------------------------------------------------------------------------------------- *)
(** * C123 *)

(** Over any history, rejected merges included, the leaves of the tree follow the roster. *)
Theorem C123_roster : forall P cs t d h t', shaped t d -> history_of P cs t h t' -> roster_run (leaf_at t) h (leaf_at t').
Proof. exact roster_history. Qed.
Print Assumptions C123_roster.

(** So a member stays until a successful operation names its index: adds and rejected merges never displace anyone. *)
Theorem C123_stays : forall P cs t d h t' i l, shaped t d -> history_of P cs t h t' -> leaf_at t i = Some l ->
  (forall op, In (op, true) h -> ~ names op i) -> leaf_at t' i = Some l.
Proof. exact history_stays. Qed.
Print Assumptions C123_stays.
(** And whoever is a member was one all along, or was brought by a successful operation after which none named that index. *)
Theorem C123_origin : forall P cs t d h t' i l, shaped t d -> history_of P cs t h t' -> leaf_at t' i = Some l ->
  (leaf_at t i = Some l /\ forall op, In (op, true) h -> ~ names op i) \/
  exists before op after, h = (before ++ (op, true) :: after)%list /\ brings op i l /\ forall op', In (op', true) after -> ~ names op' i.
Proof. exact history_origin. Qed.
Print Assumptions C123_origin.
(** Two parties with the same members, whatever their parent nodes, array lengths, providers and cipher suites, and for whom the same
    operations succeed, have the same members afterwards. *)
Theorem C123_agree : forall P cs P' cs' t d t' e h a b, shaped t d -> shaped t' e -> (forall i, leaf_at t' i = leaf_at t i) ->
  history_of P cs t h a -> history_of P' cs' t' h b -> forall i, leaf_at b i = leaf_at a i.
Proof. exact history_agree. Qed.
Print Assumptions C123_agree.
(** Rejected merges do not break the shape of the tree either (C93 is about successful operations only). *)
Theorem C123_shaped : forall P cs t d h t', shaped t d -> history_of P cs t h t' -> t' = [] \/ exists d', shaped t' d'.
Proof. exact history_keeps. Qed.
Print Assumptions C123_shaped.

(** A list of proposals is carried out by such a history, so all of the above holds of it, unless an add comes to a tree without room. *)
Theorem C123_apply : forall P cs t d ps s t', shaped t d -> (length ps <= length s)%nat -> tree_apply t ps s = Ok t' ->
  history_of P cs t (calls_of ps s) t' \/
  exists before l after t1, calls_of ps s = (before ++ (OAdd l, true) :: after)%list /\ history_of P cs t before t1 /\ ~ has_room t1.
Proof. exact apply_history. Qed.
Print Assumptions C123_apply.

(** Two joins, a path, a rejected path, a removal, and a join into the freed place. *)
Example C123_example : exists t', shaped ex_one 0 /\ history_of toy Suite1 ex_one ex_roster_ops t' /\
  map (leaf_at t') [0; 1; 2; 3] = [Some (up_leaf ex_path3); Some (ex_leaf x09); Some (ex_leaf x03); None].
Proof. exact ex_roster. Qed.
Example C123_origin_example : exists t' l, history_of toy Suite1 ex_one ex_roster_ops t' /\ brings (OMerge 0 ex_path3) 0 l /\ leaf_at t' 0 = Some l.
Proof. exact ex_roster_stays. Qed.
Example C123_apply_example : exists t', tree_apply ex_three [PAdd (MkAdd (ex_kp x41)); PRemove (MkRemove 1)] [0; 0] = Ok t' /\
  calls_of [PAdd (MkAdd (ex_kp x41)); PRemove (MkRemove 1)] [0; 0] = [(ORemove 1, true); (OAdd (ex_leaf x41), true)] /\
  map (leaf_at t') [0; 1; 2; 3] = [Some (ex_leaf x01); Some (ex_leaf x41); Some (ex_leaf x03); None].
Proof. eexists. split; [reflexivity|]. split; reflexivity. Qed.
