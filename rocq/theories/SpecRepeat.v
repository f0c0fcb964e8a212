(** Specification vocabulary for calls that repeat or supersede others. *)
From Verif Require Export SpecRoster.
Local Open Scope N_scope.

(** The call is an update of member [i] or a merge of a path from [i]. *)
Definition about (op : operation) (i : N) : Prop := match op with OUpdate j _ => j = i | OMerge j _ => j = i | _ => False end.
