(** A group that has come apart: two parts of it have carried out different commits. *)
From Verif Require Export SpecPrivate SpecCommit.
Local Open Scope N_scope.

(** [ctx] is the context after the commit with the number [n] (from 0) of the history [l], which starts in epoch [e0] with the interim
    transcript hash [start]: every commit raises the epoch by one, and the context has the confirmed transcript hash that the library
    computes. *)
Definition in_epoch (P : provider) (cs : cipher_suite) (e0 : N) (start : bytes) (l : list (confirmed_input * bytes)) (n : nat) (ctx : group_context) : Prop :=
  exists c tag interim, nth_error l n = Some (c, tag) /\ transcript P cs start (firstn n l) = Ok interim /\
    confirmed_hash P cs c interim = Ok (gc_confirmed ctx) /\ gc_epoch ctx = e0 + N.of_nat n + 1 /\ wf_group_context ctx.

(** The histories [l] and [l'] do not have the same commits up to the number [n]. *)
Definition parted (l l' : list (confirmed_input * bytes)) (n : nat) : Prop :=
  map fst (firstn (S n) l) <> map fst (firstn (S n) l').

(** The commits up to the number [n]; the tag of the last is not in the confirmed transcript hash. *)
Definition up_to (l : list (confirmed_input * bytes)) (n : nat) : list (confirmed_input * bytes) :=
  (firstn n l ++ match nth_error l n with Some (c, _) => [(c, [])] | None => [] end)%list.

(** Whatever is in the list was said by somebody who follows the history [l]. *)
Definition speaks_in (P : provider) (cs : cipher_suite) (e0 : N) (start : bytes) (l : list (confirmed_input * bytes)) (log : list said) : Prop :=
  forall w f g, In (SaidContent w f g) log -> exists n, in_epoch P cs e0 start l n g.
