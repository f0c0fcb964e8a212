(** What a caller's buffer holds after a call that reads from it or writes to it. *)
From Verif Require Export Buffers.
Local Open Scope N_scope.

(** Reading with [r] ends as [d] says. A value leaves in the buffer what follows it; in every case what is left is an end of what was
    there, so nothing is skipped backwards or made up. *)
Definition reads_from {A} (r : bytes -> reading A) (d : bytes -> res (A * bytes)) : Prop := forall bs,
  (exists taken, bs = taken ++ snd (r bs))%list /\
  match d bs with
  | Ok (a, rest) => r bs = (Ok a, rest)
  | Err e => fst (r bs) = Err e
  | Panic => fst (r bs) = Panic
  | Hang => fst (r bs) = Hang
  end.

(** The buffer has room for [v]. *)
Definition fits (v : bytes) (b : out) : Prop := match room b with None => True | Some r => N.of_nat (length v) <= r end.
(** The buffer with [v] after what it held. *)
Definition add (v : bytes) (b : out) : out :=
  MkOut (held b ++ v) (match room b with None => None | Some r => Some (r - N.of_nat (length v)) end).
(** How a call ends, without what it made. *)
Definition ends {A} (m : res A) : res unit := match m with Ok _ => Ok tt | Err e => Err e | Panic => Panic | Hang => Hang end.

(** Writing [a] with [w]: there are bytes, the same for every buffer, that it adds to what the buffer holds, and they are the encoding
    [s a] if there is one. Where they fit, the call ends as [s a] does; where they do not, it panics, with a beginning of them added. *)
Definition writes_to {A} (w : A -> writing) (s : A -> res bytes) : Prop := forall a, exists v,
  (forall x, s a = Ok x -> v = x) /\
  forall b,
    (fits v b -> w a b = (ends (s a), add v b)) /\
    (~ fits v b -> fst (w a b) = Panic /\ exists p q, v = (p ++ q)%list /\ held (snd (w a b)) = (held b ++ p)%list).
