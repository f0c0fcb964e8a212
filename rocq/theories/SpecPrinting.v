(** When printing a value tells a secret in it, and when it does not. *)
From Verif Require Export Printing.

Import Coq.Init.Byte.
Local Open Scope N_scope.

(** Whoever has what is printed can read off the secret: there is a way to do it that works for all values. *)
Definition reveals {A S} (show : A -> text) (secret : A -> S) : Prop := exists read : text -> option S, forall a, read (show a) = Some (secret a).
(** Values that differ in the secret only are printed the same. *)
Definition hides {A S T} (show : A -> text) (secret : A -> S) (public : A -> T) : Prop := forall a b, public a = public b -> show a = show b.

(** Reading back: one byte, a Bytes, and lists. *)
Definition digit_value (b : byte) : N := let n := b2n b in if n <? 58 then n - 48 else n - 87.
Definition read_byte (s : text) : option (byte * text) :=
  match s with
  | x5c :: x6e :: r => Some (x0a, r)
  | x5c :: x72 :: r => Some (x0d, r)
  | x5c :: x74 :: r => Some (x09, r)
  | x5c :: x30 :: r => Some (x00, r)
  | x5c :: x78 :: h :: l :: r => Some (n2b (16 * digit_value h + digit_value l), r)
  | x5c :: b :: r => Some (b, r)
  | b :: r => Some (b, r)
  | [] => None
  end.
Fixpoint read_until_quote (fuel : nat) (s : text) : option (bytes * text) :=
  match fuel with
  | O => None
  | S k =>
      match s with
      | x22 :: r => Some ([], r)
      | _ => match read_byte s with
             | Some (b, r) => match read_until_quote k r with Some (v, r) => Some (b :: v, r) | None => None end
             | None => None
             end
      end
  end.
(** b"..." *)
Definition read_bytes (s : text) : option (bytes * text) :=
  match s with x62 :: x22 :: r => read_until_quote (length r) r | _ => None end.
(** a, b, c *)
Fixpoint read_all {A} (rd : text -> option (A * text)) (fuel : nat) (s : text) : option (list A) :=
  match fuel with
  | O => None
  | S k =>
      match rd s with
      | Some (a, x2c :: x20 :: r) => match read_all rd k r with Some l => Some (a :: l) | None => None end
      | Some (a, _) => Some [a]
      | None => None
      end
  end.
(** The same, or nothing and the closing bracket. *)
Definition read_list {A} (rd : text -> option (A * text)) (close : byte) (s : text) : option (list A) :=
  match s with
  | c :: _ => if Byte.eqb c close then Some [] else read_all rd (length s) s
  | [] => None
  end.
Definition read_maybe (s : text) : option (option bytes * text) :=
  match s with
  | x4e :: _ => Some (None, skipn 4 s)
  | _ => match read_bytes (skipn 5 s) with Some (v, r) => Some (Some v, skipn 1 r) | None => None end
  end.
Definition read_entry (s : text) : option ((bytes * bytes) * text) :=
  match read_bytes s with
  | Some (k, r) => match read_bytes (skipn 2 r) with Some (v, r) => Some ((k, v), r) | None => None end
  | None => None
  end.
