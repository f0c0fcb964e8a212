(** Property C99: which messages a stolen client state, or a person who is not in the group, can open. What a client holds is in
    SpecState.v, the life of a group in SpecLocked.v. *)
From Verif Require Import StateFacts.
From Verif Require Import SpecState SpecLocked Examples ForwardFacts LockedFacts.
Local Open Scope N_scope.

(* ------------------------------------------------------------------------------------------- *)
(** * C99 *)

(** Someone who takes what a client holds in an epoch, and has other things [S0] besides, knows a key or nonce of that epoch's messages
    only if it follows from a ratchet, key or nonce that the client kept. It has to be given that the epoch's secret is not within
    reach by other ways ([enough]: see C83), and that [S0] holds nothing of the secret tree. *)
Theorem C99_state : forall P cs k d E t init l e kept S0 D it b, p_hpke P cs = Ok k -> d <= 31 -> lifetime_of P cs init (l ++ [e]) ->
  derive_secret P cs (er_epoch e) label_encryption = Ok E -> new_secret_tree P cs (2 ^ d) E = Ok t ->
  ~ S0 E -> (forall c x, tree_made k d E c -> call k c = Ok x -> ~ S0 x) -> ~ enough k (fun x => held P cs t e kept x \/ S0 x) D init (l ++ [e]) ->
  item_value P cs t it b -> knows k (fun x => held P cs t e kept x \/ S0 x) D b ->
  (exists a, kept a /\ follows a it) \/ clash k D (fun c => all_made k (l ++ [e]) c \/ tree_made k d E c).
Proof. exact c99_state. Qed.
Print Assumptions C99_state.

(** With a KDF in which no two calls have the same result. *)
Theorem C99_ideal : forall P cs k d E t init l e kept S0 D it b, p_hpke P cs = Ok k -> d <= 31 -> lifetime_of P cs init (l ++ [e]) ->
  (forall c c' x, call k c = Ok x -> call k c' = Ok x -> c = c') ->
  derive_secret P cs (er_epoch e) label_encryption = Ok E -> new_secret_tree P cs (2 ^ d) E = Ok t ->
  ~ S0 E -> (forall c x, tree_made k d E c -> call k c = Ok x -> ~ S0 x) -> ~ enough k (fun x => held P cs t e kept x \/ S0 x) D init (l ++ [e]) ->
  item_value P cs t it b -> knows k (fun x => held P cs t e kept x \/ S0 x) D b -> exists a, kept a /\ follows a it.
Proof. exact c99_ideal. Qed.
Print Assumptions C99_ideal.

(** A removed member has no key or nonce of any message of the epochs after its removal, as long as it gets no leaf back. *)
Theorem C99_locked_out : forall P cs k init before st0 during i u s ss q S D st d E t it b, p_hpke P cs = Ok k -> d <= 31 ->
  group_life P cs k init (before ++ st0 :: during) -> (forall st, In st (st0 :: during) -> absent q st) -> es_path st0 = Some (i, u, s :: ss) ->
  (forall st b, In st (st0 :: during) -> secret_of P cs k st b -> ~ S b) ->
  In st (st0 :: during) -> derive_secret P cs (er_epoch (es_run st)) label_encryption = Ok E -> new_secret_tree P cs (2 ^ d) E = Ok t ->
  (forall c x, tree_made k d E c -> call k c = Ok x -> ~ S x) ->
  item_value P cs t it b -> knows k (fun b => S b \/ exists st, In st (st0 :: during) /\ received st q b) D b ->
  clash k D (fun c => life_made k (before ++ st0 :: during) c \/ tree_made k d E c) \/ exists c, In c D /\ call k c = Ok s.
Proof. exact c99_locked_out. Qed.
Print Assumptions C99_locked_out.

(** A new member has no key or nonce of any message of the epochs before it came in. *)
Theorem C99_before_joining : forall P cs k init st0 during q S D st d E t it b, p_hpke P cs = Ok k -> d <= 31 ->
  group_life P cs k init (st0 :: during) ->
  (forall st, In st (st0 :: during) -> absent q st) -> ~ S init -> (forall st b, In st (st0 :: during) -> secret_of P cs k st b -> ~ S b) ->
  In st (st0 :: during) -> derive_secret P cs (er_epoch (es_run st)) label_encryption = Ok E -> new_secret_tree P cs (2 ^ d) E = Ok t ->
  (forall c x, tree_made k d E c -> call k c = Ok x -> ~ S x) ->
  item_value P cs t it b -> knows k (fun b => S b \/ exists st, In st (st0 :: during) /\ received st q b) D b ->
  clash k D (fun c => life_made k (st0 :: during) c \/ tree_made k d E c) \/ exists c, In c D /\ call k c = Ok init.
Proof. exact c99_before_joining. Qed.
Print Assumptions C99_before_joining.

(** The client holds the derived secrets and leaf 1's application ratchet at generation 2; the thief also has the commit secrets and
    the PSK. It gets key 3 and not key 0. *)
Example C99_example : exists t b b', lifetime_of ideal Suite2 (str "init") [ex_epoch1] /\
  derive_secret ideal Suite2 (er_epoch ex_epoch1) label_encryption = Ok (ex_enc ex_epoch1) /\ new_secret_tree ideal Suite2 (2 ^ 1) (ex_enc ex_epoch1) = Ok t /\
  item_value ideal Suite2 t (IKey 1 RApplication 0) b /\ item_value ideal Suite2 t (IKey 1 RApplication 3) b' /\
  (forall D, ~ enough ideal_hpke (fun x => held ideal Suite2 t ex_epoch1 ex_kept x \/ ex_public_secrets x) D (str "init") [ex_epoch1]) /\
  (forall D, ~ knows ideal_hpke (fun x => held ideal Suite2 t ex_epoch1 ex_kept x \/ ex_public_secrets x) D b) /\
  exists D, knows ideal_hpke (fun x => held ideal Suite2 t ex_epoch1 ex_kept x \/ ex_public_secrets x) D b'.
Proof. exact c99_example. Qed.
(** Person 1 of C98's example, removed, still has the init secret of the epoch before. It does not get leaf 2's first message key. *)
Example C99_locked_example : exists t b, group_life ideal Suite2 ideal_hpke (str "init") ([ex_st1] ++ [ex_st2]) /\ absent 1%nat ex_st2 /\
  new_secret_tree ideal Suite2 (2 ^ 2) (ex_enc_of ex_st2) = Ok t /\ item_value ideal Suite2 t (IKey 2 RApplication 0) b /\
  forall D, ~ knows ideal_hpke (fun x => (x = str "init" \/ x = er_init (es_run ex_st1)) \/ exists st, In st [ex_st2] /\ received st 1%nat x) D b.
Proof. exact c99_locked_example. Qed.
