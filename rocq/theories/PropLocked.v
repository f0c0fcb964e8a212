(** Property C98: who can compute the secrets of an epoch. The life of a group is in SpecLocked.v. *)
From Verif Require Import LockedFacts.
From Verif Require Import SpecLocked Examples ForwardFacts.
Local Open Scope N_scope.

(* ------------------------------------------------------------------------------------------- *)
(** * C98 *)

(** Whoever has no leaf from some commit with a path on, and until whenever, knows none of the secrets that these epochs' epoch secrets
    give. [S] is anything else that the person has, from before, from later or by other means, except the secrets of these epochs
    themselves. Otherwise two different calls of the KDF have the same result, or the person's calls hit the first path secret. *)
Theorem C98_locked_out : forall P cs k init before st0 during i u s ss q S D st lab x, p_hpke P cs = Ok k ->
  group_life P cs k init (before ++ st0 :: during) -> (forall st, In st (st0 :: during) -> absent q st) -> es_path st0 = Some (i, u, s :: ss) ->
  (forall st b, In st (st0 :: during) -> secret_of P cs k st b -> ~ S b) ->
  In st (st0 :: during) -> In lab schedule_labels -> derive_secret P cs (er_epoch (es_run st)) lab = Ok x ->
  knows k (fun b => S b \/ exists st, In st (st0 :: during) /\ received st q b) D x ->
  clash k D (life_made k (before ++ st0 :: during)) \/ exists c, In c D /\ call k c = Ok s.
Proof. exact c98_locked_out. Qed.
Print Assumptions C98_locked_out.

(** With a KDF without such coincidences, the person does not know them. *)
Theorem C98_ideal : forall P cs k init before st0 during i u s ss q S D st lab x, p_hpke P cs = Ok k ->
  group_life P cs k init (before ++ st0 :: during) ->
  (forall c c' x, call k c = Ok x -> call k c' = Ok x -> c = c') -> (forall c, call k c <> Ok s) ->
  (forall st, In st (st0 :: during) -> absent q st) -> es_path st0 = Some (i, u, s :: ss) ->
  (forall st b, In st (st0 :: during) -> secret_of P cs k st b -> ~ S b) ->
  In st (st0 :: during) -> In lab schedule_labels -> derive_secret P cs (er_epoch (es_run st)) lab = Ok x ->
  ~ knows k (fun b => S b \/ exists st, In st (st0 :: during) /\ received st q b) D x.
Proof. exact c98_ideal. Qed.
Print Assumptions C98_ideal.

(** A removal takes the last leaf of a person away. *)
Theorem C98_removed : forall P cs w i t' q, story P cs w -> tree_remove (w_tree w) i = Ok t' ->
  (forall m, m <> i -> ~ blank_at (w_tree w) m -> whose w m <> q) ->
  event P cs w (World t' (whose w) (learnt w)) /\ forall m, ~ blank_at t' m -> whose w m <> q.
Proof. exact c98_removed. Qed.
Print Assumptions C98_removed.

(** Whoever has no leaf in the first epochs, say because they come in later, knows none of these epochs' secrets, with or without
    paths. *)
Theorem C98_before_joining : forall P cs k init st0 during q S D st lab x, p_hpke P cs = Ok k -> group_life P cs k init (st0 :: during) ->
  (forall st, In st (st0 :: during) -> absent q st) -> ~ S init -> (forall st b, In st (st0 :: during) -> secret_of P cs k st b -> ~ S b) ->
  In st (st0 :: during) -> In lab schedule_labels -> derive_secret P cs (er_epoch (es_run st)) lab = Ok x ->
  knows k (fun b => S b \/ exists st, In st (st0 :: during) /\ received st q b) D x ->
  clash k D (life_made k (st0 :: during)) \/ exists c, In c D /\ call k c = Ok init.
Proof. exact c98_before_joining. Qed.
Print Assumptions C98_before_joining.

(** Everybody else can follow: every member but the committer gets all the secrets of an epoch from the init secret of the epoch before,
    the PSKs, and the path secret that it can decrypt. *)
Theorem C98_members : forall P cs k init l st i u ss m lab x, p_hpke P cs = Ok k -> group_life P cs k init l -> In st l ->
  es_path st = Some (i, u, ss) -> ~ blank_at (w_tree (es_world st)) m -> m <> i -> In lab schedule_labels ->
  derive_secret P cs (er_epoch (es_run st)) lab = Ok x ->
  exists D, knows k (fun b => b = er_before (es_run st) \/ b = psk_or_zero k (er_psk (es_run st)) \/ received st (whose (es_world st) m) b) D x.
Proof. exact c98_members. Qed.
Print Assumptions C98_members.

(** A commit without a path locks nobody out: the init secret of the epoch before and the PSKs suffice. That a removal demands a path
    is C49. *)
Theorem C98_needs_path : forall P cs k init l st lab x, p_hpke P cs = Ok k -> group_life P cs k init l -> In st l -> es_path st = None ->
  In lab schedule_labels -> derive_secret P cs (er_epoch (es_run st)) lab = Ok x ->
  exists D, knows k (fun b => b = er_before (es_run st) \/ b = psk_or_zero k (er_psk (es_run st)) \/ b = zero_bytes (nh k)) D x.
Proof. exact c98_needs_path. Qed.
Print Assumptions C98_needs_path.

(** A group of three, whose person 0 commits with a path. Then person 3 comes in, person 1 is removed, and person 0 commits with a path.
    Person 1, even with all the secrets of the first epoch, does not know the encryption secret of the second; person 2 does. *)
Example C98_example : group_life ideal Suite2 ideal_hpke (str "init") [ex_st1; ex_st2] /\
  derive_secret ideal Suite2 (er_epoch (es_run ex_st2)) label_encryption = Ok (ex_enc_of ex_st2) /\
  whose (es_world ex_st1) 1 = 1%nat /\ ~ blank_at (w_tree (es_world ex_st1)) 1 /\ absent 1%nat ex_st2 /\
  (forall D, ~ knows ideal_hpke (fun b => secret_of ideal Suite2 ideal_hpke ex_st1 b \/ exists st, In st [ex_st2] /\ received st 1%nat b) D (ex_enc_of ex_st2)) /\
  whose (es_world ex_st2) 2 = 2%nat /\ ~ blank_at (w_tree (es_world ex_st2)) 2 /\
  exists D, knows ideal_hpke (fun b => b = er_init (es_run ex_st1) \/ b = zero_bytes 4 \/ received ex_st2 2%nat b) D (ex_enc_of ex_st2).
Proof. exact c98_example. Qed.
