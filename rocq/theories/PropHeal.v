(** Property C100: what ends the use of a stolen state. The life of a group is in SpecLocked.v, its people in SpecKnow.v. A member whose
    state was stolen and who makes new keys counts as a new person from then on; the old person is the thief. *)
From Verif Require Import HealFacts.
From Verif Require Import SpecState SpecLocked Examples ForwardFacts LockedFacts KnowFacts.
Import Coq.Strings.Byte.
Local Open Scope N_scope.

(* ------------------------------------------------------------------------------------------- *)
(** * C100 *)

(** An update with a fresh key leaves the thief [q] without a leaf. *)
Theorem C100_update : forall P cs w i l t' q q', story P cs w -> tree_update (w_tree w) i l = Ok t' -> fresh w (leaf_key l) ->
  (forall m, m <> i -> ~ blank_at (w_tree w) m -> whose w m <> q) -> q' <> q ->
  event P cs w (World t' (seat (whose w) i q') (fun p x => learnt w p x \/ (p = q' /\ x = leaf_key l))) /\
  forall m, ~ blank_at t' m -> seat (whose w) i q' m <> q.
Proof. exact c100_update. Qed.
Print Assumptions C100_update.

(** So does a commit with a path from that leaf, and the thief can decrypt none of its path secrets ([absent], see C98). *)
Theorem C100_commit : forall P cs k init l st i u ss q, group_life P cs k init l -> In st l -> es_path st = Some (i, u, ss) ->
  (forall m, m <> i -> ~ blank_at (w_tree (es_world st)) m -> whose (es_world st) m <> q) -> whose (es_after st) i <> q ->
  absent q st /\ forall m, ~ blank_at (w_tree (es_after st)) m -> whose (es_after st) m <> q.
Proof. exact c100_commit. Qed.
Print Assumptions C100_commit.

(** From a commit with a path on, by the member whose state was stolen or, once its leaf is updated, by anyone, and as long as the thief
    [q] has no leaf, it knows none of the secrets that the epoch secrets give. It may have anything [S] from before, from later or by
    other means, but no secret of these epochs themselves. *)
Theorem C100_secrets : forall P cs k init before st0 during i u s ss q S D st lab x, p_hpke P cs = Ok k ->
  group_life P cs k init (before ++ st0 :: during) -> es_path st0 = Some (i, u, s :: ss) ->
  (forall m, m <> i -> ~ blank_at (w_tree (es_world st0)) m -> whose (es_world st0) m <> q) -> whose (es_after st0) i <> q ->
  (forall st m, In st during -> ~ blank_at (w_tree (es_world st)) m -> whose (es_world st) m <> q) ->
  (forall st b, In st (st0 :: during) -> secret_of P cs k st b -> ~ S b) ->
  In st (st0 :: during) -> In lab schedule_labels -> derive_secret P cs (er_epoch (es_run st)) lab = Ok x ->
  knows k (fun b => S b \/ exists st, In st (st0 :: during) /\ received st q b) D x ->
  clash k D (life_made k (before ++ st0 :: during)) \/ exists c, In c D /\ call k c = Ok s.
Proof. exact c100_secrets. Qed.
Print Assumptions C100_secrets.

(** Nor does it know a key or nonce of their messages. *)
Theorem C100_messages : forall P cs k init before st0 during i u s ss q S D st d E t it b, p_hpke P cs = Ok k -> d <= 31 ->
  group_life P cs k init (before ++ st0 :: during) -> es_path st0 = Some (i, u, s :: ss) ->
  (forall m, m <> i -> ~ blank_at (w_tree (es_world st0)) m -> whose (es_world st0) m <> q) -> whose (es_after st0) i <> q ->
  (forall st m, In st during -> ~ blank_at (w_tree (es_world st)) m -> whose (es_world st) m <> q) ->
  (forall st b, In st (st0 :: during) -> secret_of P cs k st b -> ~ S b) ->
  In st (st0 :: during) -> derive_secret P cs (er_epoch (es_run st)) label_encryption = Ok E -> new_secret_tree P cs (2 ^ d) E = Ok t ->
  (forall c x, tree_made k d E c -> call k c = Ok x -> ~ S x) ->
  item_value P cs t it b -> knows k (fun b => S b \/ exists st, In st (st0 :: during) /\ received st q b) D b ->
  clash k D (fun c => life_made k (before ++ st0 :: during) c \/ tree_made k d E c) \/ exists c, In c D /\ call k c = Ok s.
Proof. exact c100_messages. Qed.
Print Assumptions C100_messages.

(** Until then the thief follows: commits by others, with a path or without, do not stop it. *)
Theorem C100_until : forall P cs k init l st q m lab x, p_hpke P cs = Ok k -> group_life P cs k init l -> In st l ->
  ~ blank_at (w_tree (es_world st)) m -> whose (es_world st) m = q -> (forall i u ss, es_path st = Some (i, u, ss) -> m <> i) ->
  In lab schedule_labels -> derive_secret P cs (er_epoch (es_run st)) lab = Ok x ->
  exists D, knows k (fun b => b = er_before (es_run st) \/ b = psk_or_zero k (er_psk (es_run st)) \/ b = zero_bytes (nh k) \/ received st q b) D x.
Proof. exact c100_until. Qed.
Print Assumptions C100_until.

(** Persons 0, 1 and 2. Person 1's state is stolen, with the key of the root. The thief gets the encryption secret of the epoch that
    person 0 starts. Person 1, as person 4, then commits with a path, and the thief, with all the secrets of the epoch before, does not
    get that of the next epoch. *)
Example C100_example : group_life ideal Suite2 ideal_hpke (str "init") ([ex_st1] ++ [ex_st_heal]) /\ whose (es_world ex_st1) 1 = 1%nat /\
  learnt (es_world ex_st_heal) 1%nat [x88] /\ key_of (w_tree (es_world ex_st_heal)) 3 = Some [x88] /\
  (forall m, m <> 1 -> ~ blank_at (w_tree (es_world ex_st_heal)) m -> whose (es_world ex_st_heal) m <> 1%nat) /\ whose (es_after ex_st_heal) 1 <> 1%nat /\
  (exists D, knows ideal_hpke (fun b => b = str "init" \/ b = zero_bytes 4 \/ received ex_st1 1%nat b) D (ex_enc_of ex_st1)) /\
  (forall D, ~ knows ideal_hpke (fun b => secret_of ideal Suite2 ideal_hpke ex_st1 b \/ exists st, In st [ex_st_heal] /\ received st 1%nat b) D (ex_enc_of ex_st_heal)).
Proof. exact c100_example. Qed.
Example C100_update_example : story ideal Suite2 ex_w4 /\ (exists t', tree_update (w_tree ex_w4) 1 (ex_leaf x09) = Ok t') /\ fresh ex_w4 (leaf_key (ex_leaf x09)) /\
  (forall m, m <> 1 -> ~ blank_at (w_tree ex_w4) m -> whose ex_w4 m <> 1%nat) /\ whose ex_w4 1 = 1%nat.
Proof. exact c100_update_example. Qed.
