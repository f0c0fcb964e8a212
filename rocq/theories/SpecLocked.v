(** A group over its epochs: the tree with its people (SpecKnow.v), the update paths of the commits and the key schedule
    (SpecForward.v), put together as in RFC 9420, sections 7.4-7.6, 8 and 12.4. *)
From Verif Require Export SpecKnow SpecForward.
Local Open Scope N_scope.

(** The path secrets of an update path, from its lowest node to its highest, and the commit secret that follows them. *)
Fixpoint path_secrets (P : provider) (cs : cipher_suite) (l : list bytes) (commit : bytes) : Prop :=
  match l with
  | [] => False
  | s :: r => match r with
              | [] => derive_secret P cs s (str "path") = Ok commit
              | s' :: _ => derive_secret P cs s (str "path") = Ok s' /\ path_secrets P cs r commit
              end
  end.

(** One epoch: the world once the commit's proposals are carried out; the committer's leaf, the update path and its path secrets, if
    there is a path; the world afterwards; the key schedule. *)
Record epoch_step : Type := EpochStep {
  es_world : world; es_path : option (N * update_path * list bytes); es_after : world; es_run : epoch_run }.

Definition step_ok (P : provider) (cs : cipher_suite) (k : hpke_alg) (st : epoch_step) : Prop :=
  let w := es_world st in
  runs P cs (es_run st) /\
  match es_path st with
  | None => es_after st = w /\ er_commit (es_run st) = zero_bytes (nh k)
  | Some (i, u, ss) =>
      length ss = length (up_nodes u) /\ path_secrets P cs ss (er_commit (es_run st)) /\
      exists t' q, merge_update_path P cs (w_tree w) i u = (t', Ok tt) /\
        NoDup (path_keys u) /\ (forall x, In x (path_keys u) -> fresh w x) /\
        es_after st = World t' (seat (whose w) i q) (fun p x => learnt w p x \/ (p = q /\ In x (path_keys u)) \/ told w i u p x)
  end.

(** Any number of operations on the tree. *)
Inductive changes (P : provider) (cs : cipher_suite) : world -> world -> Prop :=
| ch_none w : changes P cs w w
| ch_more w w' w'' : changes P cs w w' -> event P cs w' w'' -> changes P cs w w''.

(** Consecutive epochs of a group, from the init secret [init] on. *)
Inductive group_life (P : provider) (cs : cipher_suite) (k : hpke_alg) (init : bytes) : list epoch_step -> Prop :=
| gl_first st : story P cs (es_world st) -> step_ok P cs k st -> er_before (es_run st) = init -> group_life P cs k init [st]
| gl_next l st st' : group_life P cs k init (l ++ [st]) -> changes P cs (es_after st) (es_world st') -> step_ok P cs k st' ->
    er_before (es_run st') = er_init (es_run st) -> group_life P cs k init ((l ++ [st]) ++ [st']).

(** Person [q] has none of the leaves when the commit is made, except perhaps the committer's, and then the commit's path seats somebody
    else there. *)
Definition absent (q : nat) (st : epoch_step) : Prop := forall m, ~ blank_at (w_tree (es_world st)) m -> whose (es_world st) m = q ->
  exists u ss, es_path st = Some (m, u, ss) /\ whose (es_after st) m <> q.

(** The path secrets that person [q] can decrypt: each is encrypted to the keys of the nodes to which the off-path child of its path
    node resolves, and [q] has learnt the private key of one of these. *)
Definition received (st : epoch_step) (q : nat) (b : bytes) : Prop :=
  exists i u ss fp m x s r y ky, es_path st = Some (i, u, ss) /\ filtered_direct_path (w_tree (es_world st)) (2 * i) = Ok fp /\
    nth_error fp m = Some x /\ other_child i x s /\ resolve (w_tree (es_world st)) s = Ok r /\ In y r /\
    key_of (w_tree (es_world st)) y = Some ky /\ learnt (es_world st) q ky /\ nth_error ss m = Some b.

(** The secrets of an epoch: path secrets, commit secret, what the key schedule goes through, and what comes out. *)
Definition secret_of (P : provider) (cs : cipher_suite) (k : hpke_alg) (st : epoch_step) (b : bytes) : Prop :=
  let e := es_run st in
  (exists i u ss, es_path st = Some (i, u, ss) /\ (In b ss \/ b = er_commit e)) \/
  k_extract k (er_commit e) (er_before e) = Ok b \/ b = er_joiner e \/
  k_extract k (psk_or_zero k (er_psk e)) (er_joiner e) = Ok b \/ b = er_epoch e \/
  exists lab, In lab schedule_labels /\ derive_secret P cs (er_epoch e) lab = Ok b.

(** The calls that members make for the epochs [l]: those of the key schedule, and from each path secret to the next. *)
Definition life_made (k : hpke_alg) (l : list epoch_step) (c : kdf_call) : Prop :=
  all_made k (map es_run l) c \/
  exists st i u ss s, In st l /\ es_path st = Some (i, u, ss) /\ In s ss /\ c = CExpand s (kdf_label (str "path") [] (nh k)) (nh k).
