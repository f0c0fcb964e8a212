(** What a member of a group holds in an epoch, how it is confirmed, and what it means that the confirmation of two
    members is worthless because a primitive was broken. *)
From Verif Require Export SpecRatchet SpecSecrets Messages Group.
Local Open Scope N_scope.

(** The state of one member: tree and group context; the PSKs of the epoch; the init secret and commit secret that led
    to it; the interim transcript hash from which it has followed the group, the commits since then with their tags, and
    the commit that made this epoch. *)
Record view : Type := MkView {
  v_tree : ratchet_tree; v_context : group_context;
  v_psk_ids : list psk_id; v_psks : list bytes;
  v_init : bytes; v_commit_secret : bytes;
  v_start : bytes; v_history : list (confirmed_input * bytes); v_commit : auth_content }.

(** The member has computed its state with the library: the context has the hash of its tree and of its transcript, and
    [joiner], [psk], [epoch] and [key] are the joiner secret, PSK secret, epoch secret and confirmation key. *)
Record computed (P : provider) (v : view) (joiner psk epoch key : bytes) : Prop := {
  cv_tree : root_tree_hash P (gc_suite (v_context v)) (v_tree v) = Ok (gc_tree_hash (v_context v));
  cv_transcript : exists interim, transcript P (gc_suite (v_context v)) (v_start v) (v_history v) = Ok interim /\
    confirmed_hash P (gc_suite (v_context v)) (confirmed_of (v_commit v)) interim = Ok (gc_confirmed (v_context v));
  cv_psk : extract_psk_secret P (gc_suite (v_context v)) (v_psk_ids v) (v_psks v) = Ok psk;
  cv_joiner : extract_joiner_secret P (v_context v) (v_init v) (v_commit_secret v) = Ok joiner;
  cv_epoch : extract_epoch_secret P (v_context v) joiner psk = Ok epoch;
  cv_key : derive_secret P (gc_suite (v_context v)) epoch (str "confirm") = Ok key }.

(** Values that exist: trees as the library keeps them and fields within their types. *)
Record well_typed (v : view) : Prop := {
  wt_tree : exists d, good (v_tree v) d; wt_nodes : nodes_wf (v_tree v); wt_context : wf_group_context (v_context v);
  wt_ids : Forall wf_psk_id (v_psk_ids v); wt_count : N.of_nat (length (v_psk_ids v)) < 65536;
  wt_history : Forall (fun x => wf_confirmed_input (fst x)) (v_history v); wt_commit : wf_confirmed_input (confirmed_of (v_commit v)) }.

(** Same state: same tree, context and secrets, and the same commits if both have followed the group from one point. *)
Definition same_state (v w : view) : Prop :=
  (forall x, tget (v_tree v) x = tget (v_tree w) x) /\ v_context v = v_context w /\
  v_psk_ids v = v_psk_ids w /\ v_psks v = v_psks w /\ v_init v = v_init w /\ v_commit_secret v = v_commit_secret w /\
  (v_start v = v_start w -> length (v_history v) = length (v_history w) ->
   v_history v = v_history w /\ v_commit v = v_commit w).

(** A hash, MAC or KDF gives one result for two different inputs that were used in the two computations; or a list of PSKs
    has the secret of the empty list. *)
Inductive broken (P : provider) (h : hash_alg) (k : hpke_alg) (v w : view) : Prop :=
| broken_mac j psk e key j' psk' e' key' : computed P v j psk e key -> computed P w j' psk' e' key' ->
    (key, gc_confirmed (v_context v)) <> (key', gc_confirmed (v_context w)) ->
    h_mac h key (gc_confirmed (v_context v)) = h_mac h key' (gc_confirmed (v_context w)) -> broken P h k v w
| broken_confirm j psk e key j' psk' e' key' : computed P v j psk e key -> computed P w j' psk' e' key' ->
    collide (fun s i => k_expand k s i (nh k)) e (kdf_label (str "confirm") [] (nh k)) e' (kdf_label (str "confirm") [] (nh k)) -> broken P h k v w
| broken_epoch j psk e key j' psk' e' key' x x' raw raw' : computed P v j psk e key -> computed P w j' psk' e' key' ->
    k_extract k (psk_or_zero k psk) j = Ok x -> k_extract k (psk_or_zero k psk') j' = Ok x' ->
    se_group_context (v_context v) = Ok raw -> se_group_context (v_context w) = Ok raw' ->
    collide (fun s i => k_expand k s i (nh k)) x (kdf_label (str "epoch") raw (nh k)) x' (kdf_label (str "epoch") raw' (nh k)) -> broken P h k v w
| broken_extract j psk e key j' psk' e' key' : computed P v j psk e key -> computed P w j' psk' e' key' ->
    collide (k_extract k) (psk_or_zero k psk) j (psk_or_zero k psk') j' -> broken P h k v w
| broken_joiner x x' raw raw' :
    k_extract k (v_commit_secret v) (v_init v) = Ok x -> k_extract k (v_commit_secret w) (v_init w) = Ok x' ->
    se_group_context (v_context v) = Ok raw -> se_group_context (v_context w) = Ok raw' ->
    collide (fun s i => k_expand k s i (nh k)) x (kdf_label (str "joiner") raw (nh k)) x' (kdf_label (str "joiner") raw' (nh k)) -> broken P h k v w
| broken_commit : collide (k_extract k) (v_commit_secret v) (v_init v) (v_commit_secret w) (v_init w) -> broken P h k v w
| broken_psk : psk_collision k (combine (v_psk_ids v) (v_psks v)) (combine (v_psk_ids w) (v_psks w)) -> broken P h k v w
| broken_no_psk u s : u = v \/ u = w -> v_psk_ids u <> [] -> extract_psk_secret P (gc_suite (v_context u)) (v_psk_ids u) (v_psks u) = Ok s ->
    psk_or_zero k s = zero_bytes (k_extract_size k) -> broken P h k v w
| broken_tree : collision P (gc_suite (v_context v)) (v_tree v) (v_tree w) -> broken P h k v w
| broken_transcript : transcript_collision P (gc_suite (v_context v)) h (v_start v)
    (v_history v ++ [(confirmed_of (v_commit v), [])])%list (v_history w ++ [(confirmed_of (v_commit w), [])])%list -> broken P h k v w.

(** The same for a member and a joiner, who has the context [g] of a GroupInfo, a joiner secret [j'] and PSK secret
    [psk'] of a Welcome, and a tree [t]. *)
Inductive broken_join (P : provider) (h : hash_alg) (k : hpke_alg) (v : view) (g : group_context) (t : ratchet_tree)
  (j psk e key j' psk' e' key' : bytes) : Prop :=
| join_mac : (key, gc_confirmed (v_context v)) <> (key', gc_confirmed g) ->
    h_mac h key (gc_confirmed (v_context v)) = h_mac h key' (gc_confirmed g) -> broken_join P h k v g t j psk e key j' psk' e' key'
| join_confirm : collide (fun s i => k_expand k s i (nh k)) e (kdf_label (str "confirm") [] (nh k)) e' (kdf_label (str "confirm") [] (nh k)) ->
    broken_join P h k v g t j psk e key j' psk' e' key'
| join_epoch x x' raw raw' : k_extract k (psk_or_zero k psk) j = Ok x -> k_extract k (psk_or_zero k psk') j' = Ok x' ->
    se_group_context (v_context v) = Ok raw -> se_group_context g = Ok raw' ->
    collide (fun s i => k_expand k s i (nh k)) x (kdf_label (str "epoch") raw (nh k)) x' (kdf_label (str "epoch") raw' (nh k)) ->
    broken_join P h k v g t j psk e key j' psk' e' key'
| join_extract : collide (k_extract k) (psk_or_zero k psk) j (psk_or_zero k psk') j' -> broken_join P h k v g t j psk e key j' psk' e' key'
| join_tree : collision P (gc_suite g) (v_tree v) t -> broken_join P h k v g t j psk e key j' psk' e' key'.
