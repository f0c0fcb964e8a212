(** C95: a group that somebody could join can still be joined after any changes, if these are checked. *)
From Coq Require Import Strings.Byte.
From Verif Require Import StaysFacts StaysCommit ExStays ExCommit ExPassive.
From Verif Require Import SpecStays SpecCommit ExKeys.
Local Open Scope N_scope.
Import Coq.Strings.Byte.

(** From any well-formed tree that passes the newcomer's check to any that checked changes make of it. *)
Theorem C95_history_partial : forall P cs g now t d ctx t',
  good t d -> no_repetitions t -> (exists i l, leaf_at t i = Some l) -> gc_suite ctx = cs -> gc_group_id ctx = g -> verify_integrity P t ctx now = Ok tt ->
  fit_history P cs g now t t' -> joinable P cs g now t'.
Proof. exact c95_history. Qed.
Print Assumptions C95_history_partial.

(** A group that began with one member: a newcomer who receives the tree decodes the tree the members have, and accepts it. *)
Theorem C95_newcomer_partial : forall P cs g now l t p rest ctx,
  fit P cs g now [] 0 l -> fit_history P cs g now [Some (Leaf l)] t -> wf_tree t -> se_ratchet_tree t = Ok p ->
  gc_suite ctx = cs -> gc_group_id ctx = g -> root_tree_hash P cs t = Ok (gc_tree_hash ctx) ->
  exists t', de_ratchet_tree (p ++ rest) = Ok (t', rest) /\ (forall x, tget t' x = tget t x) /\ verify_integrity P t' ctx now = Ok tt.
Proof. exact c95_newcomer. Qed.
Print Assumptions C95_newcomer_partial.

(** A commit that the project's client accepts, and what would have to be checked besides. *)
Theorem C95_commit_partial : forall P cs sa h k now t d ctx epoch b t' i c ps,
  p_sig P cs = Ok sa -> p_hash P cs = Ok h -> p_hpke P cs = Ok k -> good t d -> no_repetitions t ->
  gc_suite ctx = cs -> verify_integrity P t ctx now = Ok tt ->
  passive_commit P cs t ctx epoch b = Ok t' -> carries b i c ps ->
  (forall u, cm_path c = Some u ->
    (exists x, root_tree_hash P cs t' = Ok x) /\ ~ coincidence P cs t' i /\
    NoDup (encryption_key (up_leaf u) :: map upn_encryption_key (up_nodes u)) /\
    ~ used_key t (encryption_key (up_leaf u)) /\ (forall n, In n (up_nodes u) -> ~ used_key t (upn_encryption_key n)) /\
    NoDup (cap_credentials (lp_capabilities (ln_payload (up_leaf u)))) /\
    supports (up_leaf u) (type_of (up_leaf u)) /\ forall j m, j <> i -> leaf_at t j = Some m -> supports (up_leaf u) (type_of m)) ->
  joinable P cs (gc_group_id ctx) now t'.
Proof. exact c95_commit. Qed.
Print Assumptions C95_commit_partial.

(** Without that, nobody can join after a commit that the client accepts: two nodes of its path share a key, *)
Theorem C95_refuted_keys : exists P cs t d ctx epoch b t' now,
  good t d /\ no_repetitions t /\ verify_integrity P t ctx now = Ok tt /\ passive_commit P cs t ctx epoch b = Ok t' /\
  (exists h, root_tree_hash P cs t' = Ok h) /\ verify_parent_hashes P cs t' = Ok true /\ forall ctx', gc_suite ctx' = cs -> verify_integrity P t' ctx' now <> Ok tt.
Proof. exact c95_refuted_keys. Qed.
Print Assumptions C95_refuted_keys.
(** or its leaf does not support the credentials in use; *)
Theorem C95_refuted_credentials : exists P cs t d ctx epoch b t' now,
  good t d /\ no_repetitions t /\ verify_integrity P t ctx now = Ok tt /\ passive_commit P cs t ctx epoch b = Ok t' /\
  (exists h, root_tree_hash P cs t' = Ok h) /\ verify_parent_hashes P cs t' = Ok true /\ forall ctx', gc_suite ctx' = cs -> verify_integrity P t' ctx' now <> Ok tt.
Proof. exact c95_refuted_credentials. Qed.
Print Assumptions C95_refuted_credentials.
(** nor after adding a member whose leaf node passes the library's check against the tree. *)
Theorem C95_refuted_add : exists P t d ctx now ss es creds i l t',
  good t d /\ no_repetitions t /\ verify_integrity P t ctx now = Ok tt /\
  keys t = Ok (ss, es) /\ supported_creds t = Ok creds /\ leaf_verify P l (MkLeafOptions (gc_suite ctx) (gc_group_id ctx) i creds ss es (now i)) = Ok tt /\
  tree_add t l = Ok t' /\ leaf_at t i = None /\ leaf_at t' i = Some l /\ (exists h, root_tree_hash P (gc_suite ctx) t' = Ok h) /\ forall ctx', verify_integrity P t' ctx' now <> Ok tt.
Proof. exact c95_refuted_add. Qed.
Print Assumptions C95_refuted_add.

(** One member adds another and commits with a path; both changes are checked. *)
Example C95_example : fit toy Suite1 (str "group") es_now [] 0 es_first /\ fit_history toy Suite1 (str "group") es_now [Some (Leaf es_first)] es_merged /\
  leaf_at es_merged 1 = Some (kp_leaf (kp_payload pj_kp)) /\ (exists p, tget es_merged 1 = Some (Parent p)) /\
  (exists h p, root_tree_hash toy Suite1 es_merged = Ok h /\ se_ratchet_tree es_merged = Ok p).
Proof.
  split; [exact es_fit_first|]. split; [exact es_history|]. split; [vm_compute; reflexivity|]. split; [eexists; vm_compute; reflexivity|].
  eexists _, _. split; [vm_compute; reflexivity|]. vm_compute; reflexivity.
Qed.
(** The path of that commit, sent as a message, meets what [C95_commit_partial] asks for. *)
Example C95_commit_example : good pj_tree 1 /\ no_repetitions pj_tree /\ verify_integrity toy pj_tree pj_ctx es_now = Ok tt /\
  passive_commit toy Suite1 pj_tree pj_ctx pj_epoch (ec_bytes (str "group") [] (Some es_path)) = Ok es_merged /\
  carries (ec_bytes (str "group") [] (Some es_path)) 0 (MkCommit [] (Some es_path)) [] /\
  (exists x, root_tree_hash toy Suite1 es_merged = Ok x) /\ ~ coincidence toy Suite1 es_merged 0 /\
  NoDup (encryption_key (up_leaf es_path) :: map upn_encryption_key (up_nodes es_path)) /\
  fit toy Suite1 (str "group") es_now pj_tree 0 (up_leaf es_path) /\ (forall n, In n (up_nodes es_path) -> ~ used_key pj_tree (upn_encryption_key n)).
Proof.
  split; [exact pj_good|]. split; [exact pj_no_repetitions|]. split; [exact pj_verified|]. split; [vm_compute; reflexivity|]. split.
  - eexists MLS10, _, []. split; [vm_compute; reflexivity|]. split; [reflexivity|]. split; vm_compute; reflexivity.
  - split; [eexists; vm_compute; reflexivity|]. split; [exact es_fair|]. split; [vm_compute; repeat constructor; cbn; intuition discriminate|]. split; [exact es_fit_path|].
    intros n I. vm_compute in I. destruct I as [<-|[]]. apply es_fresh. vm_compute. reflexivity.
Qed.
