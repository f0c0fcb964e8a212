(** Specification vocabulary for ratchet trees: what a caller sees through [get] ([tget]) and [get_leaf],
    against the arithmetic layout of SpecTree.v. *)
From Verif Require Export WireWF SpecTree RatchetTree.
From Coq Require Export Sorting.Sorted.
Local Open Scope N_scope.

(** The array of a complete tree of depth [d]. *)
Definition full_size (t : tree) (d : N) : Prop := tlen t = 2 ^ (d + 1) - 1.
(** The array length that [remove] leaves when it cuts a tree: one slot too many. *)
Definition cut_size (t : tree) (d : N) : Prop := tlen t = 2 ^ (d + 1).
(** A tree of depth [d] (2^d leaf positions) as the library produces it. *)
Definition tsized (t : tree) (d : N) : Prop := full_size t d \/ cut_size t d.

(** [x] is a proper ancestor of leaf [i] in the tree of depth [d]. *)
Definition on_path (d i x : N) : Prop := exists k j, 0 < k <= d /\ x = node_at k j /\ covers k j i.

(** The content of a leaf position, as [get_leaf] reports it. *)
Definition leaf_at (t : tree) (i : N) : option leaf_node :=
  match tget t (2 * i) with Some (Leaf l) => Some l | _ => None end.
(** Leaf position [i] holds no node. *)
Definition blank_at (t : tree) (i : N) : Prop := tget t (2 * i) = None.

Definition with_unmerged (p : parent_node) (l : list N) : parent_node :=
  MkParentNode (pn_encryption_key p) (pn_parent_hash p) l.

(** RFC 9420 section 4.1.1: the resolution of the node at level [k], position [j]. *)
Fixpoint resolution (t : tree) (k : nat) (j : N) : list N :=
  let x := node_at (N.of_nat k) j in
  match tget t x with
  | Some (Parent p) => x :: map (fun u => 2 * u) (pn_unmerged p)
  | Some (Leaf _) => [x]
  | None => match k with O => [] | S k' => resolution t k' (2 * j) ++ resolution t k' (2 * j + 1) end
  end.

(** Every unmerged-leaf index in the tree has a node index that fits 32 bits. *)
Definition small_unmerged (t : tree) : Prop :=
  forall x p u, tget t x = Some (Parent p) -> In u (pn_unmerged p) -> u < 2147483648.

(** [s] is the child of [x] whose subtree does not hold leaf [i]. *)
Definition other_child (i x s : N) : Prop :=
  exists k j, x = node_at (k + 1) (j / 2) /\ s = node_at k j /\ ~ covers k j i.

(** [ph] is the parent hash held by the node just below the first node of [path] (the leaf [i], or the previous
    node of the path): every node's parent hash is the hash of its parent in the path together with the hash of
    the subtree on the far side, and the topmost one is empty. *)
Fixpoint hash_chain (P : provider) (cs : cipher_suite) (t : tree) (i : N) (ph : bytes) (path : list N) : Prop :=
  match path with
  | [] => ph = []
  | x :: rest =>
      exists p s th, tget t x = Some (Parent p) /\ other_child i x s /\ tree_hash P cs t s [] = Ok th
                     /\ parent_hash P cs p th = Ok ph /\ hash_chain P cs t i (pn_parent_hash p) rest
  end.

(** RFC 9420 section 7.5 and 7.9: [t'] is [t] after the update path [u] of leaf [i] is merged. *)
Record merged (P : provider) (cs : cipher_suite) (t : tree) (d i : N) (u : update_path) (t' : tree) : Prop := {
  mg_len : tlen t' = tlen t;
  mg_leaf : tget t' (2 * i) = Some (Leaf (up_leaf u));
  mg_off : forall x, x <> 2 * i -> ~ on_path d i x -> tget t' x = tget t x;
  mg_path : exists fp ph,
    filtered_direct_path t (2 * i) = Ok fp /\ fp <> [] /\ length fp = length (up_nodes u) /\
    (forall m x n, nth_error fp m = Some x -> nth_error (up_nodes u) m = Some n ->
      exists h, tget t' x = Some (Parent (MkParentNode (upn_encryption_key n) h []))) /\
    (forall x, on_path d i x -> ~ In x fp -> tget t' x = None) /\
    lp_source (ln_payload (up_leaf u)) = LSCommit ph /\
    hash_chain P cs t' i ph fp
}.

(** ** Well-formed trees and their histories *)

(** The lists of unmerged leaves of a tree are sorted without repetition, hold members below their node only, and
    a leaf unmerged at a node is unmerged at every non-blank node between the two. *)
Record unmerged_ok (t : tree) : Prop := {
  uo_sorted : forall k j p, tget t (node_at k j) = Some (Parent p) -> StronglySorted N.lt (pn_unmerged p);
  uo_below : forall k j p u, tget t (node_at k j) = Some (Parent p) -> In u (pn_unmerged p) ->
    covers k j u /\ exists l, leaf_at t u = Some l;
  uo_between : forall k j p u k' j' p', tget t (node_at k j) = Some (Parent p) -> In u (pn_unmerged p) ->
    0 < k' < k -> covers k' j' u -> tget t (node_at k' j') = Some (Parent p') -> In u (pn_unmerged p')
}.

(** A well-formed tree of depth [d]: nodes only inside the tree, leaves at leaf positions and parents above them,
    the above, every leaf to the left of an unmerged one (below the same node) present, and members on both sides
    of every non-blank parent. *)
Record good (t : tree) (d : N) : Prop := {
  g_size : tsized t d;
  g_small : tlen t < 4294967296;
  g_in : forall x nd, tget t x = Some nd -> in_tree d x;
  g_leaf : forall i p, tget t (2 * i) <> Some (Parent p);
  g_parent : forall k j l, tget t (node_at (k + 1) j) <> Some (Leaf l);
  g_unmerged : unmerged_ok t;
  g_order : forall k j p u i, tget t (node_at k j) = Some (Parent p) -> In u (pn_unmerged p) ->
    covers k j i -> i < u -> ~ blank_at t i;
  g_sides : forall k j p, tget t (node_at (k + 1) j) = Some (Parent p) ->
    exists a b, covers k (2 * j) a /\ ~ blank_at t a /\ covers k (2 * j + 1) b /\ ~ blank_at t b
}.

(** What is left of that for a tree that was received and passed the integrity check: the size of the array, leaves
    at leaf positions and parents above them, and unmerged leaves whose node index fits 32 bits. *)
Record shaped (t : tree) (d : N) : Prop := {
  sh_size : tsized t d;
  sh_small : tlen t < 4294967296;
  sh_leaf : forall i p, tget t (2 * i) <> Some (Parent p);
  sh_parent : forall k j l, tget t (node_at (k + 1) j) <> Some (Leaf l);
  sh_unmerged : small_unmerged t
}.

(** [add] has a place to put the leaf: the array is that of a complete tree, or some leaf position is blank. *)
Definition has_room (t : tree) : Prop :=
  exists d, full_size t d \/ (cut_size t d /\ exists i, i < 2 ^ d /\ blank_at t i).

(** [t'] is [t] with leaf [l] added at position [i]; [d'] is the depth of [t']. *)
Definition added (t t' : tree) (d' i : N) (l : leaf_node) : Prop :=
  get_leaf t' i = Ok (Some l) /\
  (forall j, j <> i -> tget t' (2 * j) = tget t (2 * j)) /\
  (forall x p, on_path d' i x -> tget t x = Some (Parent p) -> tget t' x = Some (Parent (with_unmerged p (pn_unmerged p ++ [i])%list))) /\
  (forall x, on_path d' i x -> tget t x = None -> tget t' x = None) /\
  (forall x, x <> 2 * i -> ~ on_path d' i x -> tget t' x = tget t x).

(** One successful operation on a tree. *)
Inductive tree_step (P : provider) (cs : cipher_suite) : tree -> tree -> Prop :=
| ts_add t l t' : has_room t -> tree_add t l = Ok t' -> tree_step P cs t t'
| ts_update t i l t' : tree_update t i l = Ok t' -> tree_step P cs t t'
| ts_remove t i t' : tree_remove t i = Ok t' -> tree_step P cs t t'
| ts_merge t i u t' : merge_update_path P cs t i u = (t', Ok tt) -> tree_step P cs t t'.

(** A history of successful operations. *)
Inductive tree_history (P : provider) (cs : cipher_suite) : tree -> tree -> Prop :=
| th_nil t : tree_history P cs t t
| th_cons t t1 t2 : tree_history P cs t t1 -> tree_step P cs t1 t2 -> tree_history P cs t t2.

(** ** Proposals, sorted by kind *)

Fixpoint updates_of (l : list (proposal * N)) : list (N * leaf_node) :=
  match l with [] => [] | (PUpdate u, s) :: r => (s, upd_leaf u) :: updates_of r | _ :: r => updates_of r end.
Fixpoint removes_of (l : list proposal) : list N :=
  match l with [] => [] | PRemove m :: r => rem_removed m :: removes_of r | _ :: r => removes_of r end.
Fixpoint adds_of (l : list proposal) : list leaf_node :=
  match l with [] => [] | PAdd a :: r => kp_leaf (kp_payload (add_key_package a)) :: adds_of r | _ :: r => adds_of r end.

(** One operation after the other, stopping at the first that does not succeed. *)
Fixpoint do_updates (t : tree) (l : list (N * leaf_node)) : res tree :=
  match l with [] => Ok t | (i, lf) :: r => let* t := tree_update t i lf in do_updates t r end.
Fixpoint do_removes (t : tree) (l : list N) : res tree :=
  match l with [] => Ok t | i :: r => let* t := tree_remove t i in do_removes t r end.
Fixpoint do_adds (t : tree) (l : list leaf_node) : res tree :=
  match l with [] => Ok t | lf :: r => let* t := tree_add t lf in do_adds t r end.

(** The signature of [l], made for group [g] and leaf [i], verifies. *)
Definition leaf_signed (P : provider) (cs : cipher_suite) (l : leaf_node) (g : bytes) (i : N) : Prop :=
  exists tbs m s, se_leaf_node_tbs (ln_payload l) (TIUpdateOrCommit g i) = Ok tbs /\
    mls_prefix_label_data (str "LeafNodeTBS") tbs = Ok m /\ p_sig P cs = Ok s /\
    s_verify s (lp_signature_key (ln_payload l)) m (ln_signature l) = Ok tt.

(** [b] is the byte string that is hashed for the node [x] of [t] (RFC 9420 section 7.8). *)
Definition hashed_at (P : provider) (cs : cipher_suite) (t : tree) (x : N) (b : bytes) : Prop :=
  (exists i, x = 2 * i /\ leaf_hash_input i (leaf_at t i) = Ok b) \/
  (exists k j lh rh, x = node_at (k + 1) j /\
     tree_hash P cs t (node_at k (2 * j)) [] = Ok lh /\ tree_hash P cs t (node_at k (2 * j + 1)) [] = Ok rh /\
     parent_node_hash_input (match tget t x with Some (Parent p) => Some p | _ => None end) lh rh = Ok b).

(** Every node is a value the decoder can return (WireWF.v). *)
Definition nodes_wf (t : tree) : Prop := forall x nd, tget t x = Some nd -> wf_node nd.

(** Two different strings with the same digest, hashed for nodes of [t] and [t']. *)
Definition collision (P : provider) (cs : cipher_suite) (t t' : tree) : Prop :=
  exists H x x' b b', p_hash P cs = Ok H /\ hashed_at P cs t x b /\ hashed_at P cs t' x' b' /\ b <> b' /\ h_digest H b = h_digest H b'.

(** ** Verified trees (RFC 9420 sections 7.9.2 and 12.4.3.1) *)

Definition node_key (n : node) : bytes :=
  match n with Leaf l => lp_encryption_key (ln_payload l) | Parent p => pn_encryption_key p end.
(** The parent hash a node carries, if any. *)
Definition carried_hash (n : node) : option bytes :=
  match n with
  | Leaf l => match lp_source (ln_payload l) with LSCommit h => Some h | _ => None end
  | Parent p => Some (pn_parent_hash p)
  end.
(** Some node in the resolution of the node at level [k], position [c], carries the hash [h]. *)
Definition linked (t : tree) (k c : N) (h : bytes) : Prop :=
  exists x n, In x (resolution t (N.to_nat k) c) /\ tget t x = Some n /\ carried_hash n = Some h.
(** The parent [p], at level [k+1] and position [j], is the parent-hash target of exactly one of its sides: the hash
    is that of [p] with the other side, leaving out the leaves unmerged at [p]. *)
Definition hash_valid (P : provider) (cs : cipher_suite) (t : tree) (k j : N) (p : parent_node) : Prop :=
  exists lh rh lph rph,
    tree_hash P cs t (node_at k (2 * j)) (pn_unmerged p) = Ok lh /\
    tree_hash P cs t (node_at k (2 * j + 1)) (pn_unmerged p) = Ok rh /\
    parent_hash P cs p rh = Ok lph /\ parent_hash P cs p lh = Ok rph /\
    ((linked t k (2 * j) lph /\ ~ linked t k (2 * j + 1) rph) \/ (~ linked t k (2 * j) lph /\ linked t k (2 * j + 1) rph)).
(** The lifetimes the code accepts at the time [now], in nanoseconds: those that are over (C35 says that this is the wrong
    way round), 36 minutes or more after they began. *)
Definition lifetime_accepted (l : lifetime) (now : Z) : Prop :=
  (Z.of_N (not_after l) * 1000 < now)%Z /\ not_before l + 2160000000 <= not_after l.
(** What is checked of each member on its own. *)
Definition leaf_valid (P : provider) (cs : cipher_suite) (gid : bytes) (creds : list credential_type) (now : Z) (i : N) (l : leaf_node) : Prop :=
  leaf_signed P cs l gid i /\
  In (credential_type_of (lp_credential (ln_payload l))) creds /\
  (forall lt, lp_source (ln_payload l) = LSKeyPackage lt -> (0 < now)%Z -> lifetime_accepted lt now) /\
  (forall e, In e (lp_extensions (ln_payload l)) -> In (ext_type e) (cap_extensions (lp_capabilities (ln_payload l)))).

Record verified (P : provider) (t : tree) (ctx : group_context) (now : N -> Z) (d : N) : Prop := {
  vf_hash : root_tree_hash P (gc_suite ctx) t = Ok (gc_tree_hash ctx);
  vf_parent_hashes : forall k j p, tget t (node_at (k + 1) j) = Some (Parent p) -> hash_valid P (gc_suite ctx) t k j p;
  vf_leaves : exists creds, supported_creds t = Ok creds /\
    forall i l, leaf_at t i = Some l -> leaf_valid P (gc_suite ctx) (gc_group_id ctx) creds (now i) i l;
  vf_signature_keys : forall i i' l l', leaf_at t i = Some l -> leaf_at t i' = Some l' ->
    lp_signature_key (ln_payload l) = lp_signature_key (ln_payload l') -> i = i';
  vf_encryption_keys : forall x x' n n', tget t x = Some n -> tget t x' = Some n' -> node_key n = node_key n' -> x = x';
  vf_unmerged_below : forall k j p u, tget t (node_at k j) = Some (Parent p) -> In u (pn_unmerged p) -> 0 < k /\ covers k j u;
  vf_unmerged_between : forall k j p u k' j' p', tget t (node_at k j) = Some (Parent p) -> In u (pn_unmerged p) ->
    0 < k' < k -> covers k' j' u -> tget t (node_at k' j') = Some (Parent p') -> In u (pn_unmerged p')
}.
