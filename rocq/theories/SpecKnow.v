(** Who knows the private keys of a ratchet tree's nodes. This is the bookkeeping of RFC 9420, sections 4.2 and 7.4-7.7, beside
    the operations of the library: whose leaf is where, and which private keys each person has ever learnt. *)
From Verif Require Export SpecRatchet.
Local Open Scope N_scope.

(** The public key of a node. *)
Definition key_of (t : tree) (x : N) : option bytes :=
  match tget t x with
  | Some (Leaf l) => Some (lp_encryption_key (ln_payload l))
  | Some (Parent p) => Some (pn_encryption_key p)
  | None => None
  end.

(** [whose i]: the person at leaf [i]; [learnt q k]: person [q] has at some time learnt the private key of public key [k], and
    may have kept it. *)
Record world : Type := World { w_tree : tree; whose : N -> nat; learnt : nat -> bytes -> Prop }.

(** The member at leaf [m] is entitled to the key of node [x]: it is its own leaf, or a parent above it at which it is not
    unmerged. *)
Definition entitled (t : tree) (x m : N) : Prop :=
  ~ blank_at t m /\
  (x = 2 * m \/ exists k j p, x = node_at k j /\ tget t x = Some (Parent p) /\ covers k j m /\ ~ In m (pn_unmerged p)).

(** A key pair generated just now: nobody has the private key, and the public key is not in the tree. *)
Definition fresh (w : world) (k : bytes) : Prop := (forall q, ~ learnt w q k) /\ forall x, key_of (w_tree w) x <> Some k.

(** The update path [u] of leaf [i]: each path secret is encrypted to the nodes that the off-path child of its path node resolves
    to; whoever can decrypt it derives the keys of that path node and of those above. *)
Definition told (w : world) (i : N) (u : update_path) (q : nat) (k : bytes) : Prop :=
  exists fp m m' x s r y ky n, filtered_direct_path (w_tree w) (2 * i) = Ok fp /\
    nth_error fp m = Some x /\ other_child i x s /\ resolve (w_tree w) s = Ok r /\ In y r /\
    key_of (w_tree w) y = Some ky /\ learnt w q ky /\
    (m <= m')%nat /\ nth_error (up_nodes u) m' = Some n /\ k = upn_encryption_key n.

Definition seat (f : N -> nat) (i : N) (q : nat) : N -> nat := fun j => if j =? i then q else f j.
Definition leaf_key (l : leaf_node) : bytes := lp_encryption_key (ln_payload l).
Definition path_keys (u : update_path) : list bytes := leaf_key (up_leaf u) :: map upn_encryption_key (up_nodes u).

(** One operation, by or for person [q]. The keys that it brings into the tree are fresh. An update or a path may also seat a new
    person at a leaf: say a member who starts afresh because the old state was stolen; the old person is then the thief. *)
Inductive event (P : provider) (cs : cipher_suite) : world -> world -> Prop :=
| ev_add w l t' i q : has_room (w_tree w) -> tree_add (w_tree w) l = Ok t' -> blank_at (w_tree w) i -> get_leaf t' i = Ok (Some l) ->
    fresh w (leaf_key l) ->
    event P cs w (World t' (seat (whose w) i q) (fun p k => learnt w p k \/ (p = q /\ k = leaf_key l)))
| ev_update w i l t' q : tree_update (w_tree w) i l = Ok t' -> fresh w (leaf_key l) ->
    event P cs w (World t' (seat (whose w) i q) (fun p k => learnt w p k \/ (p = q /\ k = leaf_key l)))
| ev_remove w i t' : tree_remove (w_tree w) i = Ok t' -> event P cs w (World t' (whose w) (learnt w))
| ev_merge w i u t' q : merge_update_path P cs (w_tree w) i u = (t', Ok tt) ->
    NoDup (path_keys u) -> (forall k, In k (path_keys u) -> fresh w k) ->
    event P cs w (World t' (seat (whose w) i q) (fun p k => learnt w p k \/ (p = q /\ In k (path_keys u)) \/ told w i u p k)).

(** A group from its creation by person [q] on. *)
Inductive story (P : provider) (cs : cipher_suite) : world -> Prop :=
| st_create l q : story P cs (World [Some (Leaf l)] (fun _ => q) (fun p k => p = q /\ k = leaf_key l))
| st_event w w' : story P cs w -> event P cs w w' -> story P cs w'.
