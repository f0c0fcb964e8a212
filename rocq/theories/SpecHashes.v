(** Parent hashes over the life of a tree. *)
From Verif Require Export SpecRatchet.
Local Open Scope N_scope.

(** A hash coincidence on the path of leaf [i]: some node beside the path happens to carry the hash of a path node [p]
    taken over the path's own side, so that [p] would be the parent-hash target of both its sides. *)
Definition coincidence (P : provider) (cs : cipher_suite) (t : tree) (i : N) : Prop :=
  exists k own far p th h, covers k own i /\ ~ covers k far i /\ own / 2 = far / 2 /\
    tget t (node_at (k + 1) (own / 2)) = Some (Parent p) /\
    tree_hash P cs t (node_at k own) [] = Ok th /\ parent_hash P cs p th = Ok h /\ linked t k far h.

(** One successful operation on a tree by members who play by the rules: new members' leaves come from key packages or
    updates, and no merge runs into a hash coincidence or a tree that cannot be hashed. *)
Inductive fair_step (P : provider) (cs : cipher_suite) : tree -> tree -> Prop :=
| fs_add t l t' : has_room t -> tree_add t l = Ok t' -> (forall h, lp_source (ln_payload l) <> LSCommit h) -> fair_step P cs t t'
| fs_update t i l t' : tree_update t i l = Ok t' -> fair_step P cs t t'
| fs_remove t i t' : tree_remove t i = Ok t' -> fair_step P cs t t'
| fs_merge t i u t' h : merge_update_path P cs t i u = (t', Ok tt) -> root_tree_hash P cs t' = Ok h -> ~ coincidence P cs t' i -> fair_step P cs t t'.
Inductive fair_history (P : provider) (cs : cipher_suite) : tree -> tree -> Prop :=
| fh_nil t : fair_history P cs t t
| fh_cons t t1 t2 : fair_history P cs t t1 -> fair_step P cs t1 t2 -> fair_history P cs t t2.

(** ** What a parent hash commits to *)

(** [b] is a byte string hashed to get a parent hash of the node [x] of [t] (RFC 9420 section 7.9): the node together
    with some subtree of [t]. *)
Definition parent_hashed_at (P : provider) (cs : cipher_suite) (t : tree) (x : N) (b : bytes) : Prop :=
  exists p k j th, tget t x = Some (Parent p) /\ tree_hash P cs t (node_at k j) [] = Ok th /\
    parent_hash_input (pn_encryption_key p) (pn_parent_hash p) th = Ok b.
(** Two different strings with the same digest, both hashed for parent hashes of [t] and [t']; or one whose digest
    is empty, as the parent hash of a topmost node is. *)
Definition parent_collision (P : provider) (cs : cipher_suite) (t t' : tree) : Prop :=
  exists H, p_hash P cs = Ok H /\
    ((exists x x' b b', parent_hashed_at P cs t x b /\ parent_hashed_at P cs t' x' b' /\ b <> b' /\ h_digest H b = h_digest H b') \/
     (exists x b, (parent_hashed_at P cs t x b \/ parent_hashed_at P cs t' x b) /\ h_digest H b = [])).
