(** Properties C71 and C72: what a committer's leaf commits to, and the keys of members over the life of a tree. *)
From Verif Require Import BindFacts MemberFacts.
From Verif Require Import SpecHashes SpecMembers Examples.
Local Open Scope N_scope.

(* ------------------------------------------------------------------------------------------- *)
(** * C71 *)

(** Two members merge update paths whose leaf node is the same, each in a tree of their own. Unless a hash collides
    (SpecRatchet.v, SpecHashes.v), they end up with the same tree. *)
Theorem C71_commit_binds : forall P cs t1 d1 t2 d2 i u1 u2 t1' t2', good t1 d1 -> good t2 d2 -> nodes_wf t1 -> nodes_wf t2 -> wf_update_path u1 ->
  merge_update_path P cs t1 i u1 = (t1', Ok tt) -> merge_update_path P cs t2 i u2 = (t2', Ok tt) -> up_leaf u1 = up_leaf u2 ->
  (forall x, tget t1' x = tget t2' x) \/ collision P cs t1' t2' \/ parent_collision P cs t1' t2'.
Proof. exact c71. Qed.
Print Assumptions C71_commit_binds.

(** A digest that is injective and never empty has no such collisions. *)
Theorem C71_no_collision : forall P cs t t', (forall H a b, p_hash P cs = Ok H -> h_digest H a = h_digest H b -> a = b) ->
  (forall H a, p_hash P cs = Ok H -> h_digest H a <> []) -> ~ collision P cs t t' /\ ~ parent_collision P cs t t'.
Proof. exact c71_no_collision. Qed.
Print Assumptions C71_no_collision.

(** One link of it: a parent hash determines the node's key, its own parent hash and the hashed subtree. *)
Theorem C71_parent_hash : forall P cs p p' th th' h, parent_hash P cs p th = Ok h -> parent_hash P cs p' th' = Ok h ->
  (pn_encryption_key p = pn_encryption_key p' /\ pn_parent_hash p = pn_parent_hash p' /\ th = th') \/
  exists H b b', p_hash P cs = Ok H /\ parent_hash_input (pn_encryption_key p) (pn_parent_hash p) th = Ok b /\
    parent_hash_input (pn_encryption_key p') (pn_parent_hash p') th' = Ok b' /\ b <> b' /\ h_digest H b = h_digest H b'.
Proof. exact parent_hash_binds. Qed.
Print Assumptions C71_parent_hash.

(** [ex_three] and [ex_merged3] differ, and merging [ex_path3] makes them equal. *)
Example C71_example : good ex_three 2 /\ good ex_merged3 2 /\ nodes_wf ex_three /\ nodes_wf ex_merged3 /\ wf_update_path ex_path3 /\ tget ex_three 1 <> tget ex_merged3 1 /\
  merge_update_path toy Suite1 ex_three 0 ex_path3 = (ex_merged3, Ok tt) /\ merge_update_path toy Suite1 ex_merged3 0 ex_path3 = (ex_merged3, Ok tt).
Proof. exact c71_example. Qed.

(* ------------------------------------------------------------------------------------------- *)
(** * C72 *)

Theorem C72_keys : forall t d, tsized t d -> tlen t < 4294967296 -> exists ss es, keys t = Ok (ss, es) /\
  (forall k, In k ss <-> exists i l, leaf_at t i = Some l /\ signature_key l = k) /\
  (forall k, In k es <-> exists i l, leaf_at t i = Some l /\ encryption_key l = k).
Proof. exact keys_ok. Qed.
Print Assumptions C72_keys.

(** [checked_history] (SpecMembers.v): every new leaf node was accepted by [leaf_verify] with the keys that [keys] reports. *)
Theorem C72_history : forall P cs t d t', good t d -> distinct_keys t -> checked_history P cs t t' -> distinct_keys t'.
Proof. exact c72_history. Qed.
Print Assumptions C72_history.

(** A leaf node with the encryption key of a parent node is accepted, though: members' keys are all that is reported. *)
Theorem C72_parent_keys : exists P t d l i, good t d /\ accepted P t None l /\ tget t i <> None /\
  (exists p, tget t i = Some (Parent p) /\ pn_encryption_key p = encryption_key l).
Proof. exact c72_parents. Qed.
Print Assumptions C72_parent_keys.

(** In a group of three, a fourth member comes in and the second one changes its encryption key. *)
Example C72_example : good ex_three 2 /\ distinct_keys ex_three /\ checked_history toy Suite1 ex_three ex_four' /\ tget ex_four' 2 = Some (Leaf ex_rekeyed).
Proof. exact (conj ex_three_good (conj ex_three_distinct (conj ex_checked eq_refl))). Qed.
