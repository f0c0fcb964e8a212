(** Properties C73 and C74: a tree as a new member receives it, and what becomes of it (SpecJoin.v). *)
From Verif Require Import JoinFacts ReplicaFacts.
From Verif Require Import WireWF SpecJoin SpecRatchet TreeFacts Examples Group.
Local Open Scope N_scope.

(* ------------------------------------------------------------------------------------------- *)
(** * C73 *)

(** Every tree of a group that started with one member arrives as it was sent: node for node, with the same tree hash,
    and it passes the integrity check exactly when the sender's does. *)
Theorem C73_received : forall P cs t p rest, reachable P cs t -> wf_tree t -> se_ratchet_tree t = Ok p ->
  exists t', de_ratchet_tree (p ++ rest) = Ok (t', rest) /\ (forall x, tget t' x = tget t x) /\
    (forall P' cs', root_tree_hash P' cs' t' = root_tree_hash P' cs' t) /\
    (forall P' ctx now, verify_integrity P' t' ctx now = Ok tt <-> verify_integrity P' t ctx now = Ok tt) /\
    keys t' = keys t /\ supported_creds t' = supported_creds t.
Proof. exact c73. Qed.
Print Assumptions C73_received.

(** The same through the list of extensions that carries it. *)
Theorem C73_extension : forall P cs t raw pre post b rest, reachable P cs t -> wf_tree t -> se_ratchet_tree_extension t = Ok raw ->
  wf_extensions pre -> wf_extensions post -> (forall e, In e pre -> ext_type e <> ExtRatchetTree) ->
  se_extensions (pre ++ MkExtension ExtRatchetTree raw :: post) = Ok b ->
  exists l t', de_extensions (b ++ rest) = Ok (l, rest) /\ find_extension_data l ExtRatchetTree = Some raw /\
    de_exact de_ratchet_tree_extension raw = Ok t' /\ (forall x, tget t' x = tget t x).
Proof. exact c73_extension. Qed.
Print Assumptions C73_extension.

(** The array itself is the same if it has the length of a complete tree. *)
Theorem C73_full : forall P cs t d p rest, reachable P cs t -> full_size t d -> wf_tree t -> se_ratchet_tree t = Ok p ->
  de_ratchet_tree (p ++ rest) = Ok (t, rest).
Proof. exact c73_full. Qed.
Print Assumptions C73_full.

Example C73_example : reachable toy Suite1 ex_old /\ wf_tree ex_old /\ exists p, se_ratchet_tree ex_old = Ok p /\ de_ratchet_tree p = Ok (ex_new, []) /\ ex_new <> ex_old.
Proof. exact ex_old_travels. Qed.

(* ------------------------------------------------------------------------------------------- *)
(** * C74 *)

(** A new member who received the tree and then does what the old members do, as long as they have room for whom they
    add, holds the same tree as they do: the same nodes, the same tree hash, the same keys. *)
Theorem C74_replica_partial : forall P cs t p rest os a, reachable P cs t -> wf_tree t -> se_ratchet_tree t = Ok p -> performed P cs t os a -> a <> [] ->
  exists t' b, de_ratchet_tree (p ++ rest) = Ok (t', rest) /\ performed P cs t' os b /\
    (forall x, tget b x = tget a x) /\ (forall P' cs', root_tree_hash P' cs' b = root_tree_hash P' cs' a) /\ keys b = keys a.
Proof. exact c74_replica. Qed.
Print Assumptions C74_replica_partial.

(** At each step the two have the same outcome, be it a success or a failure. *)
Theorem C74_outcome_partial : forall P cs t t' o, reachable P cs t -> copy_of t t' -> (forall l, o = OpAdd l -> has_room t) ->
  same_outcome (perform P cs t o) (perform P cs t' o).
Proof. exact c74_outcome. Qed.
Print Assumptions C74_outcome_partial.

(** What was received is a copy of what was sent; copies look the same. *)
Theorem C74_copy : forall P cs t p rest t', reachable P cs t -> wf_tree t -> se_ratchet_tree t = Ok p -> de_ratchet_tree (p ++ rest) = Ok (t', rest) -> copy_of t t'.
Proof. exact c74_copy. Qed.
Print Assumptions C74_copy.
Theorem C74_look : forall P cs t t', reachable P cs t -> copy_of t t' ->
  (forall x, tget t' x = tget t x) /\ (forall P' cs', root_tree_hash P' cs' t' = root_tree_hash P' cs' t) /\
  (forall P' ctx now, verify_integrity P' t' ctx now = Ok tt <-> verify_integrity P' t ctx now = Ok tt) /\ keys t' = keys t.
Proof. exact c74_look. Qed.
Print Assumptions C74_look.

(** Without room the two come apart with the next member: who received the tree adds it at leaf 4; who made the tree
    puts it at no leaf at all, and can no longer compute the tree hash. *)
Theorem C74_refuted_split : exists P cs t p t' l a b, reachable P cs t /\ se_ratchet_tree t = Ok p /\ de_ratchet_tree p = Ok (t', []) /\
  tree_add t l = Ok a /\ tree_add t' l = Ok b /\ (forall i, leaf_at a i <> Some l) /\ leaf_at b 4 = Some l /\
  root_tree_hash P cs a = Err InvalidParentNode /\ exists h, root_tree_hash P cs b = Ok h.
Proof. exact c73_split. Qed.
Print Assumptions C74_refuted_split.

(** This is so whenever the two arrays differ and there is no room: an addition has the same outcome for both exactly if there is. *)
Theorem C74_exact : forall P cs t t' l, reachable P cs t -> copy_of t t' -> t' <> t -> tlen t < 1073741824 ->
  (same_outcome (perform P cs t (OpAdd l)) (perform P cs t' (OpAdd l)) <-> has_room t) /\
  (~ has_room t -> exists a b i, tree_add t l = Ok a /\ tree_add t' l = Ok b /\ blank_at a i /\ leaf_at b i = Some l).
Proof. exact c74_exact. Qed.
Print Assumptions C74_exact.

(** The tree of the example of C73, one array entry longer than what is received: a member leaves, one is updated, one comes. *)
Example C74_example : reachable toy Suite1 ex_old /\ exists a, performed toy Suite1 ex_old ex_ops a /\ a <> [] /\ leaf_at a 2 = Some (ex_leaf x09) /\ tlen a = 8.
Proof. exact (conj ex_old_reachable ex_ops_performed). Qed.
