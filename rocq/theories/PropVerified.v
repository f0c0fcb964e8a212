(** Properties C23 and C24: what the tree hash and integrity verification promise. *)
From Verif Require Import Verified.
Local Open Scope N_scope.

(* ------------------------------------------------------------------------------------------- *)
(** * C23 *)

(** [collision] is a pair of different byte strings with the same digest, each hashed for a node of one of the two
    trees (SpecRatchet.v). The two trees may have different sizes. *)
Theorem C23_tree_hash : forall P cs t t' d d' h, tsized t d -> tsized t' d' -> tlen t < 4294967296 -> tlen t' < 4294967296 ->
  nodes_wf t -> nodes_wf t' -> root_tree_hash P cs t = Ok h -> root_tree_hash P cs t' = Ok h ->
  (d = d' /\ forall x, in_tree d x -> tget t x = tget t' x) \/ collision P cs t t'.
Proof. exact c23. Qed.
Print Assumptions C23_tree_hash.

(** On well-formed trees this is every node. *)
Theorem C23_well_formed : forall P cs t t' d d' h, good t d -> good t' d' -> nodes_wf t -> nodes_wf t' ->
  root_tree_hash P cs t = Ok h -> root_tree_hash P cs t' = Ok h ->
  (forall x, tget t x = tget t' x) \/ collision P cs t t'.
Proof. exact c23_good. Qed.
Print Assumptions C23_well_formed.

(** An injective digest has no collision. *)
Theorem C23_no_collision : forall P cs t t',
  (forall H a b, p_hash P cs = Ok H -> h_digest H a = h_digest H b -> a = b) -> ~ collision P cs t t'.
Proof. exact no_collision. Qed.
Print Assumptions C23_no_collision.

(** The slot beyond the root's subtree, which a cut array has (C19), is not covered. *)
Theorem C23_refuted_cut : exists P cs t t' d h, tsized t d /\ tsized t' d /\ nodes_wf t /\ nodes_wf t' /\
  root_tree_hash P cs t = Ok h /\ root_tree_hash P cs t' = Ok h /\ t <> t' /\
  forall H a b, p_hash P cs = Ok H -> h_digest H a = h_digest H b -> a = b.
Proof. exact c23_refuted. Qed.
Print Assumptions C23_refuted_cut.

Example C23_example : good ex_tree 2 /\ exists h, root_tree_hash toy Suite1 ex_tree = Ok h.
Proof. split; [exact ex_tree_good|]. eexists. vm_compute. reflexivity. Qed.

(* ------------------------------------------------------------------------------------------- *)
(** * C24 *)

(** [verified] (SpecRatchet.v) lists the conditions: root tree hash, parent hashes, each member valid, distinct
    signature keys, distinct encryption keys, unmerged leaves below their parent and listed in between. Trees decoded
    from bytes have a full array, so the last hypothesis holds for them. *)
Theorem C24_integrity : forall P t ctx now d, tsized t d -> tlen t < 4294967296 ->
  (forall x nd, tget t x = Some nd -> in_tree d x) ->
  (verify_integrity P t ctx now = Ok tt <-> verified P t ctx now d).
Proof. exact verify_integrity_iff. Qed.
Print Assumptions C24_integrity.

Theorem C24_kinds : forall P t ctx now d, tsized t d -> tlen t < 4294967296 ->
  (forall x nd, tget t x = Some nd -> in_tree d x) -> verify_integrity P t ctx now = Ok tt ->
  (forall i p, tget t (2 * i) <> Some (Parent p)) /\ (forall i l, tget t (2 * i + 1) <> Some (Leaf l)).
Proof. exact c24_kinds. Qed.
Print Assumptions C24_kinds.

(** Unmerged leaves need not be members. *)
Theorem C24_refuted_blank : exists P t ctx now k j p u, full_size t 1 /\ verify_integrity P t ctx now = Ok tt /\
  tget t (node_at k j) = Some (Parent p) /\ In u (pn_unmerged p) /\ blank_at t u.
Proof. exact c24_refuted_blank. Qed.
Print Assumptions C24_refuted_blank.

(** A received tree can make the check panic. *)
Theorem C24_refuted_panics : exists P t ctx now b, full_size t 1 /\ se_ratchet_tree t = Ok b /\ de_ratchet_tree b = Ok (t, []) /\
  verify_integrity P t ctx now = Panic.
Proof. exact c24_refuted_panics. Qed.
Print Assumptions C24_refuted_panics.

Theorem C24_refuted_empty : forall P ctx now, verify_integrity P [] ctx now = Panic.
Proof. exact c24_refuted_empty. Qed.
Print Assumptions C24_refuted_empty.

Example C24_example : tsized ex_verified 1 /\ (forall x nd, tget ex_verified x = Some nd -> in_tree 1 x) /\
  verify_integrity toy ex_verified (ex_context ex_verified) (fun _ => 5000%Z) = Ok tt.
Proof. exact ex_verified_ok. Qed.
