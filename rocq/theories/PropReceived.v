(** Property C93: trees that were received and accepted. *)
From Verif Require Import ReceivedFacts.
From Verif Require Import SpecRatchet Verified TreeFacts Examples.
Local Open Scope N_scope.

(* ------------------------------------------------------------------------------------------- *)
(** * C93 *)

(** A tree that was decoded from bytes and passed the integrity check has the size of a complete tree, leaves at leaf
    positions, parents above them, and unmerged leaves inside the tree. C16, C19, C20, C25, C26, C27, C30, C69 and C84 are
    stated for every such tree, *)
Theorem C93_accepted : forall P bs t rest ctx now, de_ratchet_tree bs = Ok (t, rest) -> verify_integrity P t ctx now = Ok tt ->
  exists d, full_size t d /\ shaped t d /\ (forall x nd, tget t x = Some nd -> in_tree d x) /\
    (forall x p u, tget t x = Some (Parent p) -> In u (pn_unmerged p) -> u < 2 ^ d).
Proof. exact c93_accepted. Qed.
Print Assumptions C93_accepted.

(** for every tree the library makes itself, *)
Theorem C93_own : forall t d, good t d -> shaped t d.
Proof. exact good_shaped. Qed.
Print Assumptions C93_own.

(** and for what any history of operations makes of one. *)
Theorem C93_history : forall P cs t d t', shaped t d -> tree_history P cs t t' -> t' = [] \/ exists d', shaped t' d'.
Proof. exact history_shaped. Qed.
Print Assumptions C93_history.

(** Refuted beyond that. After an addition to an accepted tree, no newcomer accepts it, *)
Theorem C93_refuted_add : exists P bs t ctx now l t' i, de_ratchet_tree bs = Ok (t, []) /\ verify_integrity P t ctx now = Ok tt /\ has_room t /\
  (forall h, lp_source (ln_payload l) <> LSCommit h) /\ tree_add t l = Ok t' /\ leaf_at t' i = Some l /\
  forall ctx' now', gc_suite ctx' = gc_suite ctx -> root_tree_hash P (gc_suite ctx) t' = Ok (gc_tree_hash ctx') ->
    verify_integrity P t' ctx' now' = Err ParentHashesVerificationFailed.
Proof. exact c93_add. Qed.
Print Assumptions C93_refuted_add.

(** after a removal from an accepted tree, what its members send is not what they hold, and is rejected, *)
Theorem C93_refuted_remove : exists P bs t ctx now i t' b t'', de_ratchet_tree bs = Ok (t, []) /\ verify_integrity P t ctx now = Ok tt /\
  (exists l, leaf_at t i = Some l) /\ tree_remove t i = Ok t' /\ (exists l, leaf_at t' 0 = Some l) /\
  se_ratchet_tree t' = Ok b /\ de_ratchet_tree b = Ok (t'', []) /\
  forall ctx' now', gc_suite ctx' = gc_suite ctx -> root_tree_hash P (gc_suite ctx) t' = Ok (gc_tree_hash ctx') ->
    verify_integrity P t'' ctx' now' = Err TreeHashVerificationFailed.
Proof. exact c93_newcomer. Qed.
Print Assumptions C93_refuted_remove.

(** and a resolution can name a leaf twice. *)
Theorem C93_refuted_twice : exists P bs t ctx now l t' x, de_ratchet_tree bs = Ok (t, []) /\ verify_integrity P t ctx now = Ok tt /\
  tree_add t l = Ok t' /\ (exists ctx', verify_integrity P t' ctx' now = Ok tt) /\ exists y, resolve t' x = Ok [x; y; y].
Proof. exact c93_twice. Qed.
Print Assumptions C93_refuted_twice.

Example C93_example : de_ratchet_tree (ok_or [] (se_ratchet_tree ex_sided)) = Ok (ex_sided, []) /\
  verify_integrity toy ex_sided (ex_context ex_sided) (fun _ => 5000%Z) = Ok tt.
Proof. exact ex_sided_ok. Qed.
Example C93_example_kept : shaped ex_blank 1 /\ ~ good ex_blank 1.
Proof. exact ex_blank_shaped. Qed.
