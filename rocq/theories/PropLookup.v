(** Property C33, exactly what looking up a leaf gives. *)
From Verif Require Import LookupFacts.
From Verif Require Import SpecRatchet WireWF Examples TreeFacts LeafFacts.
Local Open Scope N_scope.

(* ------------------------------------------------------------------------------------------- *)
(** * C33 *)

(** A leaf is found exactly where it is the first leaf that has its encryption key, *)
Theorem C33_exact : forall t d node i p, tsized t d -> tlen t < 4294967296 -> wf_leaf_node node -> (forall a l, leaf_at t a = Some l -> wf_leaf_node l) ->
  se_leaf_node node = Ok p ->
  (find_leaf t node = Ok (i, true) <->
   leaf_at t i = Some node /\ forall j l, leaf_at t j = Some l -> lp_encryption_key (ln_payload l) = lp_encryption_key (ln_payload node) -> i <= j).
Proof. exact find_exact. Qed.
Print Assumptions C33_exact.
(** and it is not found if nobody has that key, or the first to have it has another leaf, whose index is then returned. *)
Theorem C33_missed : forall t d node i p, tsized t d -> tlen t < 4294967296 -> se_leaf_node node = Ok p -> find_leaf t node = Ok (i, false) ->
  (i = 0 /\ forall j l, leaf_at t j = Some l -> lp_encryption_key (ln_payload l) <> lp_encryption_key (ln_payload node)) \/
  exists l, leaf_at t i = Some l /\ l <> node /\ lp_encryption_key (ln_payload l) = lp_encryption_key (ln_payload node) /\
    forall j l', leaf_at t j = Some l' -> lp_encryption_key (ln_payload l') = lp_encryption_key (ln_payload node) -> i <= j.
Proof. exact find_missed. Qed.
Print Assumptions C33_missed.

Example C33_missed_example : tsized ex_tree 2 /\ (exists p, se_leaf_node (ex_leaf x77) = Ok p) /\ find_leaf ex_tree (ex_leaf x77) = Ok (0, false).
Proof. split; [left; reflexivity|]. split; [eexists; vm_compute; reflexivity|vm_compute; reflexivity]. Qed.
