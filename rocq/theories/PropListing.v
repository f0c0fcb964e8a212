(** Property C122: no result depends on the order in which hash sets and hash maps list their entries (SpecListing.v). *)
From Verif Require Import SpecListing ListingFacts LeafFacts Verified PropProposals Examples.
Local Open Scope N_scope.

(* ------------------------------------------------------------------------------------------- *)
(** * C122 *)

(** Whatever the order, every check gives the same result, errors included. *)
Theorem C122_tree : forall o P t ctx now, some_order o -> verify_integrity_in o P t ctx now = verify_integrity P t ctx now.
Proof. exact tree_listing. Qed.
Print Assumptions C122_tree.
Theorem C122_leaf : forall o P l op op', some_order o -> same_options op op' -> leaf_verify_in o P l op = leaf_verify P l op'.
Proof. exact leaf_listing. Qed.
Print Assumptions C122_leaf.
Theorem C122_proposals : forall o ps senders committer, some_order o -> verify_proposal_list_in o ps senders committer = verify_proposal_list ps senders committer.
Proof. exact list_listing. Qed.
Print Assumptions C122_proposals.
(** The set of excluded leaves of a tree hash. *)
Theorem C122_hash : forall P cs t a b x, same_set a b -> tree_hash P cs t x a = tree_hash P cs t x b.
Proof. exact same_hash. Qed.
Print Assumptions C122_hash.
(** The set of supported credentials that callers get is the same set. *)
Theorem C122_credentials : forall o t, some_order o ->
  match supported_creds_in o t, supported_creds t with
  | Ok a, Ok b => same_set a b
  | Err e, Err e' => e = e'
  | Panic, Panic | Hang, Hang => True
  | _, _ => False
  end.
Proof. exact creds_listing. Qed.
Print Assumptions C122_credentials.
(** Two stores with the same entries stay so, and joining and building give the same results with them. *)
Theorem C122_join : forall P s s' w, same_store s s' ->
  same_store (fst (from_welcome P s w)) (fst (from_welcome P s' w)) /\ snd (from_welcome P s w) = snd (from_welcome P s' w).
Proof. exact join_listing. Qed.
Print Assumptions C122_join.
Theorem C122_build : forall P f1 f2 s s' b v cs cred skp, same_store s s' ->
  same_store (fst (key_package_build P f1 f2 s b v cs cred skp)) (fst (key_package_build P f1 f2 s' b v cs cred skp)) /\
  snd (key_package_build P f1 f2 s b v cs cred skp) = snd (key_package_build P f1 f2 s' b v cs cred skp).
Proof. exact build_listing. Qed.
Print Assumptions C122_build.

Definition ex_backwards : listing := fun A l => rev l.
Example C122_example : some_order ex_backwards /\
  verify_integrity_in ex_backwards toy ex_verified (ex_context ex_verified) (fun _ => 5000%Z) = Ok tt /\
  verify_proposal_list_in ex_backwards ex_props [1; 3; 1; 1; 1] 1 = Err MultipleUpdateRemoveProposalsApplyToTheSameLeaf /\
  same_store [([x01], [x0a]); ([x02], [x0b])] [([x02], [x0b]); ([x01], [x0a])].
Proof.
  split; [intros A l x; symmetry; apply in_rev|]. split; [vm_compute; reflexivity|]. split; [vm_compute; reflexivity|].
  intros k. cbn [ks_retrieve]. destruct (bytes_eqb k [x01]) eqn:A, (bytes_eqb k [x02]) eqn:B; try reflexivity.
  apply TreePaths.bytes_eqb_eq in A, B. congruence.
Qed.
