(** Properties C48, C49 and C50: proposal lists and welcome PSKs (SpecProposals.v). *)
From Coq Require Import Permutation.
From Verif Require Import ProposalFacts.
From Verif Require Import WireWF SpecProposals Examples.
Local Open Scope N_scope.

(* ------------------------------------------------------------------------------------------- *)
(** * C48 *)

Theorem C48_accepts : forall ps senders committer, psks_wf ps ->
  (verify_proposal_list ps senders committer = Ok tt <-> valid_list ps senders committer).
Proof. exact c48_iff. Qed.
Print Assumptions C48_accepts.

(** A refusal names a defect the list really has. *)
Theorem C48_reason : forall ps senders committer e, psks_wf ps ->
  verify_proposal_list ps senders committer = Err e -> reported e ps senders committer.
Proof. exact c48_reason. Qed.
Print Assumptions C48_reason.

(** It is the defect of the first proposal that cannot be taken with those before it ([first_refused], SpecProposals.v); this says which one it is. *)
Theorem C48_first : forall ps senders committer e, psks_wf ps -> length ps = length senders ->
  verify_proposal_list ps senders committer = Err e -> exists n, first_refused e ps senders committer n.
Proof. exact c48_first. Qed.
Print Assumptions C48_first.
Theorem C48_first_unique : forall e ps senders committer n e' n',
  first_refused e ps senders committer n -> first_refused e' ps senders committer n' -> e = e' /\ n = n'.
Proof. exact c48_first_unique. Qed.
Print Assumptions C48_first_unique.

(** The order of the proposals does not matter. *)
Theorem C48_order : forall ps senders ps' senders' committer, psks_wf ps ->
  length ps = length senders -> length ps' = length senders' -> Permutation (combine ps senders) (combine ps' senders') ->
  (verify_proposal_list ps senders committer = Ok tt <-> verify_proposal_list ps' senders' committer = Ok tt).
Proof. exact c48_order. Qed.
Print Assumptions C48_order.

Definition ex_props : list proposal :=
  [PAdd (MkAdd (ex_kp x01)); PUpdate (MkUpdate (ex_leaf x01)); PRemove (MkRemove 3); PPreSharedKey (MkPskProposal ex_psk); PGroupContextExtensions (MkGce [])].
Example C48_example : psks_wf ex_props /\ verify_proposal_list ex_props [1; 2; 1; 1; 1] 1 = Ok tt /\
  verify_proposal_list ex_props [1; 3; 1; 1; 1] 1 = Err MultipleUpdateRemoveProposalsApplyToTheSameLeaf /\
  verify_proposal_list ex_props [1; 1; 1; 1; 1] 1 = Err UpdateProposalGeneratedByTheCommitter /\
  verify_proposal_list ex_props [1; 2; 1; 1; 1] 3 = Err RemoveProposalRemovesTheCommitter /\
  verify_proposal_list (ex_props ++ [PAdd (MkAdd (ex_kp x01))]) [1; 2; 1; 1; 1; 1] 1 = Err MultipleAddProposalsHaveTheSameSignatureKey /\
  verify_proposal_list (ex_props ++ [PPreSharedKey (MkPskProposal ex_psk)]) [1; 2; 1; 1; 1; 1] 1 = Err MultiplePSKProposalsReferenceTheSamePSKId /\
  verify_proposal_list [PReInit (MkReInit (str "g") MLS10 Suite1 [])] [1] 1 = Ok tt /\
  verify_proposal_list (PReInit (MkReInit (str "g") MLS10 Suite1 []) :: ex_props) [1; 1; 2; 1; 1; 1] 1 = Err ReinitProposalTogetherWithAnyOtherProposal.
Proof.
  split.
  - intros p x I E. repeat (destruct I as [<-|I]; [cbn in E; try discriminate; injection E as <-; vm_compute; auto|]). destruct I.
  - vm_compute. tauto.
Qed.

(* ------------------------------------------------------------------------------------------- *)
(** * C49 *)

Theorem C49_needs_path : forall ps, proposal_list_needs_path ps = true <-> ps = [] \/ exists p, In p ps /\ wants_path p.
Proof. exact c49_iff. Qed.
Print Assumptions C49_needs_path.

Example C49_example : proposal_list_needs_path ex_props = true /\ proposal_list_needs_path [PAdd (MkAdd (ex_kp x01))] = false.
Proof. split; reflexivity. Qed.

(* ------------------------------------------------------------------------------------------- *)
(** * C50: a welcome with fewer than 2^31 PSK ids (the counter is an i32) *)

Theorem C50_single : forall s, N.of_nat (length (gs_psk_ids s)) < 2147483648 ->
  exists b, single_reinit_or_branch s = Ok b /\ (b = true <-> at_most_one reinit_or_branch (gs_psk_ids s)).
Proof. exact c50_iff. Qed.
Print Assumptions C50_single.

Example C50_example :
  single_reinit_or_branch (MkGroupSecrets [] None [MkPskId (PResumption (MkResumption UseReinit [] 1)) []; MkPskId (PExternal []) []]) = Ok true /\
  single_reinit_or_branch (MkGroupSecrets [] None [MkPskId (PResumption (MkResumption UseReinit [] 1)) []; MkPskId (PResumption (MkResumption UseBranch [] 1)) []]) = Ok false.
Proof. split; reflexivity. Qed.
