(** Model of the checks on proposal lists (rmls/src/framing/proposal.rs) and on the PSKs of a welcome
    (rmls/src/framing/group_info.rs). *)
From Verif Require Export Crypto LeafNode.
Local Open Scope N_scope.

(** Models framing/proposal.rs:449-509, the loop of verify_proposal_list over the zipped lists. The three hash sets
    are lists; [total] is [proposals.len()]. *)
Fixpoint proposal_loop (total : nat) (committer : N) (adds : list bytes) (touched : list N) (psks : list bytes) (gce : bool)
    (l : list (proposal * N)) : res unit :=
  match l with
  | [] => Ok tt
  | (PAdd a, _) :: r =>
      let key := lp_signature_key (ln_payload (kp_leaf (kp_payload (add_key_package a)))) in
      if mem bytes_eqb key adds then Err MultipleAddProposalsHaveTheSameSignatureKey else
      proposal_loop total committer (key :: adds) touched psks gce r
  | (PUpdate _, s) :: r =>
      if s =? committer then Err UpdateProposalGeneratedByTheCommitter else
      if mem N.eqb s touched then Err MultipleUpdateRemoveProposalsApplyToTheSameLeaf else
      proposal_loop total committer adds (s :: touched) psks gce r
  | (PRemove m, _) :: r =>
      if rem_removed m =? committer then Err RemoveProposalRemovesTheCommitter else
      if mem N.eqb (rem_removed m) touched then Err MultipleUpdateRemoveProposalsApplyToTheSameLeaf else
      proposal_loop total committer adds (rem_removed m :: touched) psks gce r
  | (PPreSharedKey p, _) :: r =>
      let* b := se_psk_id (pp_psk p) in
      if mem bytes_eqb b psks then Err MultiplePSKProposalsReferenceTheSamePSKId else
      proposal_loop total committer adds touched (b :: psks) gce r
  | (PGroupContextExtensions _, _) :: r =>
      if gce then Err MultipleGroupContextExtensionsProposals else
      proposal_loop total committer adds touched psks true r
  | (PReInit _, _) :: r =>
      if (1 <? total)%nat then Err ReinitProposalTogetherWithAnyOtherProposal else
      proposal_loop total committer adds touched psks gce r
  | (PExternalInit _, _) :: _ => Err ExternalInitProposalNotAllowed
  end.

(** Models framing/proposal.rs:436-512 (verify_proposal_list). *)
Definition verify_proposal_list (ps : list proposal) (senders : list N) (committer : N) : res unit :=
  if negb (Nat.eqb (length ps) (length senders)) then Err ProposalsLenNotMatchSendersLen else
  proposal_loop (length ps) committer [] [] [] false (combine ps senders).

(** Models the loop at framing/proposal.rs:519-529. *)
Fixpoint any_needs_path (ps : list proposal) : bool :=
  match ps with
  | [] => false
  | (PUpdate _ | PRemove _ | PExternalInit _ | PGroupContextExtensions _) :: _ => true
  | _ :: r => any_needs_path r
  end.
(** Models framing/proposal.rs:514-532 (proposal_list_needs_path). *)
Definition proposal_list_needs_path (ps : list proposal) : bool :=
  match ps with [] => true | _ => any_needs_path ps end.

(** Models the loop at framing/group_info.rs:170-178; the counter is an i32, which a list of more than 2^31 - 1 entries overflows. *)
Fixpoint count_reinit_branch (ids : list psk_id) (n : N) : res N :=
  match ids with
  | [] => Ok n
  | id :: r =>
      match pi_psk id with
      | PResumption rs =>
          match rs_usage rs with
          | UseReinit | UseBranch => if n =? 2147483647 then Panic else count_reinit_branch r (n + 1)
          | UseApplication => count_reinit_branch r n
          end
      | PExternal _ => count_reinit_branch r n
      end
  end.
(** Models framing/group_info.rs:169-180 (verify_single_reinit_or_branch_psk). *)
Definition single_reinit_or_branch (s : group_secrets) : res bool :=
  let* n := count_reinit_branch (gs_psk_ids s) 0 in Ok (n <=? 1).
