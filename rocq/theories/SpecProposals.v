(** What a valid proposal list is, in terms of positions in the list. *)
From Verif Require Export WireWF Proposals.
Local Open Scope N_scope.

(** The signature key of a proposed new member. *)
Definition added_key (p : proposal) : option bytes :=
  match p with PAdd a => Some (lp_signature_key (ln_payload (kp_leaf (kp_payload (add_key_package a))))) | _ => None end.
(** The leaf a proposal updates (its sender's) or removes. *)
Definition touched_leaf (p : proposal) (s : N) : option N :=
  match p with PUpdate _ => Some s | PRemove m => Some (rem_removed m) | _ => None end.
Definition psk_of (p : proposal) : option psk_id := match p with PPreSharedKey q => Some (pp_psk q) | _ => None end.
Definition is_gce (p : proposal) : bool := match p with PGroupContextExtensions _ => true | _ => false end.
Definition is_reinit (p : proposal) : bool := match p with PReInit _ => true | _ => false end.
Definition is_external_init (p : proposal) : bool := match p with PExternalInit _ => true | _ => false end.

(** [at_ l i p s]: proposal i is p, sent by s. *)
Definition at_ (ps : list proposal) (senders : list N) (i : nat) (p : proposal) (s : N) : Prop :=
  nth_error ps i = Some p /\ nth_error senders i = Some s.

Record valid_list (ps : list proposal) (senders : list N) (committer : N) : Prop := MkValid {
  vl_length : length ps = length senders;
  vl_add : forall i j p s q t k, at_ ps senders i p s -> at_ ps senders j q t -> added_key p = Some k -> added_key q = Some k -> i = j;
  vl_touched : forall i j p s q t x, at_ ps senders i p s -> at_ ps senders j q t -> touched_leaf p s = Some x -> touched_leaf q t = Some x -> i = j;
  vl_committer : forall i p s, at_ ps senders i p s -> touched_leaf p s <> Some committer;
  vl_psk : forall i j p s q t x, at_ ps senders i p s -> at_ ps senders j q t -> psk_of p = Some x -> psk_of q = Some x -> i = j;
  vl_psk_written : forall i p s x, at_ ps senders i p s -> psk_of p = Some x -> exists b, se_psk_id x = Ok b;
  vl_gce : forall i j p s q t, at_ ps senders i p s -> at_ ps senders j q t -> is_gce p = true -> is_gce q = true -> i = j;
  vl_reinit : forall i p s, at_ ps senders i p s -> is_reinit p = true -> length ps = 1%nat;
  vl_external : forall i p s, at_ ps senders i p s -> is_external_init p = false }.

(** What each error reports. *)
Definition reported (e : error) (ps : list proposal) (senders : list N) (committer : N) : Prop :=
  match e with
  | ProposalsLenNotMatchSendersLen => length ps <> length senders
  | MultipleAddProposalsHaveTheSameSignatureKey => exists i j p s q t k, i <> j /\ at_ ps senders i p s /\ at_ ps senders j q t /\ added_key p = Some k /\ added_key q = Some k
  | UpdateProposalGeneratedByTheCommitter => exists i u, at_ ps senders i (PUpdate u) committer
  | RemoveProposalRemovesTheCommitter => exists i s, at_ ps senders i (PRemove (MkRemove committer)) s
  | MultipleUpdateRemoveProposalsApplyToTheSameLeaf => exists i j p s q t x, i <> j /\ at_ ps senders i p s /\ at_ ps senders j q t /\ touched_leaf p s = Some x /\ touched_leaf q t = Some x
  | MultiplePSKProposalsReferenceTheSamePSKId => exists i j p s q t x, i <> j /\ at_ ps senders i p s /\ at_ ps senders j q t /\ psk_of p = Some x /\ psk_of q = Some x
  | MultipleGroupContextExtensionsProposals => exists i j p s q t, i <> j /\ at_ ps senders i p s /\ at_ ps senders j q t /\ is_gce p = true /\ is_gce q = true
  | ReinitProposalTogetherWithAnyOtherProposal => (1 < length ps)%nat /\ exists i p s, at_ ps senders i p s /\ is_reinit p = true
  | ExternalInitProposalNotAllowed => exists i p s, at_ ps senders i p s /\ is_external_init p = true
  | _ => exists i p s x, at_ ps senders i p s /\ psk_of p = Some x /\ se_psk_id x = Err e
  end.

(** The proposals before the n-th are a valid list without a reinit proposal, and with it they are one with the defect that [e] reports. A reinit proposal is refused for
    any other one in the list, also for those after it. *)
Definition first_refused (e : error) (ps : list proposal) (senders : list N) (committer : N) (n : nat) : Prop :=
  valid_list (firstn n ps) (firstn n senders) committer /\ (forall i p s, (i < n)%nat -> at_ ps senders i p s -> is_reinit p = false) /\
  exists p s, at_ ps senders n p s /\
    if is_reinit p then e = ReinitProposalTogetherWithAnyOtherProposal /\ (1 < length ps)%nat
    else e <> ReinitProposalTogetherWithAnyOtherProposal /\ reported e (firstn (S n) ps) (firstn (S n) senders) committer.

(** The PSK ids proposed can be written and read back: fields have the width of their Rust types. *)
Definition psks_wf (ps : list proposal) : Prop := forall p x, In p ps -> psk_of p = Some x -> wf_psk_id x.

Definition wants_path (p : proposal) : Prop :=
  match p with PUpdate _ | PRemove _ | PExternalInit _ | PGroupContextExtensions _ => True | _ => False end.

Definition reinit_or_branch (id : psk_id) : Prop :=
  exists rs, pi_psk id = PResumption rs /\ (rs_usage rs = UseReinit \/ rs_usage rs = UseBranch).
(** No two positions hold one. *)
Definition at_most_one {A} (Q : A -> Prop) (l : list A) : Prop :=
  forall i j x y, nth_error l i = Some x -> nth_error l j = Some y -> Q x -> Q y -> i = j.
