(** The checks once more, with the standard library's hash sets and hash maps in view: wherever the code has a set or goes through a map, the list that
    stands for it is put into an order that nobody knows, and repetitions may be dropped. *)
From Verif Require Export RatchetTree Proposals KeyPackage Group.
Local Open Scope N_scope.

(** An order of the entries of sets and maps, of every kind. It depends on the entries, and on the run. *)
Definition listing : Type := forall A, list A -> list A.
Definition some_order (o : listing) : Prop := forall A (l : list A) x, In x (o A l) <-> In x l.

(** Models ratchet_tree/mod.rs:366-390 (supported_creds): the map is gone through, and a set is made. *)
Definition supported_creds_in (o : listing) (t : tree) : res (list credential_type) :=
  let* ls := leaves t in
  let counts := fold_left (fun m (il : N * leaf_node) =>
      fold_left (fun m ct => bump ct m) (cap_credentials (lp_capabilities (ln_payload (snd il)))) m) ls [] in
  Ok (o _ (map fst (filter (fun cn : credential_type * N => snd cn =? N.of_nat (length ls)) (o _ counts)))).

(** Models ratchet_tree/leaf_node.rs:466-523 (LeafNode::verify): the set of supported extensions is made at 498-501. *)
Definition leaf_verify_in (o : listing) (P : provider) (l : leaf_node) (op : leaf_options) : res unit :=
  let p := ln_payload l in
  let* sig_ok := leaf_verify_signature P (lo_suite op) l (TIUpdateOrCommit (lo_group_id op) (lo_leaf_index op)) in
  if negb sig_ok then Err LeafNodeSignatureVerificationFailed else
  let ct := credential_type_of (lp_credential p) in
  if negb (mem credential_type_eqb ct (lo_supported_creds op))
  then Err (CredentialTypeUsedByLeafNodeNotSupportedByAllMembers (u16_of_credential_type ct)) else
  let bad_lifetime :=
    match lp_source p with
    | LSKeyPackage lt => (0 <? lo_now op)%Z && negb (lifetime_verify lt (lo_now op))
    | _ => false
    end in
  if bad_lifetime then Err LifetimeVerificationFailed else
  let* _ := check_extensions (o _ (cap_extensions (lp_capabilities p))) (lp_extensions p) in
  if mem bytes_eqb (lp_signature_key p) (lo_signature_keys op) then Err DuplicateSignatureKeyInRatchetTree else
  if mem bytes_eqb (lp_encryption_key p) (lo_encryption_keys op) then Err DuplicateEncryptionKeyInRatchetTree else
  Ok tt.

(** Models the loop at ratchet_tree/mod.rs:438-456. *)
Fixpoint verify_leaves_in (o : listing) (P : provider) (cs : cipher_suite) (gid : bytes) (creds : list credential_type) (now : N -> Z)
    (sks eks : list bytes) (ls : list (N * leaf_node)) : res (list bytes * list bytes) :=
  match ls with
  | [] => Ok (sks, eks)
  | (li, l) :: r =>
      let* _ := leaf_verify_in o P l (MkLeafOptions cs gid li (o _ creds) (o _ sks) (o _ eks) (now li)) in
      verify_leaves_in o P cs gid creds now (o _ (lp_signature_key (ln_payload l) :: sks)) (o _ (lp_encryption_key (ln_payload l) :: eks)) r
  end.
(** Models the loop at ratchet_tree/mod.rs:458-488. *)
Fixpoint check_parents_in (o : listing) (t : tree) (n i : N) (eks : list bytes) (l : list (option node)) : res unit :=
  match l with
  | [] => Ok tt
  | Some (Parent p) :: r =>
      let* _ := check_unmerged t n (i mod 4294967296) (pn_unmerged p) in
      if mem bytes_eqb (pn_encryption_key p) (o _ eks) then Err DuplicateEncryptionKeyInRatchetTree else
      check_parents_in o t n (i + 1) (o _ (pn_encryption_key p :: eks)) r
  | _ :: r => check_parents_in o t n (i + 1) eks r
  end.
(** The loop body of ratchet_tree/mod.rs:628-682: the set of excluded leaves is made at 636-639. *)
Definition check_parent_hash_in (o : listing) (P : provider) (cs : cipher_suite) (t : tree) (x : N) (nd : option node) : res bool :=
  match nd with
  | None => Ok true
  | Some nd =>
      let* c := children x in
      match c with
      | None => Ok true
      | Some (l, r) =>
          match nd with
          | Leaf _ => Ok true
          | Parent p =>
              ok_or_false (tree_hash P cs t l (o _ (pn_unmerged p))) (fun lh =>
              ok_or_false (tree_hash P cs t r (o _ (pn_unmerged p))) (fun rh =>
              ok_or_false (parent_hash P cs p rh) (fun lph =>
              ok_or_false (parent_hash P cs p lh) (fun rph =>
                let* resl := resolve t l in
                let* resr := resolve t r in
                Ok (negb (Bool.eqb (find_parent_hash t resl lph) (find_parent_hash t resr rph)))))))
          end
      end
  end.
(** Models the loop at ratchet_tree/mod.rs:627-684. *)
Fixpoint verify_parent_hashes_from_in (o : listing) (P : provider) (cs : cipher_suite) (t : tree) (i : N) (l : list (option node)) : res bool :=
  match l with
  | [] => Ok true
  | nd :: r =>
      let* b := check_parent_hash_in o P cs t (i mod 4294967296) nd in
      if b then verify_parent_hashes_from_in o P cs t (i + 1) r else Ok false
  end.
(** Models ratchet_tree/mod.rs:414-491 (verify_integrity). *)
Definition verify_integrity_in (o : listing) (P : provider) (t : tree) (ctx : group_context) (now : N -> Z) : res unit :=
  let cs := gc_suite ctx in
  let* h := root_tree_hash P cs t in
  if negb (bytes_eqb h (gc_tree_hash ctx)) then Err TreeHashVerificationFailed else
  let* b := verify_parent_hashes_from_in o P cs t 0 t in
  if negb b then Err ParentHashesVerificationFailed else
  let* creds := supported_creds_in o t in
  let* ls := leaves t in
  let* (_, eks) := verify_leaves_in o P cs (gc_group_id ctx) creds now [] [] ls in
  check_parents_in o t (num_leaves t) 0 eks t.

(** Models framing/proposal.rs:449-509, the loop of verify_proposal_list: three sets. *)
Fixpoint proposal_loop_in (o : listing) (total : nat) (committer : N) (adds : list bytes) (touched : list N) (psks : list bytes) (gce : bool)
    (l : list (proposal * N)) : res unit :=
  match l with
  | [] => Ok tt
  | (PAdd a, _) :: r =>
      let key := lp_signature_key (ln_payload (kp_leaf (kp_payload (add_key_package a)))) in
      if mem bytes_eqb key (o _ adds) then Err MultipleAddProposalsHaveTheSameSignatureKey else
      proposal_loop_in o total committer (o _ (key :: adds)) touched psks gce r
  | (PUpdate _, s) :: r =>
      if s =? committer then Err UpdateProposalGeneratedByTheCommitter else
      if mem N.eqb s (o _ touched) then Err MultipleUpdateRemoveProposalsApplyToTheSameLeaf else
      proposal_loop_in o total committer adds (o _ (s :: touched)) psks gce r
  | (PRemove m, _) :: r =>
      if rem_removed m =? committer then Err RemoveProposalRemovesTheCommitter else
      if mem N.eqb (rem_removed m) (o _ touched) then Err MultipleUpdateRemoveProposalsApplyToTheSameLeaf else
      proposal_loop_in o total committer adds (o _ (rem_removed m :: touched)) psks gce r
  | (PPreSharedKey p, _) :: r =>
      let* b := se_psk_id (pp_psk p) in
      if mem bytes_eqb b (o _ psks) then Err MultiplePSKProposalsReferenceTheSamePSKId else
      proposal_loop_in o total committer adds touched (o _ (b :: psks)) gce r
  | (PGroupContextExtensions _, _) :: r =>
      if gce then Err MultipleGroupContextExtensionsProposals else
      proposal_loop_in o total committer adds touched psks true r
  | (PReInit _, _) :: r =>
      if (1 <? total)%nat then Err ReinitProposalTogetherWithAnyOtherProposal else
      proposal_loop_in o total committer adds touched psks gce r
  | (PExternalInit _, _) :: _ => Err ExternalInitProposalNotAllowed
  end.
(** Models framing/proposal.rs:436-512 (verify_proposal_list). *)
Definition verify_proposal_list_in (o : listing) (ps : list proposal) (senders : list N) (committer : N) : res unit :=
  if negb (Nat.eqb (length ps) (length senders)) then Err ProposalsLenNotMatchSendersLen else
  proposal_loop_in o (length ps) committer [] [] [] false (combine ps senders).

(** Two lists that stand for the same set, and two that stand for the same store. *)
Definition same_set {A} (a b : list A) : Prop := forall x, In x a <-> In x b.
Definition same_store (s s' : key_store) : Prop := forall k, ks_retrieve s k = ks_retrieve s' k.
(** Options of which only the sets are listed differently. *)
Definition same_options (o o' : leaf_options) : Prop :=
  lo_suite o = lo_suite o' /\ lo_group_id o = lo_group_id o' /\ lo_leaf_index o = lo_leaf_index o' /\ lo_now o = lo_now o' /\
  same_set (lo_supported_creds o) (lo_supported_creds o') /\ same_set (lo_signature_keys o) (lo_signature_keys o') /\
  same_set (lo_encryption_keys o) (lo_encryption_keys o').
