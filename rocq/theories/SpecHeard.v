(** What it takes for a member's commit to be made, sent and accepted. *)
From Verif Require Import RatchetTree SpecRatchet SpecMembers SpecMessages SpecSendable SpecSecrets WireWF Messages PassiveCommit.
Local Open Scope N_scope.

(** There is an encoding, of at most [n] bytes. *)
Definition within (n : N) (r : res bytes) : Prop := exists b, r = Ok b /\ N.of_nat (length b) <= n.
(** The provider hashes to digests of ordinary size. *)
Definition hashes (P : provider) (cs : cipher_suite) (h : hash_alg) : Prop := p_hash P cs = Ok h /\ forall b, N.of_nat (length (h_digest h b)) < 65536.

(** What stays in a leaf when it is renewed: everything but the encryption key, the source and the signature. *)
Definition lasting (l : leaf_node) : res bytes :=
  se_opaque (lp_signature_key (ln_payload l)) +++ se_credential (lp_credential (ln_payload l)) +++ se_capabilities (lp_capabilities (ln_payload l)) +++ se_extensions (lp_extensions (ln_payload l)).
(** A member [i] with the leaf [l] and the signing key [sk]: the key is the one of the leaf, everybody supports the credential, the leaf lists its
    extensions and is not huge. *)
Record committer (P : provider) (cs : cipher_suite) (t : tree) (i : N) (l : leaf_node) (sk : bytes) : Prop := {
  ct_member : leaf_at t i = Some l;
  ct_signs : signs P cs sk;
  ct_key : key_pair_ok P cs sk (signature_key l);
  ct_credential : exists creds, supported_creds t = Ok creds /\ In (credential_type_of (lp_credential (ln_payload l))) creds;
  ct_extensions : forall e, In e (lp_extensions (ln_payload l)) -> In (ext_type e) (cap_extensions (lp_capabilities (ln_payload l)));
  ct_readable : wf_leaf_node l;
  ct_size : within 134217728 (lasting l) }.
(** No member has this encryption key. *)
Definition unused (t : tree) (k : bytes) : Prop := forall j m, leaf_at t j = Some m -> encryption_key m <> k.
(** The leaf [l'] is [l] with the encryption key [ek], for a commit, signed anew. *)
Definition renewed (l : leaf_node) (ek : bytes) (l' : leaf_node) : Prop :=
  encryption_key l' = ek /\ signature_key l' = signature_key l /\ lp_credential (ln_payload l') = lp_credential (ln_payload l) /\
  lp_capabilities (ln_payload l') = lp_capabilities (ln_payload l) /\ lp_extensions (ln_payload l') = lp_extensions (ln_payload l) /\
  exists ph, lp_source (ln_payload l') = LSCommit ph.
(** The commit of member [i] to the proposals [ps], with the path [u] or without. *)
Definition commit_of (ctx : group_context) (i : N) (ad : bytes) (ps : list proposal) (u : option update_path) : framed_content :=
  MkFramed (gc_group_id ctx) (gc_epoch ctx) (SMember i) ad (CCommit (MkCommit (map PorProposal ps) u)).
(** What the commit is about is not huge: the context, the additional data and the proposals. *)
Record handy (ctx : group_context) (ad : bytes) (ps : list proposal) : Prop := {
  hy_context : wf_group_context ctx /\ within 134217728 (se_group_context ctx);
  hy_data : N.of_nat (length ad) <= 134217728;
  hy_proposals : Forall wf_proposal ps /\ within 134217728 (se_vector se_proposal_or_ref (map PorProposal ps)) }.

(** An epoch in which a member commits: the place, the signing key, the context and the epoch secret. *)
Record round : Type := MkRound { rd_place : N; rd_key : bytes; rd_context : group_context; rd_epoch : bytes }.
(** [t'] is [t] after the members of the rounds, in turn, have committed, each with an update path, and the commits, as sent, have been accepted. *)
Inductive session (P : provider) (cs : cipher_suite) : tree -> list round -> tree -> Prop :=
| se_nil t : session P cs t [] t
| se_cons t r k mk u b t1 rs t2 : p_hpke P cs = Ok k -> expand_label k (rd_epoch r) (str "membership") [] (nh k) = Ok mk ->
    send_public P cs (rd_context r) (rd_key r) mk (commit_of (rd_context r) (rd_place r) [] [] (Some u)) = Ok b ->
    passive_commit P cs t (rd_context r) (rd_epoch r) b = Ok t1 -> session P cs t1 rs t2 -> session P cs t (r :: rs) t2.
