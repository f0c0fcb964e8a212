(** Messages that arrive one after the other, and what of them has arrived. *)
From Verif Require Export SpecCodec SpecLayout.
Local Open Scope N_scope.

(** Decoding [bs] again and again gives the values [l] and leaves [rest]. *)
Inductive reads {A} (de : bytes -> res (A * bytes)) : bytes -> list A -> bytes -> Prop :=
| reads_none bs : reads de bs [] bs
| reads_one bs a r l rest : de bs = Ok (a, r) -> reads de r l rest -> reads de bs (a :: l) rest.

(** [q] is a part of the beginning of the encoding [p], but not all of it. *)
Definition cut_of (p q : bytes) : Prop := exists x, p = q ++ x /\ x <> [].

(** What comes before the lifetime in a message whose last, or only, leaf was made for a key package and is not inside a vector: in a leaf; in
    a key package; in a proposal; in a commit, whose leaf is that of its path; in a message (RFC 9420, Sections 6, 7.2, 10 and 12). *)
Definition before_in_leaf (l : leaf_node) : option bytes :=
  let p := ln_payload l in
  match lp_source p with
  | LSKeyPackage _ => Some (opaqueV (lp_encryption_key p) ++ opaqueV (lp_signature_key p) ++ rfc_credential (lp_credential p) ++ rfc_capabilities (lp_capabilities p) ++ uint8 1)
  | LSUpdate | LSCommit _ => None
  end.
Definition after (h : bytes) (o : option bytes) : option bytes := option_map (fun b => h ++ b) o.
Definition before_in_key_package (k : key_package) : option bytes :=
  let t := kp_payload k in after (rfc_version (kp_version t) ++ rfc_suite (kp_suite t) ++ opaqueV (kp_init_key t)) (before_in_leaf (kp_leaf t)).
Definition before_in_proposal (p : proposal) : option bytes :=
  match p with
  | PAdd a => after (uint16 1) (before_in_key_package (add_key_package a))
  | PUpdate u => after (uint16 2) (before_in_leaf (upd_leaf u))
  | _ => None
  end.
Definition before_in_commit (c : commit) : option bytes :=
  match cm_path c with
  | Some u => after (vectorV rfc_proposal_or_ref (cm_proposals c) ++ uint8 1) (before_in_leaf (up_leaf u))
  | None => None
  end.
Definition before_in_content (c : content) : option bytes :=
  match c with
  | CApplication _ => None
  | CProposal p => after (uint8 2) (before_in_proposal p)
  | CCommit m => after (uint8 3) (before_in_commit m)
  end.
Definition before_in_framed (f : framed_content) : option bytes :=
  after (opaqueV (fc_group_id f) ++ uint64 (fc_epoch f) ++ rfc_sender (fc_sender f) ++ opaqueV (fc_auth_data f)) (before_in_content (fc_content f)).
Definition before_lifetime (m : mls_message) : option bytes :=
  match mm_wire m with
  | WMPublic p => after (rfc_version (mm_version m) ++ uint16 1) (before_in_framed (pm_content p))
  | WMKeyPackage k => after (rfc_version (mm_version m) ++ uint16 5) (before_in_key_package k)
  | WMPrivate _ | WMWelcome _ | WMGroupInfo _ => None
  end.
(** Of the lifetime, two integers of 8 bytes, [n] bytes of the message have only the first in full. *)
Definition cut_in_lifetime (before : option bytes) (n : nat) : Prop :=
  exists b, before = Some b /\ (length b + 8 <= n < length b + 16)%nat.
