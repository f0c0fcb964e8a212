(** What a client asks of a commit (RFC 9420, Section 12.4.2, as far as the project's own client goes). *)
From Verif Require Export SpecPassive SpecMembers SpecAuth PassiveCommit.
Local Open Scope N_scope.

(** The update path [u] of the member [i], whose leaf is [l]: a leaf node for commits that is signed for this place, has a
    credential everybody supports, lists its extensions, and has new keys (the signature key may be the old one); new keys on the
    path; and it fits the tree. *)
Record path_ok (P : provider) (cs : cipher_suite) (t : tree) (d : N) (ctx : group_context) (i : N) (l : leaf_node) (u : update_path) (t' : tree) : Prop := {
  po_signed : leaf_signed P cs (up_leaf u) (gc_group_id ctx) i;
  po_credential : exists creds, supported_creds t = Ok creds /\ In (credential_type_of (lp_credential (ln_payload (up_leaf u)))) creds;
  po_extensions : forall e, In e (lp_extensions (ln_payload (up_leaf u))) -> In (ext_type e) (cap_extensions (lp_capabilities (ln_payload (up_leaf u))));
  po_signature_key : forall j m, leaf_at t j = Some m -> signature_key m = signature_key (up_leaf u) -> signature_key m = signature_key l;
  po_new_keys : forall j m, leaf_at t j = Some m -> encryption_key m <> encryption_key (up_leaf u) /\
    forall n, In n (up_nodes u) -> encryption_key m <> upn_encryption_key n;
  po_merged : merged P cs t d i u t' }.

(** The message [m] is a commit for the group with the tree [t], the context [ctx] and the epoch secret [epoch]; [t'] is the tree
    afterwards. *)
Record commit_ok (P : provider) (cs : cipher_suite) (sa : sig_alg) (h : hash_alg) (k : hpke_alg) (t : tree) (d : N) (ctx : group_context) (epoch : bytes)
    (m : public_message) (i : N) (l : leaf_node) (c : commit) (ps : list proposal) (t' : tree) : Prop := {
  (** It is of this epoch and from a member, who signed it for this state of the group. *)
  co_epoch : fc_epoch (pm_content m) = gc_epoch ctx;
  co_sender : fc_sender (pm_content m) = SMember i /\ leaf_at t i = Some l;
  co_signed : exists x, content_signed WFPublicMessage (pm_content m) ctx x /\ s_verify sa (signature_key l) x (ad_signature (pm_auth m)) = Ok tt;
  (** It has the tag of the epoch's membership key. *)
  co_tag : exists mk x, expand_label k epoch (str "membership") [] (nh k) = Ok mk /\ membership_input m ctx x /\ pm_tag m = Some (h_mac h mk x);
  (** It holds a valid list of proposals, in full, none of which is for a PSK, and they can be carried out. *)
  co_commit : fc_content (pm_content m) = CCommit c /\ cm_proposals c = map PorProposal ps;
  co_list : valid_list ps (repeat i (length ps)) i;
  co_no_psk : forall p, In p ps -> psk_of p = None;
  co_applies : exists t2, tree_apply t ps (repeat i (length ps)) = Ok t2;
  (** A path is there if one is needed. *)
  co_path : match cm_path c with
            | None => ps <> [] /\ (forall p, In p ps -> ~ wants_path p) /\ t' = t
            | Some u => path_ok P cs t d ctx i l u t'
            end }.

(** The bytes [b] hold a public message with the commit [c] of member [i], in which the proposals [ps] stand in full. *)
Definition carries (b : bytes) (i : N) (c : commit) (ps : list proposal) : Prop :=
  exists v m rest, de_mls_message b = Ok (MkMLSMessage v (WMPublic m), rest) /\ fc_sender (pm_content m) = SMember i /\
    fc_content (pm_content m) = CCommit c /\ cm_proposals c = map PorProposal ps.
