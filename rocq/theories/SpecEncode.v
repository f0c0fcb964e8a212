(** What encoding costs. The functions below do what the encoders of Wire.v and Serde.v with the same names ([se_] for [ce_]) do, and count
    while they do it. A step is: writing one byte into a buffer; setting up the buffer of its own that a vector is first written to; going
    once through the loop over the elements of a vector; looking at one place at the end of a ratchet tree. Simplified: that a buffer grows
    and its content is moved (BytesMut at utilities/serde/mod.rs:6 doubles its room) is not counted. That they do the same is part of C114
    ([makes] below). *)
From Verif Require Export SpecDecode.
Local Open Scope N_scope.

(** Writing bytes, as at utilities/serde/mod.rs:67 *)
Definition c_put (v : bytes) : counted bytes := (Ok v, N.of_nat (length v)).
(** utilities/serde/mod.rs:40 *)
Definition c_put_u8 (n : N) : counted bytes := c_put (be 1 n).
(** utilities/serde/mod.rs:42 *)
Definition c_put_u16 (n : N) : counted bytes := c_put (be 2 n).
(** utilities/serde/mod.rs:44 *)
Definition c_put_u32 (n : N) : counted bytes := c_put (be 4 n).
(** framing/mod.rs:502 *)
Definition c_put_u64 (n : N) : counted bytes := c_put (be 8 n).
(** Two writes into the same buffer, as at utilities/serde/mod.rs:65-67: the second adds to what the first has written. *)
Definition c_then (x y : counted bytes) : counted bytes := let+ a := x in let+ b := y in ret (a ++ b)%list.
Notation "x +-+ y" := (c_then x y) (at level 60, right associativity).

(** utilities/serde/mod.rs:38-49 *)
Definition ce_varint (n : N) : counted bytes :=
  if n <? N.shiftl 1 6 then c_put_u8 n
  else if n <? N.shiftl 1 14 then c_put_u16 (N.lor (N.shiftl 1 14) n)
  else if n <? N.shiftl 1 30 then c_put_u32 (N.lor (N.shiftl 2 30) n)
  else fail VarintExceeds30Bits.
(** utilities/serde/mod.rs:60-70 *)
Definition ce_opaque (v : bytes) : counted bytes :=
  if 2 ^ 32 - 1 <=? N.of_nat (length v) then fail OpaqueSizeExceedsMaximumValueOfU32
  else ce_varint (N.of_nat (length v)) +-+ c_put v.
(** utilities/serde/mod.rs:96-99 *)
Fixpoint ce_elems {A} (g : A -> counted bytes) (l : list A) : counted bytes :=
  match l with
  | [] => ret []
  | a :: r => costing 1 (g a +-+ ce_elems g r)
  end.
(** utilities/serde/mod.rs:89-104 *)
Definition ce_vector {A} (g : A -> counted bytes) (l : list A) : counted bytes :=
  costing 1 (let+ raw := ce_elems g l in ce_opaque raw).
(** utilities/serde/mod.rs:119-123 *)
Definition ce_optflag (b : bool) : counted bytes := c_put_u8 (if b then 1 else 0).
(** ratchet_tree/mod.rs:297-301, framing/commit.rs:46-53, framing/group_info.rs:152-158 *)
Definition ce_option {A} (g : A -> counted bytes) (o : option A) : counted bytes :=
  match o with
  | None => ce_optflag false
  | Some a => ce_optflag true +-+ g a
  end.

(** crypto/mod.rs:37-45 *)
Definition ce_secret_key : secret_key -> counted bytes := ce_opaque.
(** crypto/credential.rs:71-79 *)
Definition ce_identity : identity -> counted bytes := ce_opaque.
(** crypto/credential.rs:106-114 *)
Definition ce_certificate : certificate -> counted bytes := ce_opaque.
(** crypto/credential.rs:192-208 *)
Definition ce_credential (c : credential) : counted bytes :=
  c_put_u16 (u16_of_credential_type (credential_type_of c)) +-+
  match c with
  | CredBasic i => ce_identity i
  | CredX509 l => ce_vector ce_certificate l
  end.
(** crypto/provider/mod.rs:87-96 *)
Definition ce_signature_scheme (s : signature_scheme) : counted bytes :=
  c_put_u16 (u16_of_signature_scheme s).
(** crypto/key_pair.rs:32-42 *)
Definition ce_signature_key_pair (k : signature_key_pair) : counted bytes :=
  ce_secret_key (skp_private k) +-+ ce_secret_key (skp_public k) +-+ ce_signature_scheme (skp_scheme k).
(** crypto/key_pair.rs:83-92 *)
Definition ce_hpke_key_pair (k : hpke_key_pair) : counted bytes :=
  ce_secret_key (hkp_private k) +-+ ce_secret_key (hkp_public k).
(** framing/mod.rs:95-104 *)
Definition ce_content_type (c : content_type) : counted bytes :=
  c_put_u8 match c with CTApplication => 1 | CTProposal => 2 | CTCommit => 3 end.
(** framing/mod.rs:218-227 *)
Definition ce_sender_type (c : sender_type) : counted bytes :=
  c_put_u8 match c with STMember => 1 | STExternal => 2 | STNewMemberProposal => 3 | STNewMemberCommit => 4 end.
(** framing/mod.rs:275-293 *)
Definition ce_sender (s : sender) : counted bytes :=
  ce_sender_type (sender_type_of s) +-+
  match s with
  | SMember v => c_put_u32 v
  | SExternal v => c_put_u32 v
  | SNewMemberProposal | SNewMemberCommit => ret []
  end.
(** framing/mod.rs:356-366 *)
Definition ce_wire_format (w : wire_format) : counted bytes :=
  c_put_u16 match w with
          | WFPublicMessage => 1 | WFPrivateMessage => 2 | WFWelcome => 3
          | WFGroupInfo => 4 | WFKeyPackage => 5 end.
(** extensibility/mod.rs:120-123 *)
Definition ce_extension (e : extension) : counted bytes :=
  c_put_u16 (u16_of_extension_type (ext_type e)) +-+ ce_opaque (ext_data e).
(** extensibility/mod.rs:115-126 *)
Definition ce_extensions : extensions -> counted bytes := ce_vector ce_extension.
(** extensibility/mod.rs:168-176 *)
Definition ce_application_id : bytes -> counted bytes := ce_opaque.
(** extensibility/mod.rs:461-469 *)
Definition ce_unknown_extension : bytes -> counted bytes := ce_opaque.
(** extensibility/mod.rs:368-376 *)
Definition ce_external_pub : bytes -> counted bytes := ce_secret_key.
(** extensibility/mod.rs:421-430 *)
Definition ce_external_senders (e : external_senders) : counted bytes :=
  ce_secret_key (es_signature_key e) +-+ ce_credential (es_credential e).
(** framing/proposal.rs:73-82 *)
Definition ce_proposal_type (p : proposal_type) : counted bytes := c_put_u16 (u16_of_proposal_type p).
(** ratchet_tree/leaf_node.rs:150-193; extensibility/mod.rs:307-332 *)
Definition ce_u16_as {A} (g : A -> N) (a : A) : counted bytes := c_put_u16 (g a).
(** extensibility/mod.rs:301-336 *)
Definition ce_required_capabilities (r : required_capabilities) : counted bytes :=
  ce_vector (ce_u16_as u16_of_extension_type) (rc_extensions r) +-+
  ce_vector (ce_u16_as u16_of_proposal_type) (rc_proposals r) +-+
  ce_vector (ce_u16_as u16_of_credential_type) (rc_credentials r).
(** ratchet_tree/leaf_node.rs:229-239 *)
Definition ce_lifetime (l : lifetime) : counted bytes := c_put_u64 (not_before l) +-+ c_put_u64 (not_after l).
(** ratchet_tree/leaf_node.rs:46-66 *)
Definition ce_leaf_node_source (s : leaf_node_source) : counted bytes :=
  match s with
  | LSKeyPackage l => c_put_u8 1 +-+ ce_lifetime l
  | LSUpdate => c_put_u8 2
  | LSCommit h => c_put_u8 3 +-+ ce_opaque h
  end.
(** ratchet_tree/leaf_node.rs:144-197 *)
Definition ce_capabilities (c : capabilities) : counted bytes :=
  ce_vector (ce_u16_as u16_of_version) (cap_versions c) +-+
  ce_vector (ce_u16_as u16_of_cipher_suite) (cap_suites c) +-+
  ce_vector (ce_u16_as u16_of_extension_type) (cap_extensions c) +-+
  ce_vector (ce_u16_as u16_of_proposal_type) (cap_proposals c) +-+
  ce_vector (ce_u16_as u16_of_credential_type) (cap_credentials c).
(** ratchet_tree/leaf_node.rs:304-317 *)
Definition ce_leaf_payload (p : leaf_node_payload) : counted bytes :=
  ce_opaque (lp_encryption_key p) +-+ ce_opaque (lp_signature_key p) +-+
  ce_credential (lp_credential p) +-+ ce_capabilities (lp_capabilities p) +-+
  ce_leaf_node_source (lp_source p) +-+ ce_extensions (lp_extensions p).
(** ratchet_tree/leaf_node.rs:339-348 *)
Definition ce_leaf_node (l : leaf_node) : counted bytes :=
  ce_leaf_payload (ln_payload l) +-+ ce_opaque (ln_signature l).
(** ratchet_tree/leaf_node.rs:364-389 *)
Definition ce_leaf_node_tbs (p : leaf_node_payload) (t : tree_info_tbs) : counted bytes :=
  ce_leaf_payload p +-+
  match lp_source p with
  | LSUpdate | LSCommit _ =>
      match t with
      | TIUpdateOrCommit g i => ce_opaque g +-+ c_put_u32 i
      | TIKeyPackage => ret []
      end
  | LSKeyPackage _ => ret []
  end.
(** ratchet_tree/parent_node.rs:52-69 *)
Definition ce_parent_node (p : parent_node) : counted bytes :=
  ce_opaque (pn_encryption_key p) +-+ ce_opaque (pn_parent_hash p) +-+ ce_vector c_put_u32 (pn_unmerged p).
(** ratchet_tree/mod.rs:52-62 *)
Definition ce_hpke_ciphertext (h : hpke_ciphertext) : counted bytes :=
  ce_opaque (hc_kem_output h) +-+ ce_opaque (hc_ciphertext h).
(** ratchet_tree/mod.rs:92-107 *)
Definition ce_update_path_node (u : update_path_node) : counted bytes :=
  ce_opaque (upn_encryption_key u) +-+ ce_vector ce_hpke_ciphertext (upn_encrypted u).
(** ratchet_tree/mod.rs:139-152 *)
Definition ce_update_path (u : update_path) : counted bytes :=
  ce_leaf_node (up_leaf u) +-+ ce_vector ce_update_path_node (up_nodes u).
(** ratchet_tree/mod.rs:182-199 *)
Definition ce_node_type (t : node_type) : counted bytes := c_put_u8 match t with NtLeaf => 1 | NtParent => 2 end.
(** ratchet_tree/mod.rs:232-244 *)
Definition ce_node (n : node) : counted bytes :=
  ce_node_type (node_type_of n) +-+
  match n with Leaf l => ce_leaf_node l | Parent p => ce_parent_node p end.
(** ratchet_tree/mod.rs:286-305 *)
Definition ce_ratchet_tree (t : ratchet_tree) : counted bytes :=
  costing (N.of_nat (length t) - N.of_nat (length (trim_blank t)) + 1) (ce_vector (ce_option ce_node) (trim_blank t)).
(** extensibility/mod.rs:209-217 *)
Definition ce_ratchet_tree_extension : ratchet_tree -> counted bytes := ce_ratchet_tree.
(** key_package/mod.rs:51-59 *)
Definition ce_key_package_ref : key_package_ref -> counted bytes := ce_opaque.
(** key_package/mod.rs:97-109 *)
Definition ce_key_package_tbs (k : key_package_tbs) : counted bytes :=
  c_put_u16 (u16_of_version (kp_version k)) +-+ c_put_u16 (u16_of_cipher_suite (kp_suite k)) +-+
  ce_opaque (kp_init_key k) +-+ ce_leaf_node (kp_leaf k) +-+ ce_extensions (kp_extensions k).
(** key_package/mod.rs:131-140 *)
Definition ce_key_package (k : key_package) : counted bytes :=
  ce_key_package_tbs (kp_payload k) +-+ ce_opaque (kp_signature k).
(** key_schedule/mod.rs:107-121 *)
Definition ce_group_context (g : group_context) : counted bytes :=
  c_put_u16 (u16_of_version (gc_version g)) +-+ c_put_u16 (u16_of_cipher_suite (gc_suite g)) +-+
  ce_opaque (gc_group_id g) +-+ c_put_u64 (gc_epoch g) +-+ ce_opaque (gc_tree_hash g) +-+
  ce_opaque (gc_confirmed g) +-+ ce_extensions (gc_extensions g).
(** key_schedule/mod.rs:354-363 *)
Definition ce_psk_type (t : psk_type) : counted bytes :=
  c_put_u8 match t with PskExternal => 1 | PskResumption => 2 end.
(** key_schedule/mod.rs:455-464 *)
Definition ce_psk_usage (u : psk_usage) : counted bytes :=
  c_put_u8 match u with UseApplication => 1 | UseReinit => 2 | UseBranch => 3 end.
(** key_schedule/mod.rs:494-505 *)
Definition ce_resumption (r : resumption) : counted bytes :=
  ce_psk_usage (rs_usage r) +-+ ce_opaque (rs_group_id r) +-+ c_put_u64 (rs_epoch r).
(** key_schedule/mod.rs:396-408 *)
Definition ce_psk (p : psk) : counted bytes :=
  ce_psk_type (psk_type_of p) +-+
  match p with PExternal i => ce_opaque i | PResumption r => ce_resumption r end.
(** key_schedule/mod.rs:529-538 *)
Definition ce_psk_id (p : psk_id) : counted bytes := ce_psk (pi_psk p) +-+ ce_opaque (pi_nonce p).
(** key_schedule/mod.rs:565-576 *)
Definition ce_psk_label (p : psk_label) : counted bytes :=
  ce_psk_id (pl_id p) +-+ c_put_u16 (pl_index p) +-+ c_put_u16 (pl_count p).
(** framing/proposal.rs:186-194 *)
Definition ce_add_proposal (a : add_proposal) : counted bytes := ce_key_package (add_key_package a).
(** framing/proposal.rs:212-220 *)
Definition ce_update_proposal (a : update_proposal) : counted bytes := ce_leaf_node (upd_leaf a).
(** framing/proposal.rs:241-251 *)
Definition ce_remove_proposal (r : remove_proposal) : counted bytes := c_put_u32 (rem_removed r).
(** framing/proposal.rs:268-276 *)
Definition ce_psk_proposal (p : psk_proposal) : counted bytes := ce_psk_id (pp_psk p).
(** framing/proposal.rs:310-321 *)
Definition ce_reinit_proposal (r : reinit_proposal) : counted bytes :=
  ce_opaque (ri_group_id r) +-+ c_put_u16 (u16_of_version (ri_version r)) +-+
  c_put_u16 (u16_of_cipher_suite (ri_suite r)) +-+ ce_extensions (ri_extensions r).
(** framing/proposal.rs:338-346 *)
Definition ce_external_init_proposal (e : external_init_proposal) : counted bytes := ce_opaque (ei_kem_output e).
(** framing/proposal.rs:364-372 *)
Definition ce_gce_proposal (g : gce_proposal) : counted bytes := ce_extensions (gce_extensions g).
(** framing/proposal.rs:131-168 *)
Definition ce_proposal (p : proposal) : counted bytes :=
  match p with
  | PAdd p => c_put_u16 (u16_of_proposal_type PtAdd) +-+ ce_add_proposal p
  | PUpdate p => c_put_u16 (u16_of_proposal_type PtUpdate) +-+ ce_update_proposal p
  | PRemove p => c_put_u16 (u16_of_proposal_type PtRemove) +-+ ce_remove_proposal p
  | PPreSharedKey p => c_put_u16 (u16_of_proposal_type PtPreSharedKey) +-+ ce_psk_proposal p
  | PReInit p => c_put_u16 (u16_of_proposal_type PtReInit) +-+ ce_reinit_proposal p
  | PExternalInit p => c_put_u16 (u16_of_proposal_type PtExternalInit) +-+ ce_external_init_proposal p
  | PGroupContextExtensions p => c_put_u16 (u16_of_proposal_type PtGroupContextExtensions) +-+ ce_gce_proposal p
  end.
(** framing/proposal.rs:405-422 *)
Definition ce_proposal_or_ref (p : proposal_or_ref) : counted bytes :=
  match p with
  | PorProposal p => c_put_u8 1 +-+ ce_proposal p
  | PorReference r => c_put_u8 2 +-+ ce_opaque r
  end.
(** framing/commit.rs:37-55 *)
Definition ce_commit (c : commit) : counted bytes :=
  ce_vector ce_proposal_or_ref (cm_proposals c) +-+ ce_option ce_update_path (cm_path c).
(** framing/mod.rs:149-157; framing/private_message.rs:227-231 *)
Definition ce_content_body (c : content) : counted bytes :=
  match c with
  | CApplication d => ce_opaque d
  | CProposal p => ce_proposal p
  | CCommit m => ce_commit m
  end.
(** framing/mod.rs:142-161 *)
Definition ce_content (c : content) : counted bytes := ce_content_type (content_type_of c) +-+ ce_content_body c.
(** framing/mod.rs:497-509 *)
Definition ce_framed_content (f : framed_content) : counted bytes :=
  ce_opaque (fc_group_id f) +-+ c_put_u64 (fc_epoch f) +-+ ce_sender (fc_sender f) +-+
  ce_opaque (fc_auth_data f) +-+ ce_content (fc_content f).
(** framing/mod.rs:736-747 *)
Definition ce_auth_data (ct : content_type) (a : auth_data) : counted bytes :=
  ce_opaque (ad_signature a) +-+
  match ct with
  | CTCommit => ce_opaque (ad_confirmation_tag a)
  | _ => ret []
  end.
(** framing/mod.rs:577-588 *)
Definition ce_auth_content (a : auth_content) : counted bytes :=
  ce_wire_format (ac_wire_format a) +-+ ce_framed_content (ac_content a) +-+
  ce_auth_data (content_type_of (fc_content (ac_content a))) (ac_auth a).
(** framing/mod.rs:685-707 *)
Definition ce_framed_content_tbs (t : framed_content_tbs) : counted bytes :=
  c_put_u16 (u16_of_version (tbs_version t)) +-+ ce_wire_format (tbs_wire_format t) +-+
  ce_framed_content (tbs_content t) +-+
  match fc_sender (tbs_content t) with
  | SMember _ | SNewMemberCommit =>
      match tbs_context t with
      | Some g => ce_group_context g
      | None => fail SenderMemberAndNewMemberCommitNoGroupContext
      end
  | _ => ret []
  end.
(** framing/mod.rs:828-838 *)
Definition ce_auth_content_tbm (t : auth_content_tbm) : counted bytes :=
  ce_framed_content_tbs (tbm_tbs t) +-+
  ce_auth_data (content_type_of (fc_content (tbs_content (tbm_tbs t)))) (tbm_auth t).
(** framing/mod.rs:890-901 *)
Definition ce_sender_data (s : sender_data) : counted bytes :=
  c_put_u32 (sd_leaf_index s) +-+ c_put_u32 (sd_generation s) +-+ c_put (sd_reuse_guard s).
(** framing/mod.rs:912-922 *)
Definition ce_sender_data_aad (s : sender_data_aad) : counted bytes :=
  ce_opaque (sda_group_id s) +-+ c_put_u64 (sda_epoch s) +-+ ce_content_type (sda_content_type s).
(** framing/public_message.rs:35-53 *)
Definition ce_public_message (m : public_message) : counted bytes :=
  ce_framed_content (pm_content m) +-+
  ce_auth_data (content_type_of (fc_content (pm_content m))) (pm_auth m) +-+
  match fc_sender (pm_content m) with
  | SMember _ => match pm_tag m with Some t => ce_opaque t | None => ret [] end
  | _ => ret []
  end.
(** framing/private_message.rs:42-55 *)
Definition ce_private_message (m : private_message) : counted bytes :=
  ce_opaque (pv_group_id m) +-+ c_put_u64 (pv_epoch m) +-+ ce_content_type (pv_content_type m) +-+
  ce_opaque (pv_auth_data m) +-+ ce_opaque (pv_sender_data m) +-+ ce_opaque (pv_ciphertext m).
(** framing/private_message.rs:221-235 *)
Definition ce_private_content (p : private_content) : counted bytes :=
  ce_content_body (pc_content p) +-+ ce_auth_data (content_type_of (pc_content p)) (pc_auth p).
(** framing/private_message.rs:271-282 *)
Definition ce_private_content_aad (p : private_content_aad) : counted bytes :=
  ce_opaque (pa_group_id p) +-+ c_put_u64 (pa_epoch p) +-+ ce_content_type (pa_content_type p) +-+
  ce_opaque (pa_auth_data p).
(** framing/group_info.rs:56-66 *)
Definition ce_group_info_base (g : group_info) : counted bytes :=
  ce_group_context (gi_context g) +-+ ce_extensions (gi_extensions g) +-+
  ce_opaque (gi_confirmation_tag g) +-+ c_put_u32 (gi_signer g).
(** framing/group_info.rs:44-53 *)
Definition ce_group_info (g : group_info) : counted bytes :=
  ce_group_info_base g +-+ ce_opaque (gi_signature g).
(** framing/group_info.rs:145-164 *)
Definition ce_group_secrets (g : group_secrets) : counted bytes :=
  ce_opaque (gs_joiner_secret g) +-+ ce_option ce_opaque (gs_path_secret g) +-+
  ce_vector ce_psk_id (gs_psk_ids g).
(** framing/welcome.rs:163-172 *)
Definition ce_egs (e : encrypted_group_secrets) : counted bytes :=
  ce_key_package_ref (egs_new_member e) +-+ ce_hpke_ciphertext (egs_secrets e).
(** framing/welcome.rs:45-59 *)
Definition ce_welcome (w : welcome) : counted bytes :=
  c_put_u16 (u16_of_cipher_suite (w_suite w)) +-+ ce_vector ce_egs (w_secrets w) +-+ ce_opaque (w_group_info w).
(** framing/mod.rs:417-443 *)
Definition ce_wire_message (m : wire_message) : counted bytes :=
  ce_wire_format (wire_format_of m) +-+
  match m with
  | WMPublic m => ce_public_message m
  | WMPrivate m => ce_private_message m
  | WMWelcome m => ce_welcome m
  | WMGroupInfo m => ce_group_info m
  | WMKeyPackage m => ce_key_package m
  end.
(** framing/mod.rs:539-548 *)
Definition ce_mls_message (m : mls_message) : counted bytes :=
  c_put_u16 (u16_of_version (mm_version m)) +-+ ce_wire_message (mm_wire m).
(** key_schedule/mod.rs:243-260 *)
Definition ce_confirmed_input (c : confirmed_input) : counted bytes :=
  match fc_content (ci_content c) with
  | CApplication _ | CProposal _ => fail ConfirmedTranscriptHashInputContainContentCommitOnly
  | CCommit _ =>
      ce_wire_format (ci_wire_format c) +-+ ce_framed_content (ci_content c) +-+ ce_opaque (ci_signature c)
  end.

(** [makes c f K]: [c] is [f], counted; when it succeeds it takes at least as many steps as bytes are written, and at most [K] for each. *)
Definition makes {A} (c : A -> counted bytes) (f : A -> res bytes) (K : N) : Prop :=
  forall a, fst (c a) = f a /\ forall bs, f a = Ok bs -> N.of_nat (length bs) <= steps (c a) <= K * N.of_nat (length bs).
