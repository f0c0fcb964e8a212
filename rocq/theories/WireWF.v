(** Specification side of the wire types: which model values correspond to Rust values that can be put
    on the wire (well-formedness), and which fit the 30-bit length prefixes.
    Model integers are [N], so "fits its Rust type" must be said; enum values of the form [Unknown v] /
    [Unsupported v] must not alias a known code point; and a few structures carry fields that the wire
    format determines from other fields. *)
From Verif Require Export Wire CodecLib.
Local Open Scope N_scope.

(** [a] is what some 16-bit code point decodes to. *)
Definition from_u16 {A} (f : N -> A) (a : A) : Prop := exists v, is_u16 v /\ a = f v.

(* ------------------------------------------------------------------------------------------- *)
(** * Well-formedness *)

Definition any {A} (_ : A) : Prop := True.

Definition wf_sender (s : sender) : Prop :=
  match s with SMember v | SExternal v => is_u32 v | _ => True end.
Definition wf_extension (e : extension) : Prop := from_u16 extension_type_of_u16 (ext_type e).
Definition wf_extensions : extensions -> Prop := Forall wf_extension.
Definition wf_required_capabilities (r : required_capabilities) : Prop :=
  Forall (from_u16 extension_type_of_u16) (rc_extensions r) /\
  Forall (from_u16 proposal_type_of_u16) (rc_proposals r) /\
  Forall (from_u16 credential_type_of_u16) (rc_credentials r).
Definition wf_lifetime (l : lifetime) : Prop := is_u64 (not_before l) /\ is_u64 (not_after l).
Definition wf_leaf_node_source (s : leaf_node_source) : Prop :=
  match s with LSKeyPackage l => wf_lifetime l | _ => True end.
Definition wf_capabilities (c : capabilities) : Prop :=
  Forall (from_u16 version_of_u16) (cap_versions c) /\
  Forall (from_u16 cipher_suite_of_u16) (cap_suites c) /\
  Forall (from_u16 extension_type_of_u16) (cap_extensions c) /\
  Forall (from_u16 proposal_type_of_u16) (cap_proposals c) /\
  Forall (from_u16 credential_type_of_u16) (cap_credentials c).
Definition wf_leaf_payload (p : leaf_node_payload) : Prop :=
  wf_capabilities (lp_capabilities p) /\ wf_leaf_node_source (lp_source p) /\ wf_extensions (lp_extensions p).
Definition wf_leaf_node (l : leaf_node) : Prop := wf_leaf_payload (ln_payload l).
Definition wf_parent_node (p : parent_node) : Prop := Forall is_u32 (pn_unmerged p).
Definition wf_update_path (u : update_path) : Prop := wf_leaf_node (up_leaf u).
Definition wf_node (n : node) : Prop := match n with Leaf l => wf_leaf_node l | Parent p => wf_parent_node p end.
Definition wf_tree : ratchet_tree -> Prop := Forall (opt_P wf_node).
Definition wf_key_package_tbs (k : key_package_tbs) : Prop :=
  from_u16 version_of_u16 (kp_version k) /\ from_u16 cipher_suite_of_u16 (kp_suite k) /\
  wf_leaf_node (kp_leaf k) /\ wf_extensions (kp_extensions k).
Definition wf_key_package (k : key_package) : Prop := wf_key_package_tbs (kp_payload k).
(** A group context is only accepted with version mls10 (C09). *)
Definition wf_group_context (g : group_context) : Prop :=
  gc_version g = MLS10 /\ from_u16 cipher_suite_of_u16 (gc_suite g) /\ is_u64 (gc_epoch g) /\
  wf_extensions (gc_extensions g).
Definition wf_resumption (r : resumption) : Prop := is_u64 (rs_epoch r).
Definition wf_psk (p : psk) : Prop := match p with PExternal _ => True | PResumption r => wf_resumption r end.
Definition wf_psk_id (p : psk_id) : Prop := wf_psk (pi_psk p).
Definition wf_psk_label (p : psk_label) : Prop := wf_psk_id (pl_id p) /\ is_u16 (pl_index p) /\ is_u16 (pl_count p).
Definition wf_add_proposal (a : add_proposal) : Prop := wf_key_package (add_key_package a).
Definition wf_update_proposal (a : update_proposal) : Prop := wf_leaf_node (upd_leaf a).
Definition wf_remove_proposal (a : remove_proposal) : Prop := is_u32 (rem_removed a).
Definition wf_psk_proposal (a : psk_proposal) : Prop := wf_psk_id (pp_psk a).
Definition wf_reinit_proposal (r : reinit_proposal) : Prop :=
  from_u16 version_of_u16 (ri_version r) /\ from_u16 cipher_suite_of_u16 (ri_suite r) /\
  wf_extensions (ri_extensions r).
Definition wf_gce_proposal (g : gce_proposal) : Prop := wf_extensions (gce_extensions g).
Definition wf_proposal (p : proposal) : Prop :=
  match p with
  | PAdd p => wf_add_proposal p | PUpdate p => wf_update_proposal p | PRemove p => wf_remove_proposal p
  | PPreSharedKey p => wf_psk_proposal p | PReInit p => wf_reinit_proposal p | PExternalInit _ => True
  | PGroupContextExtensions p => wf_gce_proposal p
  end.
Definition wf_proposal_or_ref (p : proposal_or_ref) : Prop :=
  match p with PorProposal p => wf_proposal p | PorReference _ => True end.
Definition wf_commit (c : commit) : Prop :=
  Forall wf_proposal_or_ref (cm_proposals c) /\ opt_P wf_update_path (cm_path c).
Definition wf_content (c : content) : Prop :=
  match c with CApplication _ => True | CProposal p => wf_proposal p | CCommit c => wf_commit c end.
Definition wf_framed_content (f : framed_content) : Prop :=
  is_u64 (fc_epoch f) /\ wf_sender (fc_sender f) /\ wf_content (fc_content f).
(** Only commits carry a confirmation tag. *)
Definition wf_auth_data (ct : content_type) (a : auth_data) : Prop :=
  match ct with CTCommit => True | _ => ad_confirmation_tag a = [] end.
Definition wf_auth_content (a : auth_content) : Prop :=
  wf_framed_content (ac_content a) /\ wf_auth_data (content_type_of (fc_content (ac_content a))) (ac_auth a).
(** Members and joining committers sign the group context, the others do not. *)
Definition wf_framed_content_tbs (t : framed_content_tbs) : Prop :=
  from_u16 version_of_u16 (tbs_version t) /\ wf_framed_content (tbs_content t) /\
  match fc_sender (tbs_content t) with
  | SMember _ | SNewMemberCommit => exists g, tbs_context t = Some g /\ wf_group_context g
  | _ => tbs_context t = None
  end.
Definition wf_auth_content_tbm (t : auth_content_tbm) : Prop :=
  wf_framed_content_tbs (tbm_tbs t) /\
  wf_auth_data (content_type_of (fc_content (tbs_content (tbm_tbs t)))) (tbm_auth t).
Definition wf_sender_data (s : sender_data) : Prop :=
  is_u32 (sd_leaf_index s) /\ is_u32 (sd_generation s) /\ length (sd_reuse_guard s) = 4%nat.
(** Messages of members, and only those, carry a membership tag. *)
Definition wf_public_message (m : public_message) : Prop :=
  wf_framed_content (pm_content m) /\ wf_auth_data (content_type_of (fc_content (pm_content m))) (pm_auth m) /\
  match fc_sender (pm_content m) with SMember _ => pm_tag m <> None | _ => pm_tag m = None end.
Definition wf_private_message (m : private_message) : Prop := is_u64 (pv_epoch m).
Definition wf_private_content (p : private_content) : Prop :=
  wf_content (pc_content p) /\ wf_auth_data (content_type_of (pc_content p)) (pc_auth p).
Definition wf_private_content_aad (p : private_content_aad) : Prop := is_u64 (pa_epoch p).
Definition wf_group_info (g : group_info) : Prop :=
  wf_group_context (gi_context g) /\ wf_extensions (gi_extensions g) /\ is_u32 (gi_signer g).
Definition wf_group_secrets (g : group_secrets) : Prop := Forall wf_psk_id (gs_psk_ids g).
Definition wf_welcome (w : welcome) : Prop := from_u16 cipher_suite_of_u16 (w_suite w).
Definition wf_wire_message (m : wire_message) : Prop :=
  match m with
  | WMPublic m => wf_public_message m | WMPrivate m => wf_private_message m | WMWelcome m => wf_welcome m
  | WMGroupInfo m => wf_group_info m | WMKeyPackage m => wf_key_package m
  end.
(** A message is only accepted with version mls10 (C09). *)
Definition wf_mls_message (m : mls_message) : Prop := mm_version m = MLS10 /\ wf_wire_message (mm_wire m).
Definition wf_confirmed_input (c : confirmed_input) : Prop :=
  wf_framed_content (ci_content c) /\ exists m, fc_content (ci_content c) = CCommit m.

(* ------------------------------------------------------------------------------------------- *)
(** * Sizes: every length-prefixed field is shorter than 2^30 bytes ([short], [fits_list] in CodecLib) *)

Definition fits_u16s {A} (g : A -> N) : list A -> Prop := fits_list any (se_u16_as g).
Definition fits_credential (c : credential) : Prop :=
  match c with CredBasic i => short i | CredX509 l => fits_list short se_opaque l end.
Definition fits_signature_key_pair (k : signature_key_pair) : Prop := short (skp_private k) /\ short (skp_public k).
Definition fits_hpke_key_pair (k : hpke_key_pair) : Prop := short (hkp_private k) /\ short (hkp_public k).
Definition fits_extension (e : extension) : Prop := short (ext_data e).
Definition fits_extensions : extensions -> Prop := fits_list fits_extension se_extension.
Definition fits_external_senders (e : external_senders) : Prop :=
  short (es_signature_key e) /\ fits_credential (es_credential e).
Definition fits_required_capabilities (r : required_capabilities) : Prop :=
  fits_u16s u16_of_extension_type (rc_extensions r) /\ fits_u16s u16_of_proposal_type (rc_proposals r) /\
  fits_u16s u16_of_credential_type (rc_credentials r).
Definition fits_leaf_node_source (s : leaf_node_source) : Prop := match s with LSCommit h => short h | _ => True end.
Definition fits_capabilities (c : capabilities) : Prop :=
  fits_u16s u16_of_version (cap_versions c) /\ fits_u16s u16_of_cipher_suite (cap_suites c) /\
  fits_u16s u16_of_extension_type (cap_extensions c) /\ fits_u16s u16_of_proposal_type (cap_proposals c) /\
  fits_u16s u16_of_credential_type (cap_credentials c).
Definition fits_leaf_payload (p : leaf_node_payload) : Prop :=
  short (lp_encryption_key p) /\ short (lp_signature_key p) /\ fits_credential (lp_credential p) /\
  fits_capabilities (lp_capabilities p) /\ fits_leaf_node_source (lp_source p) /\ fits_extensions (lp_extensions p).
Definition fits_leaf_node (l : leaf_node) : Prop := fits_leaf_payload (ln_payload l) /\ short (ln_signature l).
Definition fits_parent_node (p : parent_node) : Prop :=
  short (pn_encryption_key p) /\ short (pn_parent_hash p) /\ fits_list any put_u32 (pn_unmerged p).
Definition fits_hpke_ciphertext (h : hpke_ciphertext) : Prop := short (hc_kem_output h) /\ short (hc_ciphertext h).
Definition fits_update_path_node (u : update_path_node) : Prop :=
  short (upn_encryption_key u) /\ fits_list fits_hpke_ciphertext se_hpke_ciphertext (upn_encrypted u).
Definition fits_update_path (u : update_path) : Prop :=
  fits_leaf_node (up_leaf u) /\ fits_list fits_update_path_node se_update_path_node (up_nodes u).
Definition fits_node (n : node) : Prop :=
  match n with Leaf l => fits_leaf_node l | Parent p => fits_parent_node p end.
Definition fits_key_package_tbs (k : key_package_tbs) : Prop :=
  short (kp_init_key k) /\ fits_leaf_node (kp_leaf k) /\ fits_extensions (kp_extensions k).
Definition fits_key_package (k : key_package) : Prop := fits_key_package_tbs (kp_payload k) /\ short (kp_signature k).
Definition fits_group_context (g : group_context) : Prop :=
  short (gc_group_id g) /\ short (gc_tree_hash g) /\ short (gc_confirmed g) /\ fits_extensions (gc_extensions g).
Definition fits_resumption (r : resumption) : Prop := short (rs_group_id r).
Definition fits_psk (p : psk) : Prop := match p with PExternal i => short i | PResumption r => fits_resumption r end.
Definition fits_psk_id (p : psk_id) : Prop := fits_psk (pi_psk p) /\ short (pi_nonce p).
Definition fits_psk_label (p : psk_label) : Prop := fits_psk_id (pl_id p).
Definition fits_reinit_proposal (r : reinit_proposal) : Prop :=
  short (ri_group_id r) /\ fits_extensions (ri_extensions r).
Definition fits_proposal (p : proposal) : Prop :=
  match p with
  | PAdd p => fits_key_package (add_key_package p) | PUpdate p => fits_leaf_node (upd_leaf p)
  | PRemove _ => True | PPreSharedKey p => fits_psk_id (pp_psk p) | PReInit p => fits_reinit_proposal p
  | PExternalInit p => short (ei_kem_output p) | PGroupContextExtensions p => fits_extensions (gce_extensions p)
  end.
Definition fits_proposal_or_ref (p : proposal_or_ref) : Prop :=
  match p with PorProposal p => fits_proposal p | PorReference r => short r end.
Definition fits_commit (c : commit) : Prop :=
  fits_list fits_proposal_or_ref se_proposal_or_ref (cm_proposals c) /\ opt_P fits_update_path (cm_path c).
Definition fits_content (c : content) : Prop :=
  match c with CApplication d => short d | CProposal p => fits_proposal p | CCommit c => fits_commit c end.
Definition fits_framed_content (f : framed_content) : Prop :=
  short (fc_group_id f) /\ short (fc_auth_data f) /\ fits_content (fc_content f).
Definition fits_auth_data (ct : content_type) (a : auth_data) : Prop :=
  short (ad_signature a) /\ match ct with CTCommit => short (ad_confirmation_tag a) | _ => True end.
Definition fits_auth_content (a : auth_content) : Prop :=
  fits_framed_content (ac_content a) /\ fits_auth_data (content_type_of (fc_content (ac_content a))) (ac_auth a).
(** The sender kinds that sign the group context. *)
Definition signs_context (s : sender) : bool :=
  match s with SMember _ | SNewMemberCommit => true | _ => false end.
Definition fits_framed_content_tbs (t : framed_content_tbs) : Prop :=
  fits_framed_content (tbs_content t) /\
  (if signs_context (fc_sender (tbs_content t)) then opt_P fits_group_context (tbs_context t) else True).
Definition fits_auth_content_tbm (t : auth_content_tbm) : Prop :=
  fits_framed_content_tbs (tbm_tbs t) /\
  fits_auth_data (content_type_of (fc_content (tbs_content (tbm_tbs t)))) (tbm_auth t).
Definition fits_sender_data_aad (s : sender_data_aad) : Prop := short (sda_group_id s).
Definition fits_public_message (m : public_message) : Prop :=
  fits_framed_content (pm_content m) /\ fits_auth_data (content_type_of (fc_content (pm_content m))) (pm_auth m) /\
  match fc_sender (pm_content m) with SMember _ => opt_P short (pm_tag m) | _ => True end.
Definition fits_private_message (m : private_message) : Prop :=
  short (pv_group_id m) /\ short (pv_auth_data m) /\ short (pv_sender_data m) /\ short (pv_ciphertext m).
Definition fits_private_content (p : private_content) : Prop :=
  fits_content (pc_content p) /\ fits_auth_data (content_type_of (pc_content p)) (pc_auth p).
Definition fits_private_content_aad (p : private_content_aad) : Prop := short (pa_group_id p) /\ short (pa_auth_data p).
Definition fits_group_info_base (g : group_info) : Prop :=
  fits_group_context (gi_context g) /\ fits_extensions (gi_extensions g) /\ short (gi_confirmation_tag g).
Definition fits_group_info (g : group_info) : Prop := fits_group_info_base g /\ short (gi_signature g).
Definition fits_group_secrets (g : group_secrets) : Prop :=
  short (gs_joiner_secret g) /\ opt_P short (gs_path_secret g) /\ fits_list fits_psk_id se_psk_id (gs_psk_ids g).
Definition fits_egs (e : encrypted_group_secrets) : Prop :=
  short (egs_new_member e) /\ fits_hpke_ciphertext (egs_secrets e).
Definition fits_welcome (w : welcome) : Prop := fits_list fits_egs se_egs (w_secrets w) /\ short (w_group_info w).
Definition fits_wire_message (m : wire_message) : Prop :=
  match m with
  | WMPublic m => fits_public_message m | WMPrivate m => fits_private_message m | WMWelcome m => fits_welcome m
  | WMGroupInfo m => fits_group_info m | WMKeyPackage m => fits_key_package m
  end.
Definition fits_mls_message (m : mls_message) : Prop := fits_wire_message (mm_wire m).
Definition fits_confirmed_input (c : confirmed_input) : Prop :=
  fits_framed_content (ci_content c) /\ short (ci_signature c).
(** The ratchet tree is encoded without its trailing blank nodes. *)
Definition fits_ratchet_tree (t : ratchet_tree) : Prop := fits_list (opt_P fits_node) (se_option se_node) (trim_blank t).
