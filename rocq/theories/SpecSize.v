(** What the property about the sizes of decoded values talks about: the size of a value is the number of its fields, of the elements
    of its lists and of the bytes of its byte strings. A number, a code point, a byte string, a list and an optional field count one
    each, in addition to what they hold. *)
From Verif Require Export Wire.
Local Open Scope N_scope.

Definition size_string (b : bytes) : N := 1 + N.of_nat (length b).
Definition size_list {A} (f : A -> N) (l : list A) : N := 1 + fold_right (fun a n => f a + n) 0 l.
Definition size_option {A} (f : A -> N) (o : option A) : N := 1 + match o with Some a => f a | None => 0 end.
(** A number, a code point, or a tag without a value. *)
Definition size_one {A} (_ : A) : N := 1.

Definition size_credential (c : credential) : N :=
  1 + match c with CredBasic i => size_string i | CredX509 l => size_list size_string l end.
Definition size_signature_key_pair (k : signature_key_pair) : N := size_string (skp_private k) + size_string (skp_public k) + 1.
Definition size_hpke_key_pair (k : hpke_key_pair) : N := size_string (hkp_private k) + size_string (hkp_public k).
Definition size_sender (s : sender) : N := match s with SMember _ | SExternal _ => 2 | _ => 1 end.
Definition size_extension (e : extension) : N := 1 + size_string (ext_data e).
Definition size_extensions : extensions -> N := size_list size_extension.
Definition size_external_senders (e : external_senders) : N := size_string (es_signature_key e) + size_credential (es_credential e).
Definition size_required_capabilities (r : required_capabilities) : N :=
  size_list size_one (rc_extensions r) + size_list size_one (rc_proposals r) + size_list size_one (rc_credentials r).
Definition size_leaf_node_source (s : leaf_node_source) : N := match s with LSKeyPackage _ => 3 | LSUpdate => 1 | LSCommit h => 1 + size_string h end.
Definition size_capabilities (c : capabilities) : N :=
  size_list size_one (cap_versions c) + size_list size_one (cap_suites c) + size_list size_one (cap_extensions c) +
  size_list size_one (cap_proposals c) + size_list size_one (cap_credentials c).
Definition size_leaf_payload (p : leaf_node_payload) : N :=
  size_string (lp_encryption_key p) + size_string (lp_signature_key p) + size_credential (lp_credential p) + size_capabilities (lp_capabilities p) +
  size_leaf_node_source (lp_source p) + size_extensions (lp_extensions p).
Definition size_leaf_node (l : leaf_node) : N := size_leaf_payload (ln_payload l) + size_string (ln_signature l).
Definition size_parent_node (p : parent_node) : N :=
  size_string (pn_encryption_key p) + size_string (pn_parent_hash p) + size_list size_one (pn_unmerged p).
Definition size_hpke_ciphertext (h : hpke_ciphertext) : N := size_string (hc_kem_output h) + size_string (hc_ciphertext h).
Definition size_update_path_node (u : update_path_node) : N := size_string (upn_encryption_key u) + size_list size_hpke_ciphertext (upn_encrypted u).
Definition size_update_path (u : update_path) : N := size_leaf_node (up_leaf u) + size_list size_update_path_node (up_nodes u).
Definition size_node (n : node) : N := 1 + match n with Leaf l => size_leaf_node l | Parent p => size_parent_node p end.
Definition size_ratchet_tree : ratchet_tree -> N := size_list (size_option size_node).
Definition size_key_package_tbs (k : key_package_tbs) : N :=
  1 + 1 + size_string (kp_init_key k) + size_leaf_node (kp_leaf k) + size_extensions (kp_extensions k).
Definition size_key_package (k : key_package) : N := size_key_package_tbs (kp_payload k) + size_string (kp_signature k).
Definition size_group_context (g : group_context) : N :=
  1 + 1 + size_string (gc_group_id g) + 1 + size_string (gc_tree_hash g) + size_string (gc_confirmed g) + size_extensions (gc_extensions g).
Definition size_psk_id (p : psk_id) : N :=
  1 + match pi_psk p with PExternal i => size_string i | PResumption r => 1 + size_string (rs_group_id r) + 1 end + size_string (pi_nonce p).
Definition size_proposal (p : proposal) : N :=
  1 + match p with
      | PAdd p => size_key_package (add_key_package p)
      | PUpdate p => size_leaf_node (upd_leaf p)
      | PRemove p => 1
      | PPreSharedKey p => size_psk_id (pp_psk p)
      | PReInit p => size_string (ri_group_id p) + 1 + 1 + size_extensions (ri_extensions p)
      | PExternalInit p => size_string (ei_kem_output p)
      | PGroupContextExtensions p => size_extensions (gce_extensions p)
      end.
Definition size_proposal_or_ref (p : proposal_or_ref) : N := 1 + match p with PorProposal p => size_proposal p | PorReference r => size_string r end.
Definition size_commit (c : commit) : N := size_list size_proposal_or_ref (cm_proposals c) + size_option size_update_path (cm_path c).
(** The content without its type. *)
Definition size_body (c : content) : N :=
  match c with CApplication d => size_string d | CProposal p => size_proposal p | CCommit c => size_commit c end.
Definition size_framed_content (f : framed_content) : N :=
  size_string (fc_group_id f) + 1 + size_sender (fc_sender f) + size_string (fc_auth_data f) + 1 + size_body (fc_content f).
(** Only commits have a confirmation tag; elsewhere the field is an empty string that is not in the message, and counts nothing. *)
Definition size_auth_data (a : auth_data) : N := size_string (ad_signature a) + N.of_nat (length (ad_confirmation_tag a)).
Definition size_auth_content (a : auth_content) : N := 1 + size_framed_content (ac_content a) + size_auth_data (ac_auth a).
Definition size_public_message (m : public_message) : N :=
  size_framed_content (pm_content m) + size_auth_data (pm_auth m) + match pm_tag m with Some t => size_string t | None => 0 end.
Definition size_private_message (m : private_message) : N :=
  size_string (pv_group_id m) + 1 + 1 + size_string (pv_auth_data m) + size_string (pv_sender_data m) + size_string (pv_ciphertext m).
Definition size_private_content (p : private_content) : N := size_body (pc_content p) + size_auth_data (pc_auth p).
Definition size_group_info (g : group_info) : N :=
  size_group_context (gi_context g) + size_extensions (gi_extensions g) + size_string (gi_confirmation_tag g) + 1 + size_string (gi_signature g).
Definition size_group_secrets (g : group_secrets) : N :=
  size_string (gs_joiner_secret g) + size_option size_string (gs_path_secret g) + size_list size_psk_id (gs_psk_ids g).
Definition size_egs (e : encrypted_group_secrets) : N := size_string (egs_new_member e) + size_hpke_ciphertext (egs_secrets e).
Definition size_welcome (w : welcome) : N := 1 + size_list size_egs (w_secrets w) + size_string (w_group_info w).
Definition size_mls_message (m : mls_message) : N :=
  1 + 1 + match mm_wire m with
          | WMPublic m => size_public_message m
          | WMPrivate m => size_private_message m
          | WMWelcome w => size_welcome w
          | WMGroupInfo g => size_group_info g
          | WMKeyPackage k => size_key_package k
          end.

(** The value a decoder returns is no bigger than the bytes it has read. *)
Definition no_bigger {A} (size : A -> N) (de : bytes -> res (A * bytes)) : Prop :=
  forall bs a rest, de bs = Ok (a, rest) -> size a + N.of_nat (length rest) <= N.of_nat (length bs).
