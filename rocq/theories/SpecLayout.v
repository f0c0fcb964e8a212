(** The wire format of RFC 9420, structure by structure, as pure functions from values to bytes. Nothing here
    refers to an encoder or decoder of the model: only the record types and constructors of Wire.v are used. *)
From Verif Require Import Base Wire.
From Coq Require Import List NArith.
From Coq.Strings Require Import Byte.
Import ListNotations.
Local Open Scope N_scope.
Local Open Scope list_scope.

(** Unsigned integers, most significant byte first (Section 2.1). *)
Definition octet (n : N) : byte := match Byte.of_N (n mod 256) with Some b => b | None => x00 end.
Definition uint8 (n : N) : bytes := [octet n].
Definition uint16 (n : N) : bytes := [octet (n / 256); octet n].
Definition uint32 (n : N) : bytes := [octet (n / 16777216); octet (n / 65536); octet (n / 256); octet n].
Definition uint64 (n : N) : bytes := uint32 (n / 4294967296) ++ uint32 n.

(** Variable-length vectors (Section 2.1.2): the length in bytes, in 1, 2 or 4 bytes whose two leading bits
    are 00, 01 or 10, whichever is shortest, and then the bytes. *)
Definition size_header (n : N) : bytes :=
  if n <? 64 then uint8 n else if n <? 16384 then uint16 (16384 + n) else uint32 (2147483648 + n).
Definition opaqueV (b : bytes) : bytes := size_header (N.of_nat (length b)) ++ b.
Definition vectorV {A} (f : A -> bytes) (l : list A) : bytes := opaqueV (concat (map f l)).
(** Optional values (Section 2.1.1). *)
Definition optionalT {A} (f : A -> bytes) (o : option A) : bytes :=
  match o with None => uint8 0 | Some a => uint8 1 ++ f a end.

(** Registries (Sections 6, 7.2, 12.1 and 17). *)
Definition rfc_version (v : protocol_version) : bytes := uint16 match v with MLS10 => 1 | VersionUnsupported n => n end.
Definition rfc_suite (c : cipher_suite) : bytes :=
  uint16 match c with
         | Suite1 => 1 | Suite2 => 2 | Suite3 => 3 | Suite4 => 4 | Suite5 => 5 | Suite6 => 6 | Suite7 => 7
         | SuiteUnknown n => n end.
Definition rfc_credential_type (c : credential_type) : bytes := uint16 match c with CtBasic => 1 | CtX509 => 2 | CtUnknown n => n end.
Definition rfc_extension_type (e : extension_type) : bytes :=
  uint16 match e with
         | ExtApplicationId => 1 | ExtRatchetTree => 2 | ExtRequiredCapabilities => 3 | ExtExternalPub => 4
         | ExtExternalSenders => 5 | ExtUnknown n => n end.
Definition rfc_proposal_type (p : proposal_type) : bytes :=
  uint16 match p with
         | PtAdd => 1 | PtUpdate => 2 | PtRemove => 3 | PtPreSharedKey => 4 | PtReInit => 5 | PtExternalInit => 6
         | PtGroupContextExtensions => 7 | PtUnknown n => n end.
Definition rfc_wire_format (w : wire_format) : bytes :=
  uint16 match w with
         | WFPublicMessage => 1 | WFPrivateMessage => 2 | WFWelcome => 3 | WFGroupInfo => 4 | WFKeyPackage => 5 end.
Definition rfc_content_type (c : content_type) : bytes := uint8 match c with CTApplication => 1 | CTProposal => 2 | CTCommit => 3 end.
(** TLS SignatureScheme code points (RFC 8446, Section 4.2.3). *)
Definition rfc_signature_scheme (s : signature_scheme) : bytes :=
  uint16 match s with
         | ECDSA_SECP256R1_SHA256 => 1027 | ECDSA_SECP384R1_SHA384 => 1283 | ECDSA_SECP521R1_SHA512 => 1539
         | ED25519 => 2055 | ED448 => 2056 end.
(** Stored key pairs. No RFC fixes their layout; this is the one in which existing ones are stored. *)
Definition stored_signature_key_pair (k : signature_key_pair) : bytes :=
  opaqueV (skp_private k) ++ opaqueV (skp_public k) ++ rfc_signature_scheme (skp_scheme k).
Definition stored_hpke_key_pair (k : hpke_key_pair) : bytes := opaqueV (hkp_private k) ++ opaqueV (hkp_public k).

(** Credentials (Section 5.3). *)
Definition rfc_credential (c : credential) : bytes :=
  match c with
  | CredBasic id => uint16 1 ++ opaqueV id
  | CredX509 certs => uint16 2 ++ vectorV opaqueV certs
  end.

(** Senders (Section 6.1). *)
Definition rfc_sender (s : sender) : bytes :=
  match s with
  | SMember i => uint8 1 ++ uint32 i
  | SExternal i => uint8 2 ++ uint32 i
  | SNewMemberProposal => uint8 3
  | SNewMemberCommit => uint8 4
  end.

(** Extensions (Sections 5.3.3, 7.2, 11.1, 12.1.8.1, 12.4.3.2 and 12.4.3.3). *)
Definition rfc_extension (e : extension) : bytes := rfc_extension_type (ext_type e) ++ opaqueV (ext_data e).
Definition rfc_extensions (l : list extension) : bytes := vectorV rfc_extension l.
Definition rfc_required_capabilities (r : required_capabilities) : bytes :=
  vectorV rfc_extension_type (rc_extensions r) ++ vectorV rfc_proposal_type (rc_proposals r) ++
  vectorV rfc_credential_type (rc_credentials r).
Definition rfc_external_sender (e : external_senders) : bytes := opaqueV (es_signature_key e) ++ rfc_credential (es_credential e).
Definition rfc_external_senders (l : list external_senders) : bytes := vectorV rfc_external_sender l.

(** Leaf nodes (Section 7.2). *)
Definition rfc_lifetime (l : lifetime) : bytes := uint64 (not_before l) ++ uint64 (not_after l).
Definition rfc_leaf_node_source (s : leaf_node_source) : bytes :=
  match s with
  | LSKeyPackage l => uint8 1 ++ rfc_lifetime l
  | LSUpdate => uint8 2
  | LSCommit h => uint8 3 ++ opaqueV h
  end.
Definition rfc_capabilities (c : capabilities) : bytes :=
  vectorV rfc_version (cap_versions c) ++ vectorV rfc_suite (cap_suites c) ++
  vectorV rfc_extension_type (cap_extensions c) ++ vectorV rfc_proposal_type (cap_proposals c) ++
  vectorV rfc_credential_type (cap_credentials c).
Definition rfc_leaf_payload (p : leaf_node_payload) : bytes :=
  opaqueV (lp_encryption_key p) ++ opaqueV (lp_signature_key p) ++ rfc_credential (lp_credential p) ++
  rfc_capabilities (lp_capabilities p) ++ rfc_leaf_node_source (lp_source p) ++ rfc_extensions (lp_extensions p).
Definition rfc_leaf_node (l : leaf_node) : bytes := rfc_leaf_payload (ln_payload l) ++ opaqueV (ln_signature l).
(** LeafNodeTBS: a leaf made for a key package is signed without a place; one made by an update or a commit is
    signed together with the group and the leaf index. *)
Definition rfc_leaf_node_tbs (p : leaf_node_payload) (group : bytes) (index : N) : bytes :=
  rfc_leaf_payload p ++
  match lp_source p with LSKeyPackage _ => [] | LSUpdate | LSCommit _ => opaqueV group ++ uint32 index end.

(** Parent nodes, update paths, trees (Sections 7.1, 7.6 and 12.4.3.3). *)
Definition rfc_parent_node (p : parent_node) : bytes :=
  opaqueV (pn_encryption_key p) ++ opaqueV (pn_parent_hash p) ++ vectorV uint32 (pn_unmerged p).
Definition rfc_hpke_ciphertext (h : hpke_ciphertext) : bytes := opaqueV (hc_kem_output h) ++ opaqueV (hc_ciphertext h).
Definition rfc_update_path_node (u : update_path_node) : bytes :=
  opaqueV (upn_encryption_key u) ++ vectorV rfc_hpke_ciphertext (upn_encrypted u).
Definition rfc_update_path (u : update_path) : bytes := rfc_leaf_node (up_leaf u) ++ vectorV rfc_update_path_node (up_nodes u).
Definition rfc_node (n : node) : bytes :=
  match n with Leaf l => uint8 1 ++ rfc_leaf_node l | Parent p => uint8 2 ++ rfc_parent_node p end.
Definition rfc_nodes (l : list (option node)) : bytes := vectorV (optionalT rfc_node) l.

(** Key packages (Section 10). *)
Definition rfc_key_package_tbs (k : key_package_tbs) : bytes :=
  rfc_version (kp_version k) ++ rfc_suite (kp_suite k) ++ opaqueV (kp_init_key k) ++ rfc_leaf_node (kp_leaf k) ++
  rfc_extensions (kp_extensions k).
Definition rfc_key_package (k : key_package) : bytes := rfc_key_package_tbs (kp_payload k) ++ opaqueV (kp_signature k).

(** Group contexts and pre-shared keys (Sections 8.1 and 8.4). *)
Definition rfc_group_context (g : group_context) : bytes :=
  rfc_version (gc_version g) ++ rfc_suite (gc_suite g) ++ opaqueV (gc_group_id g) ++ uint64 (gc_epoch g) ++
  opaqueV (gc_tree_hash g) ++ opaqueV (gc_confirmed g) ++ rfc_extensions (gc_extensions g).
Definition rfc_psk_usage (u : psk_usage) : bytes := uint8 match u with UseApplication => 1 | UseReinit => 2 | UseBranch => 3 end.
Definition rfc_psk (p : psk) : bytes :=
  match p with
  | PExternal id => uint8 1 ++ opaqueV id
  | PResumption r => uint8 2 ++ rfc_psk_usage (rs_usage r) ++ opaqueV (rs_group_id r) ++ uint64 (rs_epoch r)
  end.
Definition rfc_psk_id (p : psk_id) : bytes := rfc_psk (pi_psk p) ++ opaqueV (pi_nonce p).
Definition rfc_psk_label (p : psk_label) : bytes := rfc_psk_id (pl_id p) ++ uint16 (pl_index p) ++ uint16 (pl_count p).

(** Proposals and commits (Sections 12.1 and 12.4). *)
Definition rfc_proposal (p : proposal) : bytes :=
  match p with
  | PAdd a => uint16 1 ++ rfc_key_package (add_key_package a)
  | PUpdate u => uint16 2 ++ rfc_leaf_node (upd_leaf u)
  | PRemove r => uint16 3 ++ uint32 (rem_removed r)
  | PPreSharedKey k => uint16 4 ++ rfc_psk_id (pp_psk k)
  | PReInit r => uint16 5 ++ opaqueV (ri_group_id r) ++ rfc_version (ri_version r) ++ rfc_suite (ri_suite r) ++
                 rfc_extensions (ri_extensions r)
  | PExternalInit e => uint16 6 ++ opaqueV (ei_kem_output e)
  | PGroupContextExtensions g => uint16 7 ++ rfc_extensions (gce_extensions g)
  end.
Definition rfc_proposal_or_ref (p : proposal_or_ref) : bytes :=
  match p with PorProposal q => uint8 1 ++ rfc_proposal q | PorReference r => uint8 2 ++ opaqueV r end.
Definition rfc_commit (c : commit) : bytes :=
  vectorV rfc_proposal_or_ref (cm_proposals c) ++ optionalT rfc_update_path (cm_path c).

(** Content and its authentication (Sections 6 and 6.1). *)
Definition rfc_bare_content (c : content) : bytes :=
  match c with CApplication d => opaqueV d | CProposal p => rfc_proposal p | CCommit m => rfc_commit m end.
Definition kind (c : content) : content_type :=
  match c with CApplication _ => CTApplication | CProposal _ => CTProposal | CCommit _ => CTCommit end.
Definition rfc_content (c : content) : bytes := rfc_content_type (kind c) ++ rfc_bare_content c.
Definition rfc_framed_content (f : framed_content) : bytes :=
  opaqueV (fc_group_id f) ++ uint64 (fc_epoch f) ++ rfc_sender (fc_sender f) ++ opaqueV (fc_auth_data f) ++
  rfc_content (fc_content f).
Definition rfc_auth_data (c : content_type) (a : auth_data) : bytes :=
  opaqueV (ad_signature a) ++ match c with CTCommit => opaqueV (ad_confirmation_tag a) | CTApplication | CTProposal => [] end.
Definition rfc_auth_content (a : auth_content) : bytes :=
  rfc_wire_format (ac_wire_format a) ++ rfc_framed_content (ac_content a) ++
  rfc_auth_data (kind (fc_content (ac_content a))) (ac_auth a).
(** FramedContentTBS: the group context follows exactly for senders inside, or entering, the group. *)
Definition rfc_framed_content_tbs (v : protocol_version) (w : wire_format) (f : framed_content) (g : group_context) : bytes :=
  rfc_version v ++ rfc_wire_format w ++ rfc_framed_content f ++
  match fc_sender f with
  | SMember _ | SNewMemberCommit => rfc_group_context g
  | SExternal _ | SNewMemberProposal => []
  end.

(** Messages (Sections 6.2, 6.3, 12.4.3 and 12.4.3.1). *)
Definition rfc_public_message (f : framed_content) (a : auth_data) (tag : bytes) : bytes :=
  rfc_framed_content f ++ rfc_auth_data (kind (fc_content f)) a ++
  match fc_sender f with SMember _ => opaqueV tag | SExternal _ | SNewMemberProposal | SNewMemberCommit => [] end.
Definition rfc_private_message (m : private_message) : bytes :=
  opaqueV (pv_group_id m) ++ uint64 (pv_epoch m) ++ rfc_content_type (pv_content_type m) ++ opaqueV (pv_auth_data m) ++
  opaqueV (pv_sender_data m) ++ opaqueV (pv_ciphertext m).
Definition rfc_private_content (p : private_content) : bytes :=
  rfc_bare_content (pc_content p) ++ rfc_auth_data (kind (pc_content p)) (pc_auth p).
Definition rfc_private_content_aad (p : private_content_aad) : bytes :=
  opaqueV (pa_group_id p) ++ uint64 (pa_epoch p) ++ rfc_content_type (pa_content_type p) ++ opaqueV (pa_auth_data p).
Definition rfc_sender_data (s : sender_data) : bytes := uint32 (sd_leaf_index s) ++ uint32 (sd_generation s) ++ sd_reuse_guard s.
Definition rfc_sender_data_aad (s : sender_data_aad) : bytes :=
  opaqueV (sda_group_id s) ++ uint64 (sda_epoch s) ++ rfc_content_type (sda_content_type s).
Definition rfc_group_info_tbs (g : group_info) : bytes :=
  rfc_group_context (gi_context g) ++ rfc_extensions (gi_extensions g) ++ opaqueV (gi_confirmation_tag g) ++ uint32 (gi_signer g).
Definition rfc_group_info (g : group_info) : bytes := rfc_group_info_tbs g ++ opaqueV (gi_signature g).
Definition rfc_group_secrets (g : group_secrets) : bytes :=
  opaqueV (gs_joiner_secret g) ++ optionalT opaqueV (gs_path_secret g) ++ vectorV rfc_psk_id (gs_psk_ids g).
Definition rfc_encrypted_group_secrets (e : encrypted_group_secrets) : bytes :=
  opaqueV (egs_new_member e) ++ rfc_hpke_ciphertext (egs_secrets e).
Definition rfc_welcome (w : welcome) : bytes :=
  rfc_suite (w_suite w) ++ vectorV rfc_encrypted_group_secrets (w_secrets w) ++ opaqueV (w_group_info w).
(** A public message value without the tag its sender needs has no RFC encoding; the encoder of the code writes
    nothing for the tag, and the last case below says so. *)
Definition rfc_wire_message (m : wire_message) : bytes :=
  match m with
  | WMPublic p =>
      uint16 1 ++ match pm_tag p with
                  | Some t => rfc_public_message (pm_content p) (pm_auth p) t
                  | None => rfc_framed_content (pm_content p) ++ rfc_auth_data (kind (fc_content (pm_content p))) (pm_auth p)
                  end
  | WMPrivate p => uint16 2 ++ rfc_private_message p
  | WMWelcome w => uint16 3 ++ rfc_welcome w
  | WMGroupInfo g => uint16 4 ++ rfc_group_info g
  | WMKeyPackage k => uint16 5 ++ rfc_key_package k
  end.
Definition rfc_mls_message (m : mls_message) : bytes := rfc_version (mm_version m) ++ rfc_wire_message (mm_wire m).
Definition rfc_confirmed_input (c : confirmed_input) : bytes :=
  rfc_wire_format (ci_wire_format c) ++ rfc_framed_content (ci_content c) ++ opaqueV (ci_signature c).

(** Whatever an encoder writes is the layout of the value; whatever a decoder accepts begins with the layout of the value
    it returns, and the rest of the buffer is left. *)
Definition speaks {A} (ser : A -> res bytes) (de : bytes -> res (A * bytes)) (layout : A -> bytes) : Prop :=
  (forall a b, ser a = Ok b -> b = layout a) /\
  (forall bs a rest, de bs = Ok (a, rest) -> bs = layout a ++ rest).
