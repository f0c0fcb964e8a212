(** What decoding costs. The functions below do what the decoders of Wire.v and Serde.v with the same names ([de_] for [cd_]) do, and count
    while they do it. A step is: reading one byte; copying one byte into a buffer of its own, and setting that buffer up; going once
    through the loop over the elements of a vector; filling one place at the end of a ratchet tree; looking at one byte of padding.
    That they do the same is part of C111 ([takes] below). *)
From Verif Require Export Wire.
Local Open Scope N_scope.

Definition counted (A : Type) : Type := (res A * N)%type.
Definition steps {A} (m : counted A) : N := snd m.
(** Something that is not counted. *)
Definition uncounted {A} (m : res A) : counted A := (m, 0).
Definition ret {A} (a : A) : counted A := (Ok a, 0).
Definition fail {A} (e : error) : counted A := (Err e, 0).
Definition costing {A} (n : N) (m : counted A) : counted A := (fst m, n + snd m).
Definition cbind {A B} (m : counted A) (k : A -> counted B) : counted B :=
  match fst m with
  | Ok a => let p := k a in (fst p, snd m + snd p)
  | Err e => (Err e, snd m) | Panic => (Panic, snd m) | Hang => (Hang, snd m)
  end.
Notation "'let+' p ':=' m 'in' k" := (cbind m (fun p => k))
  (at level 61, p pattern, m at next level, k at level 200, right associativity).

(** Reading [k] bytes, as at utilities/serde/mod.rs:14. *)
Definition c_get_be (k : nat) (bs : bytes) : counted (N * bytes) := (get_be k bs, match get_be k bs with Ok _ => N.of_nat k | _ => 0 end).
(** The reads of Base.v, as in utilities/serde/mod.rs:14, extensibility/mod.rs:103, framing/proposal.rs:236, framing/mod.rs:482. *)
Definition c_get_u16 := c_get_be 2.
Definition c_get_u32 := c_get_be 4.
Definition c_get_u64 := c_get_be 8.
Definition c_read (k : nat) (bs : bytes) : counted (N * bytes) := let+ _ := uncounted (need k bs) in c_get_be k bs.
Definition c_read_u8 := c_read 1.
Definition c_read_u16 := c_read 2.
Definition c_read_u32 := c_read 4.
Definition c_read_u64 := c_read 8.
(** Copying [n] bytes into a new buffer: utilities/serde/mod.rs:57, 81. *)
Definition c_copy (n : N) (bs : bytes) : counted (bytes * bytes) := (copy_to_bytes n bs, match copy_to_bytes n bs with Ok _ => 1 + n | _ => 0 end).

(** utilities/serde/mod.rs:23-29 *)
Fixpoint c_varint_tail (k : nat) (v : N) (bs : bytes) : counted (N * bytes) :=
  match k with
  | O => ret (v, bs)
  | S k' => let+ (b, bs) := c_read_u8 bs in c_varint_tail k' (N.shiftl v 8 + b) bs
  end.
(** utilities/serde/mod.rs:10-36 *)
Definition cd_varint (bs : bytes) : counted (N * bytes) :=
  let+ (b, bs) := c_read_u8 bs in
  let prefix := N.shiftr b 6 in
  if prefix =? 3 then fail InvalidVariableLengthIntegerPrefix else
  let n := N.shiftl 1 prefix in
  let v := N.land b 63 in
  let+ (v, bs) := c_varint_tail (N.to_nat (n - 1)) v bs in
  if (1 <=? prefix) && (v <? N.shiftl 1 (8 * (n / 2) - 2))
  then fail MinimumEncodingWasNotUsed
  else ret (v, bs).
(** utilities/serde/mod.rs:51-58 *)
Definition cd_opaque (bs : bytes) : counted (bytes * bytes) :=
  let+ (n, bs) := cd_varint bs in
  if N.of_nat (length bs) <? n then fail BufferTooSmall
  else c_copy n bs.
(** utilities/serde/mod.rs:83-85 *)
Fixpoint c_vec_loop {A} (f : bytes -> counted (A * bytes)) (fuel : nat) (bs : bytes) : counted (list A) :=
  match bs with
  | [] => ret []
  | _ :: _ =>
      match fuel with
      | O => uncounted Hang
      | S k => costing 1 (let+ (a, r) := f bs in
                          let+ l := c_vec_loop f k r in
                          ret (a :: l))
      end
  end.
(** utilities/serde/mod.rs:72-87 *)
Definition cd_vector {A} (f : bytes -> counted (A * bytes)) (bs : bytes) : counted (list A * bytes) :=
  let+ (n, bs) := cd_varint bs in
  if N.of_nat (length bs) <? n then fail BufferTooSmall else
  let+ (v, rest) := c_copy n bs in
  let+ l := c_vec_loop f (length v) v in
  ret (l, rest).
(** utilities/serde/mod.rs:106-117 *)
Definition cd_optflag (bs : bytes) : counted (bool * bytes) :=
  let+ (b, bs) := c_read_u8 bs in
  if b =? 0 then ret (false, bs)
  else if b =? 1 then ret (true, bs)
  else fail InvalidOptionalValue.
(** ratchet_tree/mod.rs:262-268, framing/commit.rs:14-35, framing/group_info.rs:130-150 *)
Definition cd_option {A} (f : bytes -> counted (A * bytes)) (bs : bytes) : counted (option A * bytes) :=
  let+ (b, bs) := cd_optflag bs in
  if b then let+ (a, bs) := f bs in ret (Some a, bs) else ret (None, bs).
(** utilities/serde/mod.rs:131-137 *)
Definition cd_exact {A} (f : bytes -> counted (A * bytes)) (bs : bytes) : counted A :=
  let+ (a, _) := f bs in ret a.
(** ratchet_tree/mod.rs:278-280 *)
Fixpoint c_pad_blank (fuel : nat) (t : ratchet_tree) : counted ratchet_tree :=
  if is_power_of_two (N.of_nat (length t) + 1) then ret t
  else match fuel with O => uncounted Hang | S k => costing 1 (c_pad_blank k (t ++ [None])) end.
(** framing/private_message.rs:210-214 *)
Fixpoint c_check_padding (bs : bytes) : counted unit :=
  match bs with
  | [] => ret tt
  | b :: r => costing 1 (if b2n b =? 0 then c_check_padding r else fail PaddingContainsNonZeroBytes)
  end.

(** crypto/mod.rs:27-35 *)
Definition cd_secret_key : bytes -> counted (secret_key * bytes) := cd_opaque.
(** crypto/credential.rs:61-69 *)
Definition cd_identity : bytes -> counted (identity * bytes) := cd_opaque.
(** crypto/credential.rs:94-104 *)
Definition cd_certificate : bytes -> counted (certificate * bytes) := cd_opaque.
(** crypto/credential.rs:164-190 *)
Definition cd_credential (bs : bytes) : counted (credential * bytes) :=
  let+ (t, bs) := c_read_u16 bs in
  match credential_type_of_u16 t with
  | CtBasic => let+ (i, bs) := cd_identity bs in ret (CredBasic i, bs)
  | CtX509 => let+ (l, bs) := cd_vector cd_certificate bs in ret (CredX509 l, bs)
  | CtUnknown _ => fail InvalidCredentialTypeValue
  end.
(** crypto/provider/mod.rs:66-85 *)
Definition cd_signature_scheme (bs : bytes) : counted (signature_scheme * bytes) :=
  let+ (v, bs) := c_read_u16 bs in
  if v =? 0x0403 then ret (ECDSA_SECP256R1_SHA256, bs)
  else if v =? 0x0503 then ret (ECDSA_SECP384R1_SHA384, bs)
  else if v =? 0x0603 then ret (ECDSA_SECP521R1_SHA512, bs)
  else if v =? 0x0807 then ret (ED25519, bs)
  else if v =? 0x0808 then ret (ED448, bs)
  else fail (InvalidSignatureSchemeValue v).
(** crypto/key_pair.rs:15-30 *)
Definition cd_signature_key_pair (bs : bytes) : counted (signature_key_pair * bytes) :=
  let+ (a, bs) := cd_secret_key bs in
  let+ (b, bs) := cd_secret_key bs in
  let+ (c, bs) := cd_signature_scheme bs in
  ret (MkSigKeyPair a b c, bs).
(** crypto/key_pair.rs:68-81 *)
Definition cd_hpke_key_pair (bs : bytes) : counted (hpke_key_pair * bytes) :=
  let+ (a, bs) := cd_secret_key bs in
  let+ (b, bs) := cd_secret_key bs in
  ret (MkHpkeKeyPair a b, bs).
(** framing/mod.rs:70-81, 83-94 *)
Definition cd_content_type (bs : bytes) : counted (content_type * bytes) :=
  let+ (v, bs) := c_read_u8 bs in
  match v with
  | 1 => ret (CTApplication, bs) | 2 => ret (CTProposal, bs) | 3 => ret (CTCommit, bs)
  | _ => fail (InvalidContentTypeValue v)
  end.
(** framing/mod.rs:192-217 *)
Definition cd_sender_type (bs : bytes) : counted (sender_type * bytes) :=
  let+ (v, bs) := c_read_u8 bs in
  match v with
  | 1 => ret (STMember, bs) | 2 => ret (STExternal, bs)
  | 3 => ret (STNewMemberProposal, bs) | 4 => ret (STNewMemberCommit, bs)
  | _ => fail (InvalidSenderTypeValue v)
  end.
(** framing/mod.rs:246-273 *)
Definition cd_sender (bs : bytes) : counted (sender * bytes) :=
  let+ _ := uncounted (need 1 bs) in
  let+ (t, bs) := cd_sender_type bs in
  match t with
  | STMember => let+ (v, bs) := c_read_u32 bs in ret (SMember v, bs)
  | STExternal => let+ (v, bs) := c_read_u32 bs in ret (SExternal v, bs)
  | STNewMemberProposal => ret (SNewMemberProposal, bs)
  | STNewMemberCommit => ret (SNewMemberCommit, bs)
  end.
(** framing/mod.rs:327-354 *)
Definition cd_wire_format (bs : bytes) : counted (wire_format * bytes) :=
  let+ (v, bs) := c_read_u16 bs in
  match v with
  | 1 => ret (WFPublicMessage, bs) | 2 => ret (WFPrivateMessage, bs) | 3 => ret (WFWelcome, bs)
  | 4 => ret (WFGroupInfo, bs) | 5 => ret (WFKeyPackage, bs)
  | _ => fail (InvalidWireFormatValue v)
  end.
(** extensibility/mod.rs:99-110 *)
Definition cd_extension (bs : bytes) : counted (extension * bytes) :=
  let+ (t, bs) := c_read_u16 bs in
  let+ (d, bs) := cd_opaque bs in
  ret (MkExtension (extension_type_of_u16 t) d, bs).
(** extensibility/mod.rs:96-113 *)
Definition cd_extensions : bytes -> counted (extensions * bytes) := cd_vector cd_extension.
(** extensibility/mod.rs:141-176 *)
Definition cd_application_id : bytes -> counted (bytes * bytes) := cd_opaque.
(** extensibility/mod.rs:451-459 *)
Definition cd_unknown_extension : bytes -> counted (bytes * bytes) := cd_opaque.
(** extensibility/mod.rs:340-376 *)
Definition cd_external_pub : bytes -> counted (bytes * bytes) := cd_secret_key.
(** extensibility/mod.rs:405-419 *)
Definition cd_external_senders (bs : bytes) : counted (external_senders * bytes) :=
  let+ (k, bs) := cd_secret_key bs in
  let+ (c, bs) := cd_credential bs in
  ret (MkExtSenders k c, bs).
(** framing/proposal.rs:60-71 *)
Definition cd_proposal_type (bs : bytes) : counted (proposal_type * bytes) :=
  let+ _ := uncounted (need 1 bs) in
  let+ (v, bs) := c_get_u16 bs in
  ret (proposal_type_of_u16 v, bs).
(** ratchet_tree/leaf_node.rs:86-132, 150-193, extensibility/mod.rs:264-291, 307-332 *)
Definition cd_u16_as {A} (f : N -> A) (bs : bytes) : counted (A * bytes) :=
  let+ (v, bs) := c_read_u16 bs in ret (f v, bs).
(** extensibility/mod.rs:257-299 *)
Definition cd_required_capabilities (bs : bytes) : counted (required_capabilities * bytes) :=
  let+ (e, bs) := cd_vector (cd_u16_as extension_type_of_u16) bs in
  let+ (p, bs) := cd_vector (cd_u16_as proposal_type_of_u16) bs in
  let+ (c, bs) := cd_vector (cd_u16_as credential_type_of_u16) bs in
  ret (MkRequiredCapabilities e p c, bs).
(** ratchet_tree/leaf_node.rs:209-227 *)
Definition cd_lifetime (bs : bytes) : counted (lifetime * bytes) :=
  let+ _ := uncounted (need 8 bs) in
  let+ (b, bs) := c_get_u64 bs in
  let+ (a, bs) := c_get_u64 bs in
  ret (MkLifetime b a, bs).
(** ratchet_tree/leaf_node.rs:27-44 *)
Definition cd_leaf_node_source (bs : bytes) : counted (leaf_node_source * bytes) :=
  let+ (v, bs) := c_read_u8 bs in
  match v with
  | 1 => let+ (l, bs) := cd_lifetime bs in ret (LSKeyPackage l, bs)
  | 2 => ret (LSUpdate, bs)
  | 3 => let+ (h, bs) := cd_opaque bs in ret (LSCommit h, bs)
  | _ => fail (InvalidLeafNodeSourceValue v)
  end.
(** ratchet_tree/leaf_node.rs:78-142 *)
Definition cd_capabilities (bs : bytes) : counted (capabilities * bytes) :=
  let+ (v, bs) := cd_vector (cd_u16_as version_of_u16) bs in
  let+ (s, bs) := cd_vector (cd_u16_as cipher_suite_of_u16) bs in
  let+ (e, bs) := cd_vector (cd_u16_as extension_type_of_u16) bs in
  let+ (p, bs) := cd_vector (cd_u16_as proposal_type_of_u16) bs in
  let+ (c, bs) := cd_vector (cd_u16_as credential_type_of_u16) bs in
  ret (MkCapabilities v s e p c, bs).
(** ratchet_tree/leaf_node.rs:278-302 *)
Definition cd_leaf_payload (bs : bytes) : counted (leaf_node_payload * bytes) :=
  let+ (e, bs) := cd_secret_key bs in
  let+ (s, bs) := cd_secret_key bs in
  let+ (c, bs) := cd_credential bs in
  let+ (cap, bs) := cd_capabilities bs in
  let+ (src, bs) := cd_leaf_node_source bs in
  let+ (ext, bs) := cd_extensions bs in
  ret (MkLeafPayload e s c cap src ext, bs).
(** ratchet_tree/leaf_node.rs:326-337 *)
Definition cd_leaf_node (bs : bytes) : counted (leaf_node * bytes) :=
  let+ (p, bs) := cd_leaf_payload bs in
  let+ (s, bs) := cd_opaque bs in
  ret (MkLeafNode p s, bs).
(** ratchet_tree/parent_node.rs:35-42 *)
Definition cd_unmerged_leaf (bs : bytes) : counted (N * bytes) := let+ _ := uncounted (need 1 bs) in c_get_u32 bs.
(** ratchet_tree/parent_node.rs:25-50 *)
Definition cd_parent_node (bs : bytes) : counted (parent_node * bytes) :=
  let+ (k, bs) := cd_secret_key bs in
  let+ (h, bs) := cd_opaque bs in
  let+ (u, bs) := cd_vector cd_unmerged_leaf bs in
  ret (MkParentNode k h u, bs).
(** ratchet_tree/mod.rs:36-50 *)
Definition cd_hpke_ciphertext (bs : bytes) : counted (hpke_ciphertext * bytes) :=
  let+ (k, bs) := cd_opaque bs in
  let+ (c, bs) := cd_opaque bs in
  ret (MkHpkeCiphertext k c, bs).
(** ratchet_tree/mod.rs:71-90 *)
Definition cd_update_path_node (bs : bytes) : counted (update_path_node * bytes) :=
  let+ (k, bs) := cd_secret_key bs in
  let+ (l, bs) := cd_vector cd_hpke_ciphertext bs in
  ret (MkUpdatePathNode k l, bs).
(** ratchet_tree/mod.rs:121-137 *)
Definition cd_update_path (bs : bytes) : counted (update_path * bytes) :=
  let+ (l, bs) := cd_leaf_node bs in
  let+ (n, bs) := cd_vector cd_update_path_node bs in
  ret (MkUpdatePath l n, bs).
(** ratchet_tree/mod.rs:163-180 *)
Definition cd_node_type (bs : bytes) : counted (node_type * bytes) :=
  let+ (v, bs) := c_read_u8 bs in
  match v with 1 => ret (NtLeaf, bs) | 2 => ret (NtParent, bs) | _ => fail (InvalidNodeTypeValue v) end.
(** ratchet_tree/mod.rs:214-230 *)
Definition cd_node (bs : bytes) : counted (node * bytes) :=
  let+ _ := uncounted (need 1 bs) in
  let+ (t, bs) := cd_node_type bs in
  match t with
  | NtLeaf => let+ (l, bs) := cd_leaf_node bs in ret (Leaf l, bs)
  | NtParent => let+ (p, bs) := cd_parent_node bs in ret (Parent p, bs)
  end.
(** ratchet_tree/mod.rs:259-284 *)
Definition cd_ratchet_tree (bs : bytes) : counted (ratchet_tree * bytes) :=
  let+ (l, bs) := cd_vector (cd_option cd_node) bs in
  let+ t := c_pad_blank (length l + 1) l in
  ret (t, bs).
(** extensibility/mod.rs:180-217 *)
Definition cd_ratchet_tree_extension : bytes -> counted (ratchet_tree * bytes) := cd_ratchet_tree.
(** key_package/mod.rs:41-49 *)
Definition cd_key_package_ref : bytes -> counted (key_package_ref * bytes) := cd_opaque.
(** key_package/mod.rs:71-95 *)
Definition cd_key_package_tbs (bs : bytes) : counted (key_package_tbs * bytes) :=
  let+ _ := uncounted (need 4 bs) in
  let+ (v, bs) := c_get_u16 bs in
  let+ (c, bs) := c_get_u16 bs in
  let+ (k, bs) := cd_secret_key bs in
  let+ (l, bs) := cd_leaf_node bs in
  let+ (e, bs) := cd_extensions bs in
  ret (MkKeyPackageTBS (version_of_u16 v) (cipher_suite_of_u16 c) k l e, bs).
(** key_package/mod.rs:118-129 *)
Definition cd_key_package (bs : bytes) : counted (key_package * bytes) :=
  let+ (p, bs) := cd_key_package_tbs bs in
  let+ (s, bs) := cd_opaque bs in
  ret (MkKeyPackage p s, bs).
(** key_schedule/mod.rs:70-106 *)
Definition cd_group_context (bs : bytes) : counted (group_context * bytes) :=
  let+ _ := uncounted (need 4 bs) in
  let+ (v, bs) := c_get_u16 bs in
  let+ (c, bs) := c_get_u16 bs in
  let+ (g, bs) := cd_opaque bs in
  let+ (e, bs) := c_read_u64 bs in
  let+ (t, bs) := cd_opaque bs in
  let+ (h, bs) := cd_opaque bs in
  if negb (is_mls10 (version_of_u16 v)) then fail (InvalidProposalTypeValue (u16_of_version (version_of_u16 v)))
  else
    let+ (x, bs) := cd_extensions bs in
    ret (MkGroupContext (version_of_u16 v) (cipher_suite_of_u16 c) g e t h x, bs).
(** key_schedule/mod.rs:330-353 *)
Definition cd_psk_type (bs : bytes) : counted (psk_type * bytes) :=
  let+ (v, bs) := c_read_u8 bs in
  match v with 1 => ret (PskExternal, bs) | 2 => ret (PskResumption, bs) | _ => fail (InvalidPskTypeValue v) end.
(** key_schedule/mod.rs:429-454 *)
Definition cd_psk_usage (bs : bytes) : counted (psk_usage * bytes) :=
  let+ (v, bs) := c_read_u8 bs in
  match v with
  | 1 => ret (UseApplication, bs) | 2 => ret (UseReinit, bs) | 3 => ret (UseBranch, bs)
  | _ => fail (InvalidResumptionPSKUsageValue v)
  end.
(** key_schedule/mod.rs:474-492 *)
Definition cd_resumption (bs : bytes) : counted (resumption * bytes) :=
  let+ (u, bs) := cd_psk_usage bs in
  let+ (g, bs) := cd_opaque bs in
  let+ (e, bs) := c_read_u64 bs in
  ret (MkResumption u g e, bs).
(** key_schedule/mod.rs:378-394 *)
Definition cd_psk (bs : bytes) : counted (psk * bytes) :=
  let+ _ := uncounted (need 2 bs) in
  let+ (t, bs) := cd_psk_type bs in
  match t with
  | PskExternal => let+ (i, bs) := cd_opaque bs in ret (PExternal i, bs)
  | PskResumption => let+ (r, bs) := cd_resumption bs in ret (PResumption r, bs)
  end.
(** key_schedule/mod.rs:514-528 *)
Definition cd_psk_id (bs : bytes) : counted (psk_id * bytes) :=
  let+ _ := uncounted (need 1 bs) in
  let+ (p, bs) := cd_psk bs in
  let+ (n, bs) := cd_opaque bs in
  ret (MkPskId p n, bs).
(** key_schedule/mod.rs:548-563 *)
Definition cd_psk_label (bs : bytes) : counted (psk_label * bytes) :=
  let+ (p, bs) := cd_psk_id bs in
  let+ _ := uncounted (need 4 bs) in
  let+ (i, bs) := c_get_u16 bs in
  let+ (c, bs) := c_get_u16 bs in
  ret (MkPskLabel p i c, bs).
(** framing/proposal.rs:175-184 *)
Definition cd_add_proposal (bs : bytes) : counted (add_proposal * bytes) :=
  let+ (k, bs) := cd_key_package bs in ret (MkAdd k, bs).
(** framing/proposal.rs:201-210 *)
Definition cd_update_proposal (bs : bytes) : counted (update_proposal * bytes) :=
  let+ (k, bs) := cd_leaf_node bs in ret (MkUpdate k, bs).
(** framing/proposal.rs:227-239 *)
Definition cd_remove_proposal (bs : bytes) : counted (remove_proposal * bytes) :=
  let+ (v, bs) := c_read_u32 bs in ret (MkRemove v, bs).
(** framing/proposal.rs:258-267 *)
Definition cd_psk_proposal (bs : bytes) : counted (psk_proposal * bytes) :=
  let+ (p, bs) := cd_psk_id bs in ret (MkPskProposal p, bs).
(** framing/proposal.rs:286-309 *)
Definition cd_reinit_proposal (bs : bytes) : counted (reinit_proposal * bytes) :=
  let+ (g, bs) := cd_opaque bs in
  let+ _ := uncounted (need 4 bs) in
  let+ (v, bs) := c_get_u16 bs in
  let+ (c, bs) := c_get_u16 bs in
  let+ (e, bs) := cd_extensions bs in
  ret (MkReInit g (version_of_u16 v) (cipher_suite_of_u16 c) e, bs).
(** framing/proposal.rs:328-337 *)
Definition cd_external_init_proposal (bs : bytes) : counted (external_init_proposal * bytes) :=
  let+ (k, bs) := cd_opaque bs in ret (MkExternalInit k, bs).
(** framing/proposal.rs:353-363 *)
Definition cd_gce_proposal (bs : bytes) : counted (gce_proposal * bytes) :=
  let+ (e, bs) := cd_extensions bs in ret (MkGce e, bs).
(** framing/proposal.rs:101-129 *)
Definition cd_proposal (bs : bytes) : counted (proposal * bytes) :=
  let+ (t, bs) := c_read_u16 bs in
  match proposal_type_of_u16 t with
  | PtAdd => let+ (p, bs) := cd_add_proposal bs in ret (PAdd p, bs)
  | PtUpdate => let+ (p, bs) := cd_update_proposal bs in ret (PUpdate p, bs)
  | PtRemove => let+ (p, bs) := cd_remove_proposal bs in ret (PRemove p, bs)
  | PtPreSharedKey => let+ (p, bs) := cd_psk_proposal bs in ret (PPreSharedKey p, bs)
  | PtReInit => let+ (p, bs) := cd_reinit_proposal bs in ret (PReInit p, bs)
  | PtExternalInit => let+ (p, bs) := cd_external_init_proposal bs in ret (PExternalInit p, bs)
  | PtGroupContextExtensions => let+ (p, bs) := cd_gce_proposal bs in ret (PGroupContextExtensions p, bs)
  | PtUnknown v => fail (InvalidProposalTypeValue v)
  end.
(** framing/proposal.rs:388-404 *)
Definition cd_proposal_or_ref (bs : bytes) : counted (proposal_or_ref * bytes) :=
  let+ (v, bs) := c_read_u8 bs in
  match v with
  | 1 => let+ (p, bs) := cd_proposal bs in ret (PorProposal p, bs)
  | 2 => let+ (r, bs) := cd_opaque bs in ret (PorReference r, bs)
  | _ => fail (InvalidProposalOrRefValue v)
  end.
(** framing/commit.rs:14-35 *)
Definition cd_commit (bs : bytes) : counted (commit * bytes) :=
  let+ (l, bs) := cd_vector cd_proposal_or_ref bs in
  let+ (p, bs) := cd_option cd_update_path bs in
  ret (MkCommit l p, bs).
(** framing/mod.rs:125-141 *)
Definition cd_content (bs : bytes) : counted (content * bytes) :=
  let+ _ := uncounted (need 1 bs) in
  let+ (t, bs) := cd_content_type bs in
  match t with
  | CTApplication => let+ (d, bs) := cd_opaque bs in ret (CApplication d, bs)
  | CTProposal => let+ (p, bs) := cd_proposal bs in ret (CProposal p, bs)
  | CTCommit => let+ (c, bs) := cd_commit bs in ret (CCommit c, bs)
  end.
(** framing/mod.rs:472-495 *)
Definition cd_framed_content (bs : bytes) : counted (framed_content * bytes) :=
  let+ (g, bs) := cd_opaque bs in
  let+ (e, bs) := c_read_u64 bs in
  let+ (s, bs) := cd_sender bs in
  let+ (a, bs) := cd_opaque bs in
  let+ (c, bs) := cd_content bs in
  ret (MkFramed g e s a c, bs).
(** framing/mod.rs:718-734 *)
Definition cd_auth_data (ct : content_type) (bs : bytes) : counted (auth_data * bytes) :=
  let+ (s, bs) := cd_opaque bs in
  match ct with
  | CTCommit => let+ (t, bs) := cd_opaque bs in ret (MkAuth s t, bs)
  | _ => ret (MkAuth s [], bs)
  end.
(** framing/mod.rs:559-575 *)
Definition cd_auth_content (bs : bytes) : counted (auth_content * bytes) :=
  let+ (w, bs) := cd_wire_format bs in
  let+ (c, bs) := cd_framed_content bs in
  let+ (a, bs) := cd_auth_data (content_type_of (fc_content c)) bs in
  ret (MkAuthContent w c a, bs).
(** framing/mod.rs:659-683 *)
Definition cd_framed_content_tbs (bs : bytes) : counted (framed_content_tbs * bytes) :=
  let+ (v, bs) := c_read_u16 bs in
  let+ (w, bs) := cd_wire_format bs in
  let+ (c, bs) := cd_framed_content bs in
  match fc_sender c with
  | SMember _ | SNewMemberCommit =>
      let+ (g, bs) := cd_group_context bs in ret (MkTBS (version_of_u16 v) w c (Some g), bs)
  | _ => ret (MkTBS (version_of_u16 v) w c None, bs)
  end.
(** framing/mod.rs:815-826 *)
Definition cd_auth_content_tbm (bs : bytes) : counted (auth_content_tbm * bytes) :=
  let+ (t, bs) := cd_framed_content_tbs bs in
  let+ (a, bs) := cd_auth_data (content_type_of (fc_content (tbs_content t))) bs in
  ret (MkTBM t a, bs).
(** framing/mod.rs:868-888 *)
Definition cd_sender_data (bs : bytes) : counted (sender_data * bytes) :=
  let+ _ := uncounted (need 12 bs) in
  let+ (i, bs) := c_get_u32 bs in
  let+ (g, bs) := c_get_u32 bs in
  let+ (r, bs) := c_copy 4 bs in
  ret (MkSenderData i g r, bs).
(** framing/public_message.rs:12-33 *)
Definition cd_public_message (bs : bytes) : counted (public_message * bytes) :=
  let+ (c, bs) := cd_framed_content bs in
  let+ (a, bs) := cd_auth_data (content_type_of (fc_content c)) bs in
  match fc_sender c with
  | SMember _ => let+ (t, bs) := cd_opaque bs in ret (MkPublic c a (Some t), bs)
  | _ => ret (MkPublic c a None, bs)
  end.
(** framing/private_message.rs:15-40 *)
Definition cd_private_message (bs : bytes) : counted (private_message * bytes) :=
  let+ (g, bs) := cd_opaque bs in
  let+ (e, bs) := c_read_u64 bs in
  let+ (t, bs) := cd_content_type bs in
  let+ (a, bs) := cd_opaque bs in
  let+ (s, bs) := cd_opaque bs in
  let+ (c, bs) := cd_opaque bs in
  ret (MkPrivate g e t a s c, bs).
(** framing/private_message.rs:194-218 *)
Definition cd_private_content (ct : content_type) (bs : bytes) : counted private_content :=
  let+ (c, bs) :=
    match ct with
    | CTApplication => let+ (d, bs) := cd_opaque bs in ret (CApplication d, bs)
    | CTProposal => let+ (p, bs) := cd_proposal bs in ret (CProposal p, bs)
    | CTCommit => let+ (m, bs) := cd_commit bs in ret (CCommit m, bs)
    end in
  let+ (a, bs) := cd_auth_data ct bs in
  let+ _ := c_check_padding bs in
  ret (MkPrivateContent c a).
(** framing/private_message.rs:248-269 *)
Definition cd_private_content_aad (bs : bytes) : counted (private_content_aad * bytes) :=
  let+ (g, bs) := cd_opaque bs in
  let+ (e, bs) := c_read_u64 bs in
  let+ (t, bs) := cd_content_type bs in
  let+ (a, bs) := cd_opaque bs in
  ret (MkPrivateAAD g e t a, bs).
(** framing/group_info.rs:19-42 *)
Definition cd_group_info (bs : bytes) : counted (group_info * bytes) :=
  let+ (c, bs) := cd_group_context bs in
  let+ (e, bs) := cd_extensions bs in
  let+ (t, bs) := cd_opaque bs in
  let+ (i, bs) := c_read_u32 bs in
  let+ (s, bs) := cd_opaque bs in
  ret (MkGroupInfo c e t i s, bs).
(** framing/group_info.rs:116-143 *)
Definition cd_group_secrets (bs : bytes) : counted (group_secrets * bytes) :=
  let+ (j, bs) := cd_opaque bs in
  let+ (p, bs) := cd_option cd_opaque bs in
  let+ (l, bs) := cd_vector cd_psk_id bs in
  ret (MkGroupSecrets j p l, bs).
(** framing/welcome.rs:147-162 *)
Definition cd_egs (bs : bytes) : counted (encrypted_group_secrets * bytes) :=
  let+ (n, bs) := cd_key_package_ref bs in
  let+ (s, bs) := cd_hpke_ciphertext bs in
  ret (MkEGS n s, bs).
(** framing/welcome.rs:18-43 *)
Definition cd_welcome (bs : bytes) : counted (welcome * bytes) :=
  let+ (c, bs) := c_read_u16 bs in
  let+ (l, bs) := cd_vector cd_egs bs in
  let+ (g, bs) := cd_opaque bs in
  ret (MkWelcome (cipher_suite_of_u16 c) l g, bs).
(** framing/mod.rs:393-415 *)
Definition cd_wire_message (bs : bytes) : counted (wire_message * bytes) :=
  let+ _ := uncounted (need 1 bs) in
  let+ (w, bs) := cd_wire_format bs in
  match w with
  | WFPublicMessage => let+ (m, bs) := cd_public_message bs in ret (WMPublic m, bs)
  | WFPrivateMessage => let+ (m, bs) := cd_private_message bs in ret (WMPrivate m, bs)
  | WFWelcome => let+ (m, bs) := cd_welcome bs in ret (WMWelcome m, bs)
  | WFGroupInfo => let+ (m, bs) := cd_group_info bs in ret (WMGroupInfo m, bs)
  | WFKeyPackage => let+ (m, bs) := cd_key_package bs in ret (WMKeyPackage m, bs)
  end.
(** framing/mod.rs:518-538 *)
Definition cd_mls_message (bs : bytes) : counted (mls_message * bytes) :=
  let+ (v, bs) := c_read_u16 bs in
  if negb (is_mls10 (version_of_u16 v)) then fail (InvalidProtocolVersion (u16_of_version (version_of_u16 v)))
  else
    let+ (m, bs) := cd_wire_message bs in
    ret (MkMLSMessage (version_of_u16 v) m, bs).
(** key_schedule/mod.rs:219-241 *)
Definition cd_confirmed_input (bs : bytes) : counted (confirmed_input * bytes) :=
  let+ (w, bs) := cd_wire_format bs in
  let+ (c, bs) := cd_framed_content bs in
  match fc_content c with
  | CApplication _ | CProposal _ => fail ConfirmedTranscriptHashInputContainContentCommitOnly
  | CCommit _ => let+ (s, bs) := cd_opaque bs in ret (MkConfirmedInput w c s, bs)
  end.

(** [takes c f K]: [c] is [f], counted; it takes at least as many steps as bytes are read, and at most [K] for each byte read, or for
    each byte there is when reading fails. *)
Definition takes {A} (c : bytes -> counted (A * bytes)) (f : bytes -> res (A * bytes)) (K : N) : Prop :=
  forall bs, fst (c bs) = f bs /\ steps (c bs) <= K * N.of_nat (length bs) /\
    forall a rest, f bs = Ok (a, rest) ->
      exists n, N.of_nat (length bs) = n + N.of_nat (length rest) /\ n <= steps (c bs) <= K * n.
