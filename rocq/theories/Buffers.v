(** The serializers and deserializers once more, with the caller's buffer in view: what it holds when the call has returned, whether it
    succeeded or not. In Wire.v and Serde.v the outcome of a failed call is the error alone. The functions below are named as there, with
    [rd_] for [de_] and [wr_] for [se_]; that they agree with them is part of C116. *)
From Verif Require Export Wire.
Local Open Scope N_scope.

(** * Reading: [buf: &mut B where B: Buf], utilities/serde/mod.rs:125-129 *)

(** How a call ends, and what is then left in the buffer (utilities/serde/mod.rs:125-129). *)
Definition reading (A : Type) : Type := (res A * bytes)%type.
(** [let p = m?; k] on the same buffer, as in utilities/serde/mod.rs:52. *)
Definition rbind {A B} (m : reading A) (k : A * bytes -> reading B) : reading B :=
  match m with
  | (Ok a, bs) => k (a, bs)
  | (Err e, bs) => (Err e, bs) | (Panic, bs) => (Panic, bs) | (Hang, bs) => (Hang, bs)
  end.
Notation "'let>' p ':=' m 'in' k" := (rbind m (fun p => k))
  (at level 61, p pattern, m at next level, k at level 200, right associativity).

(** The reads of Base.v take the bytes they return and nothing else (Buf::get_u8 and so on), as at utilities/serde/mod.rs:14. *)
Definition r_get_be (k : nat) (bs : bytes) : reading N :=
  match get_be k bs with Ok (v, rest) => (Ok v, rest) | Err e => (Err e, bs) | Panic => (Panic, bs) | Hang => (Hang, bs) end.
(** Buf::get_u16, as in extensibility/mod.rs:103. *)
Definition r_get_u16 := r_get_be 2.
(** Buf::get_u32, as in framing/proposal.rs:236. *)
Definition r_get_u32 := r_get_be 4.
(** Buf::get_u64, as in framing/mod.rs:482. *)
Definition r_get_u64 := r_get_be 8.
(** [if buf.remaining() < k { return Err(BufferTooSmall) }] takes nothing: utilities/serde/mod.rs:11-13. *)
Definition r_need (k : nat) (bs : bytes) : reading unit := (need k bs, bs).
(** A checked one-byte read: utilities/serde/mod.rs:11-14. *)
Definition r_read_u8 (bs : bytes) : reading N := let> (_, bs) := r_need 1 bs in r_get_be 1 bs.
(** A checked two-byte read: extensibility/mod.rs:100-103. *)
Definition r_read_u16 (bs : bytes) : reading N := let> (_, bs) := r_need 2 bs in r_get_u16 bs.
(** A checked four-byte read: framing/proposal.rs:232-236. *)
Definition r_read_u32 (bs : bytes) : reading N := let> (_, bs) := r_need 4 bs in r_get_u32 bs.
(** A checked eight-byte read: framing/mod.rs:479-482. *)
Definition r_read_u64 (bs : bytes) : reading N := let> (_, bs) := r_need 8 bs in r_get_u64 bs.
(** Buf::copy_to_bytes: utilities/serde/mod.rs:57, 81. *)
Definition r_copy (n : N) (bs : bytes) : reading bytes :=
  match copy_to_bytes n bs with Ok (v, rest) => (Ok v, rest) | Err e => (Err e, bs) | Panic => (Panic, bs) | Hang => (Hang, bs) end.

(** utilities/serde/mod.rs:23-29 *)
Fixpoint r_varint_tail (k : nat) (v : N) (bs : bytes) : reading N :=
  match k with
  | O => (Ok v, bs)
  | S k' => let> (b, bs) := r_read_u8 bs in r_varint_tail k' (N.shiftl v 8 + b) bs
  end.
(** utilities/serde/mod.rs:10-36 *)
Definition rd_varint (bs : bytes) : reading N :=
  let> (b, bs) := r_read_u8 bs in
  let prefix := N.shiftr b 6 in
  if prefix =? 3 then (Err InvalidVariableLengthIntegerPrefix, bs) else
  let n := N.shiftl 1 prefix in
  let v := N.land b 63 in
  let> (v, bs) := r_varint_tail (N.to_nat (n - 1)) v bs in
  if (1 <=? prefix) && (v <? N.shiftl 1 (8 * (n / 2) - 2))
  then (Err MinimumEncodingWasNotUsed, bs)
  else (Ok v, bs).
(** utilities/serde/mod.rs:51-58 *)
Definition rd_opaque (bs : bytes) : reading bytes :=
  let> (n, bs) := rd_varint bs in
  if N.of_nat (length bs) <? n then (Err BufferTooSmall, bs)
  else r_copy n bs.
(** The loop over the elements, utilities/serde/mod.rs:82-85: it works on a buffer of its own, which is dropped. *)
Fixpoint r_vec_loop {A} (f : bytes -> reading A) (fuel : nat) (bs : bytes) : res (list A) :=
  match bs with
  | [] => Ok []
  | _ :: _ =>
      match fuel with
      | O => Hang
      | S k => let '(o, r) := f bs in
               let* a := o in
               let* l := r_vec_loop f k r in
               Ok (a :: l)
      end
  end.
(** utilities/serde/mod.rs:72-87: the whole vector is taken from the buffer before its elements are looked at. *)
Definition rd_vector {A} (f : bytes -> reading A) (bs : bytes) : reading (list A) :=
  let> (n, bs) := rd_varint bs in
  if N.of_nat (length bs) <? n then (Err BufferTooSmall, bs) else
  let> (v, bs) := r_copy n bs in
  (r_vec_loop f (length v) v, bs).
(** utilities/serde/mod.rs:106-117 *)
Definition rd_optflag (bs : bytes) : reading bool :=
  let> (b, bs) := r_read_u8 bs in
  if b =? 0 then (Ok false, bs)
  else if b =? 1 then (Ok true, bs)
  else (Err InvalidOptionalValue, bs).
(** ratchet_tree/mod.rs:262-268, framing/commit.rs:24-34, framing/group_info.rs:123-131 *)
Definition rd_option {A} (f : bytes -> reading A) (bs : bytes) : reading (option A) :=
  let> (b, bs) := rd_optflag bs in
  if b then let> (a, bs) := f bs in (Ok (Some a), bs) else (Ok None, bs).

(** crypto/mod.rs:27-35 *)
Definition rd_secret_key : bytes -> reading secret_key := rd_opaque.
(** crypto/credential.rs:61-69 *)
Definition rd_identity : bytes -> reading identity := rd_opaque.
(** crypto/credential.rs:94-104 *)
Definition rd_certificate : bytes -> reading certificate := rd_opaque.
(** crypto/credential.rs:164-190 *)
Definition rd_credential (bs : bytes) : reading credential :=
  let> (t, bs) := r_read_u16 bs in
  match credential_type_of_u16 t with
  | CtBasic => let> (i, bs) := rd_identity bs in (Ok (CredBasic i), bs)
  | CtX509 => let> (l, bs) := rd_vector rd_certificate bs in (Ok (CredX509 l), bs)
  | CtUnknown _ => (Err InvalidCredentialTypeValue, bs)
  end.
(** crypto/provider/mod.rs:66-85 *)
Definition rd_signature_scheme (bs : bytes) : reading signature_scheme :=
  let> (v, bs) := r_read_u16 bs in
  if v =? 0x0403 then (Ok ECDSA_SECP256R1_SHA256, bs)
  else if v =? 0x0503 then (Ok ECDSA_SECP384R1_SHA384, bs)
  else if v =? 0x0603 then (Ok ECDSA_SECP521R1_SHA512, bs)
  else if v =? 0x0807 then (Ok ED25519, bs)
  else if v =? 0x0808 then (Ok ED448, bs)
  else (Err (InvalidSignatureSchemeValue v), bs).
(** crypto/key_pair.rs:15-30 *)
Definition rd_signature_key_pair (bs : bytes) : reading signature_key_pair :=
  let> (a, bs) := rd_secret_key bs in
  let> (b, bs) := rd_secret_key bs in
  let> (c, bs) := rd_signature_scheme bs in
  (Ok (MkSigKeyPair a b c), bs).
(** crypto/key_pair.rs:68-81 *)
Definition rd_hpke_key_pair (bs : bytes) : reading hpke_key_pair :=
  let> (a, bs) := rd_secret_key bs in
  let> (b, bs) := rd_secret_key bs in
  (Ok (MkHpkeKeyPair a b), bs).
(** framing/mod.rs:70-81, 83-94 *)
Definition rd_content_type (bs : bytes) : reading content_type :=
  let> (v, bs) := r_read_u8 bs in
  match v with
  | 1 => (Ok CTApplication, bs) | 2 => (Ok CTProposal, bs) | 3 => (Ok CTCommit, bs)
  | _ => (Err (InvalidContentTypeValue v), bs)
  end.
(** framing/mod.rs:192-217 *)
Definition rd_sender_type (bs : bytes) : reading sender_type :=
  let> (v, bs) := r_read_u8 bs in
  match v with
  | 1 => (Ok STMember, bs) | 2 => (Ok STExternal, bs)
  | 3 => (Ok STNewMemberProposal, bs) | 4 => (Ok STNewMemberCommit, bs)
  | _ => (Err (InvalidSenderTypeValue v), bs)
  end.
(** framing/mod.rs:246-273 *)
Definition rd_sender (bs : bytes) : reading sender :=
  let> (_, bs) := r_need 1 bs in
  let> (t, bs) := rd_sender_type bs in
  match t with
  | STMember => let> (v, bs) := r_read_u32 bs in (Ok (SMember v), bs)
  | STExternal => let> (v, bs) := r_read_u32 bs in (Ok (SExternal v), bs)
  | STNewMemberProposal => (Ok SNewMemberProposal, bs)
  | STNewMemberCommit => (Ok SNewMemberCommit, bs)
  end.
(** framing/mod.rs:327-354 *)
Definition rd_wire_format (bs : bytes) : reading wire_format :=
  let> (v, bs) := r_read_u16 bs in
  match v with
  | 1 => (Ok WFPublicMessage, bs) | 2 => (Ok WFPrivateMessage, bs) | 3 => (Ok WFWelcome, bs)
  | 4 => (Ok WFGroupInfo, bs) | 5 => (Ok WFKeyPackage, bs)
  | _ => (Err (InvalidWireFormatValue v), bs)
  end.
(** extensibility/mod.rs:99-110 *)
Definition rd_extension (bs : bytes) : reading extension :=
  let> (t, bs) := r_read_u16 bs in
  let> (d, bs) := rd_opaque bs in
  (Ok (MkExtension (extension_type_of_u16 t) d), bs).
(** extensibility/mod.rs:96-113 *)
Definition rd_extensions : bytes -> reading extensions := rd_vector rd_extension.
(** extensibility/mod.rs:141-176 *)
Definition rd_application_id : bytes -> reading bytes := rd_opaque.
(** extensibility/mod.rs:451-459 *)
Definition rd_unknown_extension : bytes -> reading bytes := rd_opaque.
(** extensibility/mod.rs:340-376 *)
Definition rd_external_pub : bytes -> reading bytes := rd_secret_key.
(** extensibility/mod.rs:405-419 *)
Definition rd_external_senders (bs : bytes) : reading external_senders :=
  let> (k, bs) := rd_secret_key bs in
  let> (c, bs) := rd_credential bs in
  (Ok (MkExtSenders k c), bs).
(** framing/proposal.rs:60-71 *)
Definition rd_proposal_type (bs : bytes) : reading proposal_type :=
  let> (_, bs) := r_need 1 bs in
  let> (v, bs) := r_get_u16 bs in
  (Ok (proposal_type_of_u16 v), bs).
(** ratchet_tree/leaf_node.rs:86-132, 150-193; extensibility/mod.rs:264-291, 307-332 *)
Definition rd_u16_as {A} (f : N -> A) (bs : bytes) : reading A :=
  let> (v, bs) := r_read_u16 bs in (Ok (f v), bs).
(** extensibility/mod.rs:257-299 *)
Definition rd_required_capabilities (bs : bytes) : reading required_capabilities :=
  let> (e, bs) := rd_vector (rd_u16_as extension_type_of_u16) bs in
  let> (p, bs) := rd_vector (rd_u16_as proposal_type_of_u16) bs in
  let> (c, bs) := rd_vector (rd_u16_as credential_type_of_u16) bs in
  (Ok (MkRequiredCapabilities e p c), bs).
(** ratchet_tree/leaf_node.rs:209-227 *)
Definition rd_lifetime (bs : bytes) : reading lifetime :=
  let> (_, bs) := r_need 8 bs in
  let> (b, bs) := r_get_u64 bs in
  let> (a, bs) := r_get_u64 bs in
  (Ok (MkLifetime b a), bs).
(** ratchet_tree/leaf_node.rs:27-44 *)
Definition rd_leaf_node_source (bs : bytes) : reading leaf_node_source :=
  let> (v, bs) := r_read_u8 bs in
  match v with
  | 1 => let> (l, bs) := rd_lifetime bs in (Ok (LSKeyPackage l), bs)
  | 2 => (Ok LSUpdate, bs)
  | 3 => let> (h, bs) := rd_opaque bs in (Ok (LSCommit h), bs)
  | _ => (Err (InvalidLeafNodeSourceValue v), bs)
  end.
(** ratchet_tree/leaf_node.rs:78-142 *)
Definition rd_capabilities (bs : bytes) : reading capabilities :=
  let> (v, bs) := rd_vector (rd_u16_as version_of_u16) bs in
  let> (s, bs) := rd_vector (rd_u16_as cipher_suite_of_u16) bs in
  let> (e, bs) := rd_vector (rd_u16_as extension_type_of_u16) bs in
  let> (p, bs) := rd_vector (rd_u16_as proposal_type_of_u16) bs in
  let> (c, bs) := rd_vector (rd_u16_as credential_type_of_u16) bs in
  (Ok (MkCapabilities v s e p c), bs).
(** ratchet_tree/leaf_node.rs:278-302 *)
Definition rd_leaf_payload (bs : bytes) : reading leaf_node_payload :=
  let> (e, bs) := rd_secret_key bs in
  let> (s, bs) := rd_secret_key bs in
  let> (c, bs) := rd_credential bs in
  let> (cap, bs) := rd_capabilities bs in
  let> (src, bs) := rd_leaf_node_source bs in
  let> (ext, bs) := rd_extensions bs in
  (Ok (MkLeafPayload e s c cap src ext), bs).
(** ratchet_tree/leaf_node.rs:326-337 *)
Definition rd_leaf_node (bs : bytes) : reading leaf_node :=
  let> (p, bs) := rd_leaf_payload bs in
  let> (s, bs) := rd_opaque bs in
  (Ok (MkLeafNode p s), bs).
(** ratchet_tree/parent_node.rs:35-42 *)
Definition rd_unmerged_leaf (bs : bytes) : reading N := let> (_, bs) := r_need 1 bs in r_get_u32 bs.
(** ratchet_tree/parent_node.rs:25-50 *)
Definition rd_parent_node (bs : bytes) : reading parent_node :=
  let> (k, bs) := rd_secret_key bs in
  let> (h, bs) := rd_opaque bs in
  let> (u, bs) := rd_vector rd_unmerged_leaf bs in
  (Ok (MkParentNode k h u), bs).
(** ratchet_tree/mod.rs:36-50 *)
Definition rd_hpke_ciphertext (bs : bytes) : reading hpke_ciphertext :=
  let> (k, bs) := rd_opaque bs in
  let> (c, bs) := rd_opaque bs in
  (Ok (MkHpkeCiphertext k c), bs).
(** ratchet_tree/mod.rs:71-90 *)
Definition rd_update_path_node (bs : bytes) : reading update_path_node :=
  let> (k, bs) := rd_secret_key bs in
  let> (l, bs) := rd_vector rd_hpke_ciphertext bs in
  (Ok (MkUpdatePathNode k l), bs).
(** ratchet_tree/mod.rs:121-137 *)
Definition rd_update_path (bs : bytes) : reading update_path :=
  let> (l, bs) := rd_leaf_node bs in
  let> (n, bs) := rd_vector rd_update_path_node bs in
  (Ok (MkUpdatePath l n), bs).
(** ratchet_tree/mod.rs:163-180 *)
Definition rd_node_type (bs : bytes) : reading node_type :=
  let> (v, bs) := r_read_u8 bs in
  match v with 1 => (Ok NtLeaf, bs) | 2 => (Ok NtParent, bs) | _ => (Err (InvalidNodeTypeValue v), bs) end.
(** ratchet_tree/mod.rs:214-230 *)
Definition rd_node (bs : bytes) : reading node :=
  let> (_, bs) := r_need 1 bs in
  let> (t, bs) := rd_node_type bs in
  match t with
  | NtLeaf => let> (l, bs) := rd_leaf_node bs in (Ok (Leaf l), bs)
  | NtParent => let> (p, bs) := rd_parent_node bs in (Ok (Parent p), bs)
  end.
(** ratchet_tree/mod.rs:259-284 *)
Definition rd_ratchet_tree (bs : bytes) : reading ratchet_tree :=
  let> (l, bs) := rd_vector (rd_option rd_node) bs in
  let> (t, bs) := (pad_blank (length l + 1) l, bs) in
  (Ok t, bs).
(** extensibility/mod.rs:180-217 *)
Definition rd_ratchet_tree_extension : bytes -> reading ratchet_tree := rd_ratchet_tree.
(** key_package/mod.rs:41-49 *)
Definition rd_key_package_ref : bytes -> reading key_package_ref := rd_opaque.
(** key_package/mod.rs:71-95 *)
Definition rd_key_package_tbs (bs : bytes) : reading key_package_tbs :=
  let> (_, bs) := r_need 4 bs in
  let> (v, bs) := r_get_u16 bs in
  let> (c, bs) := r_get_u16 bs in
  let> (k, bs) := rd_secret_key bs in
  let> (l, bs) := rd_leaf_node bs in
  let> (e, bs) := rd_extensions bs in
  (Ok (MkKeyPackageTBS (version_of_u16 v) (cipher_suite_of_u16 c) k l e), bs).
(** key_package/mod.rs:118-129 *)
Definition rd_key_package (bs : bytes) : reading key_package :=
  let> (p, bs) := rd_key_package_tbs bs in
  let> (s, bs) := rd_opaque bs in
  (Ok (MkKeyPackage p s), bs).
(** key_schedule/mod.rs:70-106 *)
Definition rd_group_context (bs : bytes) : reading group_context :=
  let> (_, bs) := r_need 4 bs in
  let> (v, bs) := r_get_u16 bs in
  let> (c, bs) := r_get_u16 bs in
  let> (g, bs) := rd_opaque bs in
  let> (e, bs) := r_read_u64 bs in
  let> (t, bs) := rd_opaque bs in
  let> (h, bs) := rd_opaque bs in
  if negb (is_mls10 (version_of_u16 v)) then (Err (InvalidProposalTypeValue (u16_of_version (version_of_u16 v))), bs)
  else
    let> (x, bs) := rd_extensions bs in
    (Ok (MkGroupContext (version_of_u16 v) (cipher_suite_of_u16 c) g e t h x), bs).
(** key_schedule/mod.rs:330-353 *)
Definition rd_psk_type (bs : bytes) : reading psk_type :=
  let> (v, bs) := r_read_u8 bs in
  match v with 1 => (Ok PskExternal, bs) | 2 => (Ok PskResumption, bs) | _ => (Err (InvalidPskTypeValue v), bs) end.
(** key_schedule/mod.rs:429-454 *)
Definition rd_psk_usage (bs : bytes) : reading psk_usage :=
  let> (v, bs) := r_read_u8 bs in
  match v with
  | 1 => (Ok UseApplication, bs) | 2 => (Ok UseReinit, bs) | 3 => (Ok UseBranch, bs)
  | _ => (Err (InvalidResumptionPSKUsageValue v), bs)
  end.
(** key_schedule/mod.rs:474-492 *)
Definition rd_resumption (bs : bytes) : reading resumption :=
  let> (u, bs) := rd_psk_usage bs in
  let> (g, bs) := rd_opaque bs in
  let> (e, bs) := r_read_u64 bs in
  (Ok (MkResumption u g e), bs).
(** key_schedule/mod.rs:378-394 *)
Definition rd_psk (bs : bytes) : reading psk :=
  let> (_, bs) := r_need 2 bs in
  let> (t, bs) := rd_psk_type bs in
  match t with
  | PskExternal => let> (i, bs) := rd_opaque bs in (Ok (PExternal i), bs)
  | PskResumption => let> (r, bs) := rd_resumption bs in (Ok (PResumption r), bs)
  end.
(** key_schedule/mod.rs:514-528 *)
Definition rd_psk_id (bs : bytes) : reading psk_id :=
  let> (_, bs) := r_need 1 bs in
  let> (p, bs) := rd_psk bs in
  let> (n, bs) := rd_opaque bs in
  (Ok (MkPskId p n), bs).
(** key_schedule/mod.rs:548-563 *)
Definition rd_psk_label (bs : bytes) : reading psk_label :=
  let> (p, bs) := rd_psk_id bs in
  let> (_, bs) := r_need 4 bs in
  let> (i, bs) := r_get_u16 bs in
  let> (c, bs) := r_get_u16 bs in
  (Ok (MkPskLabel p i c), bs).
(** framing/proposal.rs:175-184 *)
Definition rd_add_proposal (bs : bytes) : reading add_proposal :=
  let> (k, bs) := rd_key_package bs in (Ok (MkAdd k), bs).
(** framing/proposal.rs:201-210 *)
Definition rd_update_proposal (bs : bytes) : reading update_proposal :=
  let> (k, bs) := rd_leaf_node bs in (Ok (MkUpdate k), bs).
(** framing/proposal.rs:227-239 *)
Definition rd_remove_proposal (bs : bytes) : reading remove_proposal :=
  let> (v, bs) := r_read_u32 bs in (Ok (MkRemove v), bs).
(** framing/proposal.rs:258-267 *)
Definition rd_psk_proposal (bs : bytes) : reading psk_proposal :=
  let> (p, bs) := rd_psk_id bs in (Ok (MkPskProposal p), bs).
(** framing/proposal.rs:286-309 *)
Definition rd_reinit_proposal (bs : bytes) : reading reinit_proposal :=
  let> (g, bs) := rd_opaque bs in
  let> (_, bs) := r_need 4 bs in
  let> (v, bs) := r_get_u16 bs in
  let> (c, bs) := r_get_u16 bs in
  let> (e, bs) := rd_extensions bs in
  (Ok (MkReInit g (version_of_u16 v) (cipher_suite_of_u16 c) e), bs).
(** framing/proposal.rs:328-337 *)
Definition rd_external_init_proposal (bs : bytes) : reading external_init_proposal :=
  let> (k, bs) := rd_opaque bs in (Ok (MkExternalInit k), bs).
(** framing/proposal.rs:353-363 *)
Definition rd_gce_proposal (bs : bytes) : reading gce_proposal :=
  let> (e, bs) := rd_extensions bs in (Ok (MkGce e), bs).
(** framing/proposal.rs:101-129 *)
Definition rd_proposal (bs : bytes) : reading proposal :=
  let> (t, bs) := r_read_u16 bs in
  match proposal_type_of_u16 t with
  | PtAdd => let> (p, bs) := rd_add_proposal bs in (Ok (PAdd p), bs)
  | PtUpdate => let> (p, bs) := rd_update_proposal bs in (Ok (PUpdate p), bs)
  | PtRemove => let> (p, bs) := rd_remove_proposal bs in (Ok (PRemove p), bs)
  | PtPreSharedKey => let> (p, bs) := rd_psk_proposal bs in (Ok (PPreSharedKey p), bs)
  | PtReInit => let> (p, bs) := rd_reinit_proposal bs in (Ok (PReInit p), bs)
  | PtExternalInit => let> (p, bs) := rd_external_init_proposal bs in (Ok (PExternalInit p), bs)
  | PtGroupContextExtensions => let> (p, bs) := rd_gce_proposal bs in (Ok (PGroupContextExtensions p), bs)
  | PtUnknown v => (Err (InvalidProposalTypeValue v), bs)
  end.
(** framing/proposal.rs:388-404 *)
Definition rd_proposal_or_ref (bs : bytes) : reading proposal_or_ref :=
  let> (v, bs) := r_read_u8 bs in
  match v with
  | 1 => let> (p, bs) := rd_proposal bs in (Ok (PorProposal p), bs)
  | 2 => let> (r, bs) := rd_opaque bs in (Ok (PorReference r), bs)
  | _ => (Err (InvalidProposalOrRefValue v), bs)
  end.
(** framing/commit.rs:14-35 *)
Definition rd_commit (bs : bytes) : reading commit :=
  let> (l, bs) := rd_vector rd_proposal_or_ref bs in
  let> (p, bs) := rd_option rd_update_path bs in
  (Ok (MkCommit l p), bs).
(** framing/mod.rs:125-141 *)
Definition rd_content (bs : bytes) : reading content :=
  let> (_, bs) := r_need 1 bs in
  let> (t, bs) := rd_content_type bs in
  match t with
  | CTApplication => let> (d, bs) := rd_opaque bs in (Ok (CApplication d), bs)
  | CTProposal => let> (p, bs) := rd_proposal bs in (Ok (CProposal p), bs)
  | CTCommit => let> (c, bs) := rd_commit bs in (Ok (CCommit c), bs)
  end.
(** framing/mod.rs:472-495 *)
Definition rd_framed_content (bs : bytes) : reading framed_content :=
  let> (g, bs) := rd_opaque bs in
  let> (e, bs) := r_read_u64 bs in
  let> (s, bs) := rd_sender bs in
  let> (a, bs) := rd_opaque bs in
  let> (c, bs) := rd_content bs in
  (Ok (MkFramed g e s a c), bs).
(** framing/mod.rs:718-734 *)
Definition rd_auth_data (ct : content_type) (bs : bytes) : reading auth_data :=
  let> (s, bs) := rd_opaque bs in
  match ct with
  | CTCommit => let> (t, bs) := rd_opaque bs in (Ok (MkAuth s t), bs)
  | _ => (Ok (MkAuth s []), bs)
  end.
(** framing/mod.rs:559-575 *)
Definition rd_auth_content (bs : bytes) : reading auth_content :=
  let> (w, bs) := rd_wire_format bs in
  let> (c, bs) := rd_framed_content bs in
  let> (a, bs) := rd_auth_data (content_type_of (fc_content c)) bs in
  (Ok (MkAuthContent w c a), bs).
(** framing/mod.rs:659-683 *)
Definition rd_framed_content_tbs (bs : bytes) : reading framed_content_tbs :=
  let> (v, bs) := r_read_u16 bs in
  let> (w, bs) := rd_wire_format bs in
  let> (c, bs) := rd_framed_content bs in
  match fc_sender c with
  | SMember _ | SNewMemberCommit =>
      let> (g, bs) := rd_group_context bs in (Ok (MkTBS (version_of_u16 v) w c (Some g)), bs)
  | _ => (Ok (MkTBS (version_of_u16 v) w c None), bs)
  end.
(** framing/mod.rs:815-826 *)
Definition rd_auth_content_tbm (bs : bytes) : reading auth_content_tbm :=
  let> (t, bs) := rd_framed_content_tbs bs in
  let> (a, bs) := rd_auth_data (content_type_of (fc_content (tbs_content t))) bs in
  (Ok (MkTBM t a), bs).
(** framing/mod.rs:868-888 *)
Definition rd_sender_data (bs : bytes) : reading sender_data :=
  let> (_, bs) := r_need 12 bs in
  let> (i, bs) := r_get_u32 bs in
  let> (g, bs) := r_get_u32 bs in
  let> (r, bs) := r_copy 4 bs in
  (Ok (MkSenderData i g r), bs).
(** framing/public_message.rs:12-33 *)
Definition rd_public_message (bs : bytes) : reading public_message :=
  let> (c, bs) := rd_framed_content bs in
  let> (a, bs) := rd_auth_data (content_type_of (fc_content c)) bs in
  match fc_sender c with
  | SMember _ => let> (t, bs) := rd_opaque bs in (Ok (MkPublic c a (Some t)), bs)
  | _ => (Ok (MkPublic c a None), bs)
  end.
(** framing/private_message.rs:15-40 *)
Definition rd_private_message (bs : bytes) : reading private_message :=
  let> (g, bs) := rd_opaque bs in
  let> (e, bs) := r_read_u64 bs in
  let> (t, bs) := rd_content_type bs in
  let> (a, bs) := rd_opaque bs in
  let> (s, bs) := rd_opaque bs in
  let> (c, bs) := rd_opaque bs in
  (Ok (MkPrivate g e t a s c), bs).
(** framing/private_message.rs:248-269 *)
Definition rd_private_content_aad (bs : bytes) : reading private_content_aad :=
  let> (g, bs) := rd_opaque bs in
  let> (e, bs) := r_read_u64 bs in
  let> (t, bs) := rd_content_type bs in
  let> (a, bs) := rd_opaque bs in
  (Ok (MkPrivateAAD g e t a), bs).
(** framing/group_info.rs:19-42 *)
Definition rd_group_info (bs : bytes) : reading group_info :=
  let> (c, bs) := rd_group_context bs in
  let> (e, bs) := rd_extensions bs in
  let> (t, bs) := rd_opaque bs in
  let> (i, bs) := r_read_u32 bs in
  let> (s, bs) := rd_opaque bs in
  (Ok (MkGroupInfo c e t i s), bs).
(** framing/group_info.rs:116-143 *)
Definition rd_group_secrets (bs : bytes) : reading group_secrets :=
  let> (j, bs) := rd_opaque bs in
  let> (p, bs) := rd_option rd_opaque bs in
  let> (l, bs) := rd_vector rd_psk_id bs in
  (Ok (MkGroupSecrets j p l), bs).
(** framing/welcome.rs:147-162 *)
Definition rd_egs (bs : bytes) : reading encrypted_group_secrets :=
  let> (n, bs) := rd_key_package_ref bs in
  let> (s, bs) := rd_hpke_ciphertext bs in
  (Ok (MkEGS n s), bs).
(** framing/welcome.rs:18-43 *)
Definition rd_welcome (bs : bytes) : reading welcome :=
  let> (c, bs) := r_read_u16 bs in
  let> (l, bs) := rd_vector rd_egs bs in
  let> (g, bs) := rd_opaque bs in
  (Ok (MkWelcome (cipher_suite_of_u16 c) l g), bs).
(** framing/mod.rs:393-415 *)
Definition rd_wire_message (bs : bytes) : reading wire_message :=
  let> (_, bs) := r_need 1 bs in
  let> (w, bs) := rd_wire_format bs in
  match w with
  | WFPublicMessage => let> (m, bs) := rd_public_message bs in (Ok (WMPublic m), bs)
  | WFPrivateMessage => let> (m, bs) := rd_private_message bs in (Ok (WMPrivate m), bs)
  | WFWelcome => let> (m, bs) := rd_welcome bs in (Ok (WMWelcome m), bs)
  | WFGroupInfo => let> (m, bs) := rd_group_info bs in (Ok (WMGroupInfo m), bs)
  | WFKeyPackage => let> (m, bs) := rd_key_package bs in (Ok (WMKeyPackage m), bs)
  end.
(** framing/mod.rs:518-538 *)
Definition rd_mls_message (bs : bytes) : reading mls_message :=
  let> (v, bs) := r_read_u16 bs in
  if negb (is_mls10 (version_of_u16 v)) then (Err (InvalidProtocolVersion (u16_of_version (version_of_u16 v))), bs)
  else
    let> (m, bs) := rd_wire_message bs in
    (Ok (MkMLSMessage (version_of_u16 v) m), bs).
(** key_schedule/mod.rs:219-241 *)
Definition rd_confirmed_input (bs : bytes) : reading confirmed_input :=
  let> (w, bs) := rd_wire_format bs in
  let> (c, bs) := rd_framed_content bs in
  match fc_content c with
  | CApplication _ | CProposal _ => (Err ConfirmedTranscriptHashInputContainContentCommitOnly, bs)
  | CCommit _ => let> (s, bs) := rd_opaque bs in (Ok (MkConfirmedInput w c s), bs)
  end.

(** * Writing: [buf: &mut B where B: BufMut], utilities/serde/mod.rs:140-145 *)

(** A BufMut: the bytes put into it, and how many more it takes. A Vec or a BytesMut grows ([None]); a slice [&mut \[u8\]] or a
    bytes::buf::Limit does not (utilities/serde/mod.rs:6). Simplification: a growable buffer never runs into usize::MAX. *)
Record out := MkOut { held : bytes; room : option N }.
(** A call that writes, on the buffer given to it: utilities/serde/mod.rs:140-145. *)
Definition writing : Type := out -> res unit * out.
(** [x?; y], as in utilities/serde/mod.rs:65-67. *)
Definition w_then (x y : writing) : writing := fun b =>
  match x b with
  | (Ok _, b) => y b
  | (Err e, b) => (Err e, b) | (Panic, b) => (Panic, b) | (Hang, b) => (Hang, b)
  end.
Notation "x >> y" := (w_then x y) (at level 60, right associativity).
(** [Ok(())], as at utilities/serde/mod.rs:48. *)
Definition w_done : writing := fun b => (Ok tt, b).
(** [return Err(e)], as at utilities/serde/mod.rs:46. *)
Definition w_fail (e : error) : writing := fun b => (Err e, b).
(** BufMut::put and put_slice (utilities/serde/mod.rs:67): a buffer without room for all of [v] panics, and takes none of it. *)
Definition w_put (v : bytes) : writing := fun b =>
  match room b with
  | None => (Ok tt, MkOut (held b ++ v)%list None)
  | Some r => if r <? N.of_nat (length v) then (Panic, b)
              else (Ok tt, MkOut (held b ++ v)%list (Some (r - N.of_nat (length v))))
  end.
(** BufMut::put_u8, as in utilities/serde/mod.rs:40. *)
Definition w_put_u8 (n : N) : writing := w_put (be 1 n).
(** BufMut::put_u16, as in utilities/serde/mod.rs:42. *)
Definition w_put_u16 (n : N) : writing := w_put (be 2 n).
(** BufMut::put_u32, as in utilities/serde/mod.rs:44. *)
Definition w_put_u32 (n : N) : writing := w_put (be 4 n).
(** BufMut::put_u64, as in framing/mod.rs:502. *)
Definition w_put_u64 (n : N) : writing := w_put (be 8 n).
(** utilities/serde/mod.rs:38-49 *)
Definition wr_varint (n : N) : writing :=
  if n <? N.shiftl 1 6 then w_put_u8 n
  else if n <? N.shiftl 1 14 then w_put_u16 (N.lor (N.shiftl 1 14) n)
  else if n <? N.shiftl 1 30 then w_put_u32 (N.lor (N.shiftl 2 30) n)
  else w_fail VarintExceeds30Bits.
(** utilities/serde/mod.rs:60-70 *)
Definition wr_opaque (v : bytes) : writing :=
  if 2 ^ 32 - 1 <=? N.of_nat (length v) then w_fail OpaqueSizeExceedsMaximumValueOfU32
  else wr_varint (N.of_nat (length v)) >> w_put v.
(** utilities/serde/mod.rs:96-99 *)
Fixpoint wr_elems {A} (g : A -> writing) (l : list A) : writing :=
  match l with
  | [] => w_done
  | a :: r => g a >> wr_elems g r
  end.
(** utilities/serde/mod.rs:89-104: the elements go into a buffer of its own first. *)
Definition wr_vector {A} (g : A -> writing) (l : list A) : writing := fun b =>
  match wr_elems g l (MkOut [] None) with
  | (Ok _, child) => wr_opaque (held child) b
  | (Err e, _) => (Err e, b) | (Panic, _) => (Panic, b) | (Hang, _) => (Hang, b)
  end.
(** utilities/serde/mod.rs:119-123 *)
Definition wr_optflag (p : bool) : writing := w_put_u8 (if p then 1 else 0).
(** ratchet_tree/mod.rs:297-301, framing/commit.rs:46-53, framing/group_info.rs:152-158 *)
Definition wr_option {A} (g : A -> writing) (o : option A) : writing :=
  match o with
  | None => wr_optflag false
  | Some a => wr_optflag true >> g a
  end.

(** crypto/mod.rs:37-45 *)
Definition wr_secret_key : secret_key -> writing := wr_opaque.
(** crypto/credential.rs:71-79 *)
Definition wr_identity : identity -> writing := wr_opaque.
(** crypto/credential.rs:106-114 *)
Definition wr_certificate : certificate -> writing := wr_opaque.
(** crypto/credential.rs:192-208 *)
Definition wr_credential (c : credential) : writing :=
  w_put_u16 (u16_of_credential_type (credential_type_of c)) >>
  match c with
  | CredBasic i => wr_identity i
  | CredX509 l => wr_vector wr_certificate l
  end.
(** crypto/provider/mod.rs:87-96 *)
Definition wr_signature_scheme (s : signature_scheme) : writing :=
  w_put_u16 (u16_of_signature_scheme s).
(** crypto/key_pair.rs:32-42 *)
Definition wr_signature_key_pair (k : signature_key_pair) : writing :=
  wr_secret_key (skp_private k) >> wr_secret_key (skp_public k) >> wr_signature_scheme (skp_scheme k).
(** crypto/key_pair.rs:83-92 *)
Definition wr_hpke_key_pair (k : hpke_key_pair) : writing :=
  wr_secret_key (hkp_private k) >> wr_secret_key (hkp_public k).
(** framing/mod.rs:95-104 *)
Definition wr_content_type (c : content_type) : writing :=
  w_put_u8 match c with CTApplication => 1 | CTProposal => 2 | CTCommit => 3 end.
(** framing/mod.rs:218-227 *)
Definition wr_sender_type (c : sender_type) : writing :=
  w_put_u8 match c with STMember => 1 | STExternal => 2 | STNewMemberProposal => 3 | STNewMemberCommit => 4 end.
(** framing/mod.rs:275-293 *)
Definition wr_sender (s : sender) : writing :=
  wr_sender_type (sender_type_of s) >>
  match s with
  | SMember v => w_put_u32 v
  | SExternal v => w_put_u32 v
  | SNewMemberProposal | SNewMemberCommit => w_done
  end.
(** framing/mod.rs:356-366 *)
Definition wr_wire_format (w : wire_format) : writing :=
  w_put_u16 match w with
          | WFPublicMessage => 1 | WFPrivateMessage => 2 | WFWelcome => 3
          | WFGroupInfo => 4 | WFKeyPackage => 5 end.
(** extensibility/mod.rs:120-123 *)
Definition wr_extension (e : extension) : writing :=
  w_put_u16 (u16_of_extension_type (ext_type e)) >> wr_opaque (ext_data e).
(** extensibility/mod.rs:115-126 *)
Definition wr_extensions : extensions -> writing := wr_vector wr_extension.
(** extensibility/mod.rs:168-176 *)
Definition wr_application_id : bytes -> writing := wr_opaque.
(** extensibility/mod.rs:461-469 *)
Definition wr_unknown_extension : bytes -> writing := wr_opaque.
(** extensibility/mod.rs:368-376 *)
Definition wr_external_pub : bytes -> writing := wr_secret_key.
(** extensibility/mod.rs:421-430 *)
Definition wr_external_senders (e : external_senders) : writing :=
  wr_secret_key (es_signature_key e) >> wr_credential (es_credential e).
(** framing/proposal.rs:73-82 *)
Definition wr_proposal_type (p : proposal_type) : writing := w_put_u16 (u16_of_proposal_type p).
(** ratchet_tree/leaf_node.rs:150-193; extensibility/mod.rs:307-332 *)
Definition wr_u16_as {A} (g : A -> N) (a : A) : writing := w_put_u16 (g a).
(** extensibility/mod.rs:301-336 *)
Definition wr_required_capabilities (r : required_capabilities) : writing :=
  wr_vector (wr_u16_as u16_of_extension_type) (rc_extensions r) >>
  wr_vector (wr_u16_as u16_of_proposal_type) (rc_proposals r) >>
  wr_vector (wr_u16_as u16_of_credential_type) (rc_credentials r).
(** ratchet_tree/leaf_node.rs:229-239 *)
Definition wr_lifetime (l : lifetime) : writing := w_put_u64 (not_before l) >> w_put_u64 (not_after l).
(** ratchet_tree/leaf_node.rs:46-66 *)
Definition wr_leaf_node_source (s : leaf_node_source) : writing :=
  match s with
  | LSKeyPackage l => w_put_u8 1 >> wr_lifetime l
  | LSUpdate => w_put_u8 2
  | LSCommit h => w_put_u8 3 >> wr_opaque h
  end.
(** ratchet_tree/leaf_node.rs:144-197 *)
Definition wr_capabilities (c : capabilities) : writing :=
  wr_vector (wr_u16_as u16_of_version) (cap_versions c) >>
  wr_vector (wr_u16_as u16_of_cipher_suite) (cap_suites c) >>
  wr_vector (wr_u16_as u16_of_extension_type) (cap_extensions c) >>
  wr_vector (wr_u16_as u16_of_proposal_type) (cap_proposals c) >>
  wr_vector (wr_u16_as u16_of_credential_type) (cap_credentials c).
(** ratchet_tree/leaf_node.rs:304-317 *)
Definition wr_leaf_payload (p : leaf_node_payload) : writing :=
  wr_opaque (lp_encryption_key p) >> wr_opaque (lp_signature_key p) >>
  wr_credential (lp_credential p) >> wr_capabilities (lp_capabilities p) >>
  wr_leaf_node_source (lp_source p) >> wr_extensions (lp_extensions p).
(** ratchet_tree/leaf_node.rs:339-348 *)
Definition wr_leaf_node (l : leaf_node) : writing :=
  wr_leaf_payload (ln_payload l) >> wr_opaque (ln_signature l).
(** ratchet_tree/leaf_node.rs:364-389 *)
Definition wr_leaf_node_tbs (p : leaf_node_payload) (t : tree_info_tbs) : writing :=
  wr_leaf_payload p >>
  match lp_source p with
  | LSUpdate | LSCommit _ =>
      match t with
      | TIUpdateOrCommit g i => wr_opaque g >> w_put_u32 i
      | TIKeyPackage => w_done
      end
  | LSKeyPackage _ => w_done
  end.
(** ratchet_tree/parent_node.rs:52-69 *)
Definition wr_parent_node (p : parent_node) : writing :=
  wr_opaque (pn_encryption_key p) >> wr_opaque (pn_parent_hash p) >> wr_vector w_put_u32 (pn_unmerged p).
(** ratchet_tree/mod.rs:52-62 *)
Definition wr_hpke_ciphertext (h : hpke_ciphertext) : writing :=
  wr_opaque (hc_kem_output h) >> wr_opaque (hc_ciphertext h).
(** ratchet_tree/mod.rs:92-107 *)
Definition wr_update_path_node (u : update_path_node) : writing :=
  wr_opaque (upn_encryption_key u) >> wr_vector wr_hpke_ciphertext (upn_encrypted u).
(** ratchet_tree/mod.rs:139-152 *)
Definition wr_update_path (u : update_path) : writing :=
  wr_leaf_node (up_leaf u) >> wr_vector wr_update_path_node (up_nodes u).
(** ratchet_tree/mod.rs:182-199 *)
Definition wr_node_type (t : node_type) : writing := w_put_u8 match t with NtLeaf => 1 | NtParent => 2 end.
(** ratchet_tree/mod.rs:232-244 *)
Definition wr_node (n : node) : writing :=
  wr_node_type (node_type_of n) >>
  match n with Leaf l => wr_leaf_node l | Parent p => wr_parent_node p end.
(** ratchet_tree/mod.rs:286-305 *)
Definition wr_ratchet_tree (t : ratchet_tree) : writing :=
  wr_vector (wr_option wr_node) (trim_blank t).
(** extensibility/mod.rs:209-217 *)
Definition wr_ratchet_tree_extension : ratchet_tree -> writing := wr_ratchet_tree.
(** key_package/mod.rs:51-59 *)
Definition wr_key_package_ref : key_package_ref -> writing := wr_opaque.
(** key_package/mod.rs:97-109 *)
Definition wr_key_package_tbs (k : key_package_tbs) : writing :=
  w_put_u16 (u16_of_version (kp_version k)) >> w_put_u16 (u16_of_cipher_suite (kp_suite k)) >>
  wr_opaque (kp_init_key k) >> wr_leaf_node (kp_leaf k) >> wr_extensions (kp_extensions k).
(** key_package/mod.rs:131-140 *)
Definition wr_key_package (k : key_package) : writing :=
  wr_key_package_tbs (kp_payload k) >> wr_opaque (kp_signature k).
(** key_schedule/mod.rs:107-121 *)
Definition wr_group_context (g : group_context) : writing :=
  w_put_u16 (u16_of_version (gc_version g)) >> w_put_u16 (u16_of_cipher_suite (gc_suite g)) >>
  wr_opaque (gc_group_id g) >> w_put_u64 (gc_epoch g) >> wr_opaque (gc_tree_hash g) >>
  wr_opaque (gc_confirmed g) >> wr_extensions (gc_extensions g).
(** key_schedule/mod.rs:354-363 *)
Definition wr_psk_type (t : psk_type) : writing :=
  w_put_u8 match t with PskExternal => 1 | PskResumption => 2 end.
(** key_schedule/mod.rs:455-464 *)
Definition wr_psk_usage (u : psk_usage) : writing :=
  w_put_u8 match u with UseApplication => 1 | UseReinit => 2 | UseBranch => 3 end.
(** key_schedule/mod.rs:494-505 *)
Definition wr_resumption (r : resumption) : writing :=
  wr_psk_usage (rs_usage r) >> wr_opaque (rs_group_id r) >> w_put_u64 (rs_epoch r).
(** key_schedule/mod.rs:396-408 *)
Definition wr_psk (p : psk) : writing :=
  wr_psk_type (psk_type_of p) >>
  match p with PExternal i => wr_opaque i | PResumption r => wr_resumption r end.
(** key_schedule/mod.rs:529-538 *)
Definition wr_psk_id (p : psk_id) : writing := wr_psk (pi_psk p) >> wr_opaque (pi_nonce p).
(** key_schedule/mod.rs:565-576 *)
Definition wr_psk_label (p : psk_label) : writing :=
  wr_psk_id (pl_id p) >> w_put_u16 (pl_index p) >> w_put_u16 (pl_count p).
(** framing/proposal.rs:186-194 *)
Definition wr_add_proposal (a : add_proposal) : writing := wr_key_package (add_key_package a).
(** framing/proposal.rs:212-220 *)
Definition wr_update_proposal (a : update_proposal) : writing := wr_leaf_node (upd_leaf a).
(** framing/proposal.rs:241-251 *)
Definition wr_remove_proposal (r : remove_proposal) : writing := w_put_u32 (rem_removed r).
(** framing/proposal.rs:268-276 *)
Definition wr_psk_proposal (p : psk_proposal) : writing := wr_psk_id (pp_psk p).
(** framing/proposal.rs:310-321 *)
Definition wr_reinit_proposal (r : reinit_proposal) : writing :=
  wr_opaque (ri_group_id r) >> w_put_u16 (u16_of_version (ri_version r)) >>
  w_put_u16 (u16_of_cipher_suite (ri_suite r)) >> wr_extensions (ri_extensions r).
(** framing/proposal.rs:338-346 *)
Definition wr_external_init_proposal (e : external_init_proposal) : writing := wr_opaque (ei_kem_output e).
(** framing/proposal.rs:364-372 *)
Definition wr_gce_proposal (g : gce_proposal) : writing := wr_extensions (gce_extensions g).
(** framing/proposal.rs:131-168 *)
Definition wr_proposal (p : proposal) : writing :=
  match p with
  | PAdd p => w_put_u16 (u16_of_proposal_type PtAdd) >> wr_add_proposal p
  | PUpdate p => w_put_u16 (u16_of_proposal_type PtUpdate) >> wr_update_proposal p
  | PRemove p => w_put_u16 (u16_of_proposal_type PtRemove) >> wr_remove_proposal p
  | PPreSharedKey p => w_put_u16 (u16_of_proposal_type PtPreSharedKey) >> wr_psk_proposal p
  | PReInit p => w_put_u16 (u16_of_proposal_type PtReInit) >> wr_reinit_proposal p
  | PExternalInit p => w_put_u16 (u16_of_proposal_type PtExternalInit) >> wr_external_init_proposal p
  | PGroupContextExtensions p => w_put_u16 (u16_of_proposal_type PtGroupContextExtensions) >> wr_gce_proposal p
  end.
(** framing/proposal.rs:405-422 *)
Definition wr_proposal_or_ref (p : proposal_or_ref) : writing :=
  match p with
  | PorProposal p => w_put_u8 1 >> wr_proposal p
  | PorReference r => w_put_u8 2 >> wr_opaque r
  end.
(** framing/commit.rs:37-55 *)
Definition wr_commit (c : commit) : writing :=
  wr_vector wr_proposal_or_ref (cm_proposals c) >> wr_option wr_update_path (cm_path c).
(** framing/mod.rs:149-157; framing/private_message.rs:227-231 *)
Definition wr_content_body (c : content) : writing :=
  match c with
  | CApplication d => wr_opaque d
  | CProposal p => wr_proposal p
  | CCommit m => wr_commit m
  end.
(** framing/mod.rs:142-161 *)
Definition wr_content (c : content) : writing := wr_content_type (content_type_of c) >> wr_content_body c.
(** framing/mod.rs:497-509 *)
Definition wr_framed_content (f : framed_content) : writing :=
  wr_opaque (fc_group_id f) >> w_put_u64 (fc_epoch f) >> wr_sender (fc_sender f) >>
  wr_opaque (fc_auth_data f) >> wr_content (fc_content f).
(** framing/mod.rs:736-747 *)
Definition wr_auth_data (ct : content_type) (a : auth_data) : writing :=
  wr_opaque (ad_signature a) >>
  match ct with
  | CTCommit => wr_opaque (ad_confirmation_tag a)
  | _ => w_done
  end.
(** framing/mod.rs:577-588 *)
Definition wr_auth_content (a : auth_content) : writing :=
  wr_wire_format (ac_wire_format a) >> wr_framed_content (ac_content a) >>
  wr_auth_data (content_type_of (fc_content (ac_content a))) (ac_auth a).
(** framing/mod.rs:685-707 *)
Definition wr_framed_content_tbs (t : framed_content_tbs) : writing :=
  w_put_u16 (u16_of_version (tbs_version t)) >> wr_wire_format (tbs_wire_format t) >>
  wr_framed_content (tbs_content t) >>
  match fc_sender (tbs_content t) with
  | SMember _ | SNewMemberCommit =>
      match tbs_context t with
      | Some g => wr_group_context g
      | None => w_fail SenderMemberAndNewMemberCommitNoGroupContext
      end
  | _ => w_done
  end.
(** framing/mod.rs:828-838 *)
Definition wr_auth_content_tbm (t : auth_content_tbm) : writing :=
  wr_framed_content_tbs (tbm_tbs t) >>
  wr_auth_data (content_type_of (fc_content (tbs_content (tbm_tbs t)))) (tbm_auth t).
(** framing/mod.rs:890-901 *)
Definition wr_sender_data (s : sender_data) : writing :=
  w_put_u32 (sd_leaf_index s) >> w_put_u32 (sd_generation s) >> w_put (sd_reuse_guard s).
(** framing/mod.rs:912-922 *)
Definition wr_sender_data_aad (s : sender_data_aad) : writing :=
  wr_opaque (sda_group_id s) >> w_put_u64 (sda_epoch s) >> wr_content_type (sda_content_type s).
(** framing/public_message.rs:35-53 *)
Definition wr_public_message (m : public_message) : writing :=
  wr_framed_content (pm_content m) >>
  wr_auth_data (content_type_of (fc_content (pm_content m))) (pm_auth m) >>
  match fc_sender (pm_content m) with
  | SMember _ => match pm_tag m with Some t => wr_opaque t | None => w_done end
  | _ => w_done
  end.
(** framing/private_message.rs:42-55 *)
Definition wr_private_message (m : private_message) : writing :=
  wr_opaque (pv_group_id m) >> w_put_u64 (pv_epoch m) >> wr_content_type (pv_content_type m) >>
  wr_opaque (pv_auth_data m) >> wr_opaque (pv_sender_data m) >> wr_opaque (pv_ciphertext m).
(** framing/private_message.rs:221-235 *)
Definition wr_private_content (p : private_content) : writing :=
  wr_content_body (pc_content p) >> wr_auth_data (content_type_of (pc_content p)) (pc_auth p).
(** framing/private_message.rs:271-282 *)
Definition wr_private_content_aad (p : private_content_aad) : writing :=
  wr_opaque (pa_group_id p) >> w_put_u64 (pa_epoch p) >> wr_content_type (pa_content_type p) >>
  wr_opaque (pa_auth_data p).
(** framing/group_info.rs:56-66 *)
Definition wr_group_info_base (g : group_info) : writing :=
  wr_group_context (gi_context g) >> wr_extensions (gi_extensions g) >>
  wr_opaque (gi_confirmation_tag g) >> w_put_u32 (gi_signer g).
(** framing/group_info.rs:44-53 *)
Definition wr_group_info (g : group_info) : writing :=
  wr_group_info_base g >> wr_opaque (gi_signature g).
(** framing/group_info.rs:145-164 *)
Definition wr_group_secrets (g : group_secrets) : writing :=
  wr_opaque (gs_joiner_secret g) >> wr_option wr_opaque (gs_path_secret g) >>
  wr_vector wr_psk_id (gs_psk_ids g).
(** framing/welcome.rs:163-172 *)
Definition wr_egs (e : encrypted_group_secrets) : writing :=
  wr_key_package_ref (egs_new_member e) >> wr_hpke_ciphertext (egs_secrets e).
(** framing/welcome.rs:45-59 *)
Definition wr_welcome (w : welcome) : writing :=
  w_put_u16 (u16_of_cipher_suite (w_suite w)) >> wr_vector wr_egs (w_secrets w) >> wr_opaque (w_group_info w).
(** framing/mod.rs:417-443 *)
Definition wr_wire_message (m : wire_message) : writing :=
  wr_wire_format (wire_format_of m) >>
  match m with
  | WMPublic m => wr_public_message m
  | WMPrivate m => wr_private_message m
  | WMWelcome m => wr_welcome m
  | WMGroupInfo m => wr_group_info m
  | WMKeyPackage m => wr_key_package m
  end.
(** framing/mod.rs:539-548 *)
Definition wr_mls_message (m : mls_message) : writing :=
  w_put_u16 (u16_of_version (mm_version m)) >> wr_wire_message (mm_wire m).
(** key_schedule/mod.rs:243-260 *)
Definition wr_confirmed_input (c : confirmed_input) : writing :=
  match fc_content (ci_content c) with
  | CApplication _ | CProposal _ => w_fail ConfirmedTranscriptHashInputContainContentCommitOnly
  | CCommit _ =>
      wr_wire_format (ci_wire_format c) >> wr_framed_content (ci_content c) >> wr_opaque (ci_signature c)
  end.
