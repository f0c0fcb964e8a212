(** Model of the signing, tagging and encryption of messages: rmls/src/framing/mod.rs,
    rmls/src/framing/public_message.rs and rmls/src/framing/private_message.rs. *)
From Verif Require Export Crypto SecretTree.
Local Open Scope N_scope.

(** Models framing/mod.rs:624-631 (framed_content_tbs). *)
Definition content_tbs (a : auth_content) (ctx : group_context) : framed_content_tbs :=
  MkTBS MLS10 (ac_wire_format a) (ac_content a) (Some ctx).

(** Models framing/mod.rs:753-761 (sign_framed_content). *)
Definition sign_framed_content (P : provider) (cs : cipher_suite) (key : bytes) (t : framed_content_tbs) : res bytes :=
  let* raw := se_framed_content_tbs t in
  sign_with_label P cs key (str "FramedContentTBS") raw.

(** Models framing/mod.rs:766-781 (FramedContentAuthData::verify_signature). *)
Definition verify_auth_signature (P : provider) (cs : cipher_suite) (a : auth_data) (key : bytes) (t : framed_content_tbs) : res unit :=
  let* raw := se_framed_content_tbs t in
  verify_with_label P cs key (str "FramedContentTBS") raw (ad_signature a).

(** Models framing/mod.rs:592-614 (AuthenticatedContent::new). *)
Definition new_auth_content (P : provider) (cs : cipher_suite) (key : bytes) (w : wire_format) (c : framed_content) (ctx : group_context) : res auth_content :=
  let a := MkAuthContent w c (MkAuth [] []) in
  let* s := sign_framed_content P cs key (content_tbs a ctx) in
  Ok (MkAuthContent w c (MkAuth s [])).

(** Models framing/mod.rs:634-647 (AuthenticatedContent::verify_signature). *)
Definition verify_content_signature (P : provider) (cs : cipher_suite) (a : auth_content) (key : bytes) (ctx : group_context) : res unit :=
  verify_auth_signature P cs (ac_auth a) key (content_tbs a ctx).

(** Models framing/mod.rs:616-622 (confirmed_transcript_hash_input). *)
Definition confirmed_of (a : auth_content) : confirmed_input :=
  MkConfirmedInput (ac_wire_format a) (ac_content a) (ad_signature (ac_auth a)).

(** Models framing/mod.rs:787-804 (verify_confirmation_tag). *)
Definition verify_auth_confirmation_tag (P : provider) (cs : cipher_suite) (a : auth_data) (key confirmed : bytes) : res unit :=
  match ad_confirmation_tag a with
  | [] => Err VerifyConfirmationTagFailed
  | _ => verify_mac P cs key confirmed (ad_confirmation_tag a)
  end.

(** Models framing/public_message.rs:58-79 (PublicMessage::new). *)
Definition new_public_message (P : provider) (cs : cipher_suite) (key : bytes) (c : framed_content) (ctx : group_context) : res public_message :=
  let* a := new_auth_content P cs key WFPublicMessage c ctx in
  Ok (MkPublic (ac_content a) (ac_auth a) None).

(** Models framing/public_message.rs:81-87 (authenticated_content). *)
Definition public_auth_content (m : public_message) : auth_content := MkAuthContent WFPublicMessage (pm_content m) (pm_auth m).

(** Models framing/public_message.rs:89-94 (authenticated_content_tbm). *)
Definition public_tbm (m : public_message) (ctx : group_context) : auth_content_tbm :=
  MkTBM (content_tbs (public_auth_content m) ctx) (pm_auth m).

(** Models framing/public_message.rs:98-115 (sign_membership_tag); the message is returned. *)
Definition sign_membership_tag (P : provider) (cs : cipher_suite) (m : public_message) (key : bytes) (ctx : group_context) : res public_message :=
  match fc_sender (pm_content m) with
  | SExternal _ | SNewMemberProposal | SNewMemberCommit => Ok m
  | SMember _ =>
      let* raw := se_auth_content_tbm (public_tbm m ctx) in
      let* t := sign_mac P cs key raw in
      Ok (MkPublic (pm_content m) (pm_auth m) (Some t))
  end.

(** Models framing/public_message.rs:120-149 (verify_membership_tag). A panic in the encoding stays a panic. *)
Definition verify_membership_tag (P : provider) (cs : cipher_suite) (m : public_message) (key : bytes) (ctx : group_context) : res unit :=
  match fc_sender (pm_content m) with
  | SExternal _ | SNewMemberProposal | SNewMemberCommit => Ok tt
  | SMember _ =>
      match pm_tag m with
      | Some t =>
          match se_auth_content_tbm (public_tbm m ctx) with
          | Ok raw => verify_mac P cs key raw t
          | Err _ => Err VerifyConfirmationTagFailed
          | Panic => Panic
          | Hang => Hang
          end
      | None => Ok tt
      end
  end.

(** Models framing/mod.rs:853-865 (SenderData::new); the four random bytes are an argument. *)
Definition new_sender_data (leaf generation : N) (guard : bytes) : sender_data := MkSenderData leaf generation guard.

(** Models framing/mod.rs:992-1003 (sample_ciphertext). *)
Definition sample_ciphertext (P : provider) (cs : cipher_suite) (ct : bytes) : res bytes :=
  let* k := p_hpke P cs in
  Ok (if N.of_nat (length ct) <? k_extract_size k then ct else firstn (N.to_nat (k_extract_size k)) ct).

(** Models framing/mod.rs:958-973 (expand_sender_data_key). *)
Definition sender_data_key (P : provider) (cs : cipher_suite) (secret ct : bytes) : res bytes :=
  let* k := p_hpke P cs in
  let* sample := sample_ciphertext P cs ct in
  expand_with_label P cs secret (str "key") sample (a_key_size k mod 65536).

(** Models framing/mod.rs:975-990 (expand_sender_data_nonce). *)
Definition sender_data_nonce (P : provider) (cs : cipher_suite) (secret ct : bytes) : res bytes :=
  let* k := p_hpke P cs in
  let* sample := sample_ciphertext P cs ct in
  expand_with_label P cs secret (str "nonce") sample (a_nonce_size k mod 65536).

(** Models framing/mod.rs:924-956 (encrypt_sender_data). *)
Definition encrypt_sender_data (P : provider) (cs : cipher_suite) (secret : bytes) (sd : sender_data) (c : framed_content) (ct : bytes) : res bytes :=
  let* key := sender_data_key P cs secret ct in
  let* nonce := sender_data_nonce P cs secret ct in
  let* aad := se_sender_data_aad (MkSenderDataAAD (fc_group_id c) (fc_epoch c) (content_type_of (fc_content c))) in
  let* raw := se_sender_data sd in
  let* k := p_hpke P cs in a_seal k key nonce raw aad.

(** Byte-wise exclusive or; the loop at framing/private_message.rs:296-298. *)
Definition xor_byte (a b : byte) : byte := n2b (N.lxor (b2n a) (b2n b)).
(** The loop at framing/private_message.rs:296-298. *)
Fixpoint xor_prefix (nonce guard : bytes) : bytes :=
  match nonce, guard with
  | a :: nonce, b :: guard => xor_byte a b :: xor_prefix nonce guard
  | _, _ => nonce
  end.

(** Models framing/private_message.rs:284-301 (derive_private_message_key_and_nonce). *)
Definition message_key_nonce (P : provider) (cs : cipher_suite) (r : ratchet_secret) (guard : bytes) : res (bytes * bytes) :=
  let* key := derive_key P cs r in
  let* nonce := derive_nonce P cs r in
  if (length nonce <? length guard)%nat then Err NonceAndReuseGuardLenNotMatch else
  Ok (key, xor_prefix nonce guard).

(** Models framing/private_message.rs:303-342 (encrypt_private_message_content). *)
Definition encrypt_private_content (P : provider) (cs : cipher_suite) (key : bytes) (r : ratchet_secret) (c : framed_content) (ctx : group_context) (guard : bytes) : res bytes :=
  let* a := new_auth_content P cs key WFPrivateMessage c ctx in
  let* pt := se_private_content (MkPrivateContent (fc_content c) (ac_auth a)) in
  let* (k, nonce) := message_key_nonce P cs r guard in
  let* aad := se_private_content_aad (MkPrivateAAD (fc_group_id c) (fc_epoch c) (content_type_of (fc_content c)) (fc_auth_data c)) in
  let* h := p_hpke P cs in a_seal h k nonce pt aad.

(** Models framing/private_message.rs:59-95 (PrivateMessage::new). *)
Definition new_private_message (P : provider) (cs : cipher_suite) (key : bytes) (r : ratchet_secret) (sd_secret : bytes)
    (c : framed_content) (sd : sender_data) (ctx : group_context) : res private_message :=
  let* ct := encrypt_private_content P cs key r c ctx (sd_reuse_guard sd) in
  let* esd := encrypt_sender_data P cs sd_secret sd c ct in
  Ok (MkPrivate (fc_group_id c) (fc_epoch c) (content_type_of (fc_content c)) (fc_auth_data c) esd ct).

(** Models framing/private_message.rs:97-131 (decrypt_sender_data). *)
Definition decrypt_sender_data (P : provider) (cs : cipher_suite) (m : private_message) (secret : bytes) : res sender_data :=
  let* key := sender_data_key P cs secret (pv_ciphertext m) in
  let* nonce := sender_data_nonce P cs secret (pv_ciphertext m) in
  let* aad := se_sender_data_aad (MkSenderDataAAD (pv_group_id m) (pv_epoch m) (pv_content_type m)) in
  let* k := p_hpke P cs in
  let* raw := a_open k key nonce (pv_sender_data m) aad in
  de_exact de_sender_data raw.

(** Models framing/private_message.rs:133-164 (decrypt_content). *)
Definition decrypt_content (P : provider) (cs : cipher_suite) (m : private_message) (r : ratchet_secret) (guard : bytes) : res private_content :=
  let* (key, nonce) := message_key_nonce P cs r guard in
  let* aad := se_private_content_aad (MkPrivateAAD (pv_group_id m) (pv_epoch m) (pv_content_type m) (pv_auth_data m)) in
  let* k := p_hpke P cs in
  let* raw := a_open k key nonce (pv_ciphertext m) aad in
  de_private_content (pv_content_type m) raw.

(** Models framing/private_message.rs:166-182 (authenticated_content). *)
Definition private_auth_content (m : private_message) (sd : sender_data) (c : private_content) : auth_content :=
  MkAuthContent WFPrivateMessage
    (MkFramed (pv_group_id m) (pv_epoch m) (SMember (sd_leaf_index sd)) (pv_auth_data m) (pc_content c)) (pc_auth c).
