(** Property theorems about the byte-level codecs: C01-C10, C32, C45. Vocabulary: SpecCodec.v, WireWF.v. *)
From Verif Require Import CodecFacts.
Local Open Scope N_scope.

(* ------------------------------------------------------------------------------------------- *)
(** * C01 *)

(** Serializing [n] succeeds exactly below 2^30. *)
Theorem C01_varint_domain :
  forall n, (n < 2 ^ 30 <-> exists p, se_varint n = Ok p) /\ (2 ^ 30 <= n -> se_varint n = Err VarintExceeds30Bits).
Proof. exact varint_domain. Qed.
Print Assumptions C01_varint_domain.

(** The bytes decode back to [n] and leave what followed. *)
Theorem C01_varint_roundtrip :
  forall n p rest, se_varint n = Ok p -> de_varint (p ++ rest) = Ok (n, rest).
Proof. exact varint_rt. Qed.
Print Assumptions C01_varint_roundtrip.

(** Nothing else is accepted as an encoding of [n]. *)
Theorem C01_varint_unique :
  forall bs n rest, de_varint bs = Ok (n, rest) -> n < 2 ^ 30 /\ exists p, se_varint n = Ok p /\ bs = p ++ rest.
Proof. exact varint_unique. Qed.
Print Assumptions C01_varint_unique.

(** The encoding is the shortest one of RFC 9000 section 16. *)
Theorem C01_varint_widths :
  forall n p, se_varint n = Ok p ->
  length p = if n <? 64 then 1%nat else if n <? 16384 then 2%nat else 4%nat.
Proof. exact varint_widths. Qed.
Print Assumptions C01_varint_widths.

Example C01_example : se_varint 16383 = Ok [x7f; xff] /\ se_varint 16384 = Ok [x80; x00; x40; x00] /\
  de_varint [x40; x05] = Err MinimumEncodingWasNotUsed.
Proof. vm_compute. auto. Qed.

(* ------------------------------------------------------------------------------------------- *)
(** * C02 *)

(** Byte strings: a length header followed by exactly the content. *)
Theorem C02_opaque :
  (forall v, N.of_nat (length v) < 2 ^ 30 <-> exists p, se_opaque v = Ok p) /\
  (forall v p rest, se_opaque v = Ok p -> de_opaque (p ++ rest) = Ok (v, rest)) /\
  (forall bs v rest, de_opaque bs = Ok (v, rest) -> exists hdr, se_varint (N.of_nat (length v)) = Ok hdr /\ bs = hdr ++ v ++ rest).
Proof. exact opaque_framing. Qed.
Print Assumptions C02_opaque.

(** Vectors of any element type with a non-empty encoding. *)
Theorem C02_vector :
  forall A (wf : A -> Prop) ser de, roundtrip wf ser de -> canonical wf ser de ->
  (forall a p, ser a = Ok p -> p <> []) ->
  roundtrip (Forall wf) (se_vector ser) (de_vector de) /\ canonical (Forall wf) (se_vector ser) (de_vector de).
Proof. exact vector_framing. Qed.
Print Assumptions C02_vector.

(** Whatever the element decoder does, it sees the declared bytes only. *)
Theorem C02_vector_reads_only_declared :
  forall A (f : bytes -> res (A * bytes)) bs l rest, de_vector f bs = Ok (l, rest) ->
  exists hdr body, se_varint (N.of_nat (length body)) = Ok hdr /\ bs = hdr ++ body ++ rest /\
    forall rest', de_vector f (hdr ++ body ++ rest') = Ok (l, rest').
Proof. exact @vector_frame. Qed.
Print Assumptions C02_vector_reads_only_declared.

(** Optional values. *)
Theorem C02_optional :
  forall A (wf : A -> Prop) ser de, roundtrip wf ser de -> canonical wf ser de ->
  roundtrip (fun o => match o with Some a => wf a | None => True end) (se_option ser) (de_option de) /\
  canonical (fun o => match o with Some a => wf a | None => True end) (se_option ser) (de_option de).
Proof. exact option_framing. Qed.
Print Assumptions C02_optional.

Example C02_example : se_vector se_extension [MkExtension ExtRatchetTree [x01; x02]; MkExtension (ExtUnknown 9) []] =
  Ok [x08; x00; x02; x02; x01; x02; x00; x09; x00].
Proof. vm_compute. reflexivity. Qed.

(* ------------------------------------------------------------------------------------------- *)
(** * C03, C04, C07 *)

(** Every wire type survives serialization. *)
Theorem C03_roundtrip :
  roundtrip any se_content_type de_content_type /\
  roundtrip any se_sender_type de_sender_type /\
  roundtrip any se_wire_format de_wire_format /\
  roundtrip any se_node_type de_node_type /\
  roundtrip any se_psk_type de_psk_type /\
  roundtrip any se_psk_usage de_psk_usage /\
  roundtrip any se_credential de_credential /\
  roundtrip any se_signature_scheme de_signature_scheme /\
  roundtrip any se_signature_key_pair de_signature_key_pair /\
  roundtrip any se_hpke_key_pair de_hpke_key_pair /\
  roundtrip wf_sender se_sender de_sender /\
  roundtrip wf_extension se_extension de_extension /\
  roundtrip wf_extensions se_extensions de_extensions /\
  roundtrip any se_external_senders de_external_senders /\
  roundtrip wf_required_capabilities se_required_capabilities de_required_capabilities /\
  roundtrip (from_u16 proposal_type_of_u16) se_proposal_type de_proposal_type /\
  roundtrip wf_lifetime se_lifetime de_lifetime /\
  roundtrip wf_leaf_node_source se_leaf_node_source de_leaf_node_source /\
  roundtrip wf_capabilities se_capabilities de_capabilities /\
  roundtrip wf_leaf_payload se_leaf_payload de_leaf_payload /\
  roundtrip wf_leaf_node se_leaf_node de_leaf_node /\
  roundtrip wf_parent_node se_parent_node de_parent_node /\
  roundtrip any se_hpke_ciphertext de_hpke_ciphertext /\
  roundtrip any se_update_path_node de_update_path_node /\
  roundtrip wf_update_path se_update_path de_update_path /\
  roundtrip wf_node se_node de_node /\
  roundtrip wf_key_package_tbs se_key_package_tbs de_key_package_tbs /\
  roundtrip wf_key_package se_key_package de_key_package /\
  roundtrip wf_group_context se_group_context de_group_context /\
  roundtrip wf_resumption se_resumption de_resumption /\
  roundtrip wf_psk se_psk de_psk /\
  roundtrip wf_psk_id se_psk_id de_psk_id /\
  roundtrip wf_psk_label se_psk_label de_psk_label /\
  roundtrip wf_add_proposal se_add_proposal de_add_proposal /\
  roundtrip wf_update_proposal se_update_proposal de_update_proposal /\
  roundtrip wf_remove_proposal se_remove_proposal de_remove_proposal /\
  roundtrip wf_psk_proposal se_psk_proposal de_psk_proposal /\
  roundtrip any se_external_init_proposal de_external_init_proposal /\
  roundtrip wf_gce_proposal se_gce_proposal de_gce_proposal /\
  roundtrip wf_reinit_proposal se_reinit_proposal de_reinit_proposal /\
  roundtrip wf_proposal se_proposal de_proposal /\
  roundtrip wf_proposal_or_ref se_proposal_or_ref de_proposal_or_ref /\
  roundtrip wf_commit se_commit de_commit /\
  roundtrip wf_content se_content de_content /\
  roundtrip wf_framed_content se_framed_content de_framed_content /\
  (forall ct, roundtrip (wf_auth_data ct) (se_auth_data ct) (de_auth_data ct)) /\
  roundtrip wf_auth_content se_auth_content de_auth_content /\
  roundtrip wf_framed_content_tbs se_framed_content_tbs de_framed_content_tbs /\
  roundtrip wf_auth_content_tbm se_auth_content_tbm de_auth_content_tbm /\
  roundtrip wf_sender_data se_sender_data de_sender_data /\
  roundtrip wf_public_message se_public_message de_public_message /\
  roundtrip wf_private_message se_private_message de_private_message /\
  roundtrip wf_private_content_aad se_private_content_aad de_private_content_aad /\
  roundtrip wf_group_info se_group_info de_group_info /\
  roundtrip wf_group_secrets se_group_secrets de_group_secrets /\
  roundtrip any se_egs de_egs /\
  roundtrip wf_welcome se_welcome de_welcome /\
  roundtrip wf_wire_message se_wire_message de_wire_message /\
  roundtrip wf_mls_message se_mls_message de_mls_message /\
  roundtrip wf_confirmed_input se_confirmed_input de_confirmed_input.
Proof. exact roundtrip_all. Qed.
Print Assumptions C03_roundtrip.

(** Whatever a decoder accepts is exactly the encoding of what it returns. *)
Theorem C04_canonical :
  canonical any se_content_type de_content_type /\
  canonical any se_sender_type de_sender_type /\
  canonical any se_wire_format de_wire_format /\
  canonical any se_node_type de_node_type /\
  canonical any se_psk_type de_psk_type /\
  canonical any se_psk_usage de_psk_usage /\
  canonical any se_credential de_credential /\
  canonical any se_signature_scheme de_signature_scheme /\
  canonical any se_signature_key_pair de_signature_key_pair /\
  canonical any se_hpke_key_pair de_hpke_key_pair /\
  canonical wf_sender se_sender de_sender /\
  canonical wf_extension se_extension de_extension /\
  canonical wf_extensions se_extensions de_extensions /\
  canonical any se_external_senders de_external_senders /\
  canonical wf_required_capabilities se_required_capabilities de_required_capabilities /\
  canonical (from_u16 proposal_type_of_u16) se_proposal_type de_proposal_type /\
  canonical wf_lifetime se_lifetime de_lifetime /\
  canonical wf_leaf_node_source se_leaf_node_source de_leaf_node_source /\
  canonical wf_capabilities se_capabilities de_capabilities /\
  canonical wf_leaf_payload se_leaf_payload de_leaf_payload /\
  canonical wf_leaf_node se_leaf_node de_leaf_node /\
  canonical wf_parent_node se_parent_node de_parent_node /\
  canonical any se_hpke_ciphertext de_hpke_ciphertext /\
  canonical any se_update_path_node de_update_path_node /\
  canonical wf_update_path se_update_path de_update_path /\
  canonical wf_node se_node de_node /\
  canonical wf_key_package_tbs se_key_package_tbs de_key_package_tbs /\
  canonical wf_key_package se_key_package de_key_package /\
  canonical wf_group_context se_group_context de_group_context /\
  canonical wf_resumption se_resumption de_resumption /\
  canonical wf_psk se_psk de_psk /\
  canonical wf_psk_id se_psk_id de_psk_id /\
  canonical wf_psk_label se_psk_label de_psk_label /\
  canonical wf_add_proposal se_add_proposal de_add_proposal /\
  canonical wf_update_proposal se_update_proposal de_update_proposal /\
  canonical wf_remove_proposal se_remove_proposal de_remove_proposal /\
  canonical wf_psk_proposal se_psk_proposal de_psk_proposal /\
  canonical any se_external_init_proposal de_external_init_proposal /\
  canonical wf_gce_proposal se_gce_proposal de_gce_proposal /\
  canonical wf_reinit_proposal se_reinit_proposal de_reinit_proposal /\
  canonical wf_proposal se_proposal de_proposal /\
  canonical wf_proposal_or_ref se_proposal_or_ref de_proposal_or_ref /\
  canonical wf_commit se_commit de_commit /\
  canonical wf_content se_content de_content /\
  canonical wf_framed_content se_framed_content de_framed_content /\
  (forall ct, canonical (wf_auth_data ct) (se_auth_data ct) (de_auth_data ct)) /\
  canonical wf_auth_content se_auth_content de_auth_content /\
  canonical wf_framed_content_tbs se_framed_content_tbs de_framed_content_tbs /\
  canonical wf_auth_content_tbm se_auth_content_tbm de_auth_content_tbm /\
  canonical wf_sender_data se_sender_data de_sender_data /\
  canonical wf_public_message se_public_message de_public_message /\
  canonical wf_private_message se_private_message de_private_message /\
  canonical wf_private_content_aad se_private_content_aad de_private_content_aad /\
  canonical wf_group_info se_group_info de_group_info /\
  canonical wf_group_secrets se_group_secrets de_group_secrets /\
  canonical any se_egs de_egs /\
  canonical wf_welcome se_welcome de_welcome /\
  canonical wf_wire_message se_wire_message de_wire_message /\
  canonical wf_mls_message se_mls_message de_mls_message /\
  canonical wf_confirmed_input se_confirmed_input de_confirmed_input.
Proof. exact canonical_all. Qed.
Print Assumptions C04_canonical.

(** Encodings determine values, and no encoding is a proper prefix of another. *)
Theorem C07_prefix_free :
  prefix_free any se_content_type /\
  prefix_free any se_sender_type /\
  prefix_free any se_wire_format /\
  prefix_free any se_node_type /\
  prefix_free any se_psk_type /\
  prefix_free any se_psk_usage /\
  prefix_free any se_credential /\
  prefix_free any se_signature_scheme /\
  prefix_free any se_signature_key_pair /\
  prefix_free any se_hpke_key_pair /\
  prefix_free wf_sender se_sender /\
  prefix_free wf_extension se_extension /\
  prefix_free wf_extensions se_extensions /\
  prefix_free any se_external_senders /\
  prefix_free wf_required_capabilities se_required_capabilities /\
  prefix_free (from_u16 proposal_type_of_u16) se_proposal_type /\
  prefix_free wf_lifetime se_lifetime /\
  prefix_free wf_leaf_node_source se_leaf_node_source /\
  prefix_free wf_capabilities se_capabilities /\
  prefix_free wf_leaf_payload se_leaf_payload /\
  prefix_free wf_leaf_node se_leaf_node /\
  prefix_free wf_parent_node se_parent_node /\
  prefix_free any se_hpke_ciphertext /\
  prefix_free any se_update_path_node /\
  prefix_free wf_update_path se_update_path /\
  prefix_free wf_node se_node /\
  prefix_free wf_key_package_tbs se_key_package_tbs /\
  prefix_free wf_key_package se_key_package /\
  prefix_free wf_group_context se_group_context /\
  prefix_free wf_resumption se_resumption /\
  prefix_free wf_psk se_psk /\
  prefix_free wf_psk_id se_psk_id /\
  prefix_free wf_psk_label se_psk_label /\
  prefix_free wf_add_proposal se_add_proposal /\
  prefix_free wf_update_proposal se_update_proposal /\
  prefix_free wf_remove_proposal se_remove_proposal /\
  prefix_free wf_psk_proposal se_psk_proposal /\
  prefix_free any se_external_init_proposal /\
  prefix_free wf_gce_proposal se_gce_proposal /\
  prefix_free wf_reinit_proposal se_reinit_proposal /\
  prefix_free wf_proposal se_proposal /\
  prefix_free wf_proposal_or_ref se_proposal_or_ref /\
  prefix_free wf_commit se_commit /\
  prefix_free wf_content se_content /\
  prefix_free wf_framed_content se_framed_content /\
  (forall ct, prefix_free (wf_auth_data ct) (se_auth_data ct)) /\
  prefix_free wf_auth_content se_auth_content /\
  prefix_free wf_framed_content_tbs se_framed_content_tbs /\
  prefix_free wf_auth_content_tbm se_auth_content_tbm /\
  prefix_free wf_sender_data se_sender_data /\
  prefix_free wf_public_message se_public_message /\
  prefix_free wf_private_message se_private_message /\
  prefix_free wf_private_content_aad se_private_content_aad /\
  prefix_free wf_group_info se_group_info /\
  prefix_free wf_group_secrets se_group_secrets /\
  prefix_free any se_egs /\
  prefix_free wf_welcome se_welcome /\
  prefix_free wf_wire_message se_wire_message /\
  prefix_free wf_mls_message se_mls_message /\
  prefix_free wf_confirmed_input se_confirmed_input.
Proof. exact prefix_free_all. Qed.
Print Assumptions C07_prefix_free.

(** A truncated encoding is never accepted. *)
Theorem C07_no_truncation :
  no_truncation any se_content_type de_content_type /\
  no_truncation any se_sender_type de_sender_type /\
  no_truncation any se_wire_format de_wire_format /\
  no_truncation any se_node_type de_node_type /\
  no_truncation any se_psk_type de_psk_type /\
  no_truncation any se_psk_usage de_psk_usage /\
  no_truncation any se_credential de_credential /\
  no_truncation any se_signature_scheme de_signature_scheme /\
  no_truncation any se_signature_key_pair de_signature_key_pair /\
  no_truncation any se_hpke_key_pair de_hpke_key_pair /\
  no_truncation wf_sender se_sender de_sender /\
  no_truncation wf_extension se_extension de_extension /\
  no_truncation wf_extensions se_extensions de_extensions /\
  no_truncation any se_external_senders de_external_senders /\
  no_truncation wf_required_capabilities se_required_capabilities de_required_capabilities /\
  no_truncation (from_u16 proposal_type_of_u16) se_proposal_type de_proposal_type /\
  no_truncation wf_lifetime se_lifetime de_lifetime /\
  no_truncation wf_leaf_node_source se_leaf_node_source de_leaf_node_source /\
  no_truncation wf_capabilities se_capabilities de_capabilities /\
  no_truncation wf_leaf_payload se_leaf_payload de_leaf_payload /\
  no_truncation wf_leaf_node se_leaf_node de_leaf_node /\
  no_truncation wf_parent_node se_parent_node de_parent_node /\
  no_truncation any se_hpke_ciphertext de_hpke_ciphertext /\
  no_truncation any se_update_path_node de_update_path_node /\
  no_truncation wf_update_path se_update_path de_update_path /\
  no_truncation wf_node se_node de_node /\
  no_truncation wf_key_package_tbs se_key_package_tbs de_key_package_tbs /\
  no_truncation wf_key_package se_key_package de_key_package /\
  no_truncation wf_group_context se_group_context de_group_context /\
  no_truncation wf_resumption se_resumption de_resumption /\
  no_truncation wf_psk se_psk de_psk /\
  no_truncation wf_psk_id se_psk_id de_psk_id /\
  no_truncation wf_psk_label se_psk_label de_psk_label /\
  no_truncation wf_add_proposal se_add_proposal de_add_proposal /\
  no_truncation wf_update_proposal se_update_proposal de_update_proposal /\
  no_truncation wf_remove_proposal se_remove_proposal de_remove_proposal /\
  no_truncation wf_psk_proposal se_psk_proposal de_psk_proposal /\
  no_truncation any se_external_init_proposal de_external_init_proposal /\
  no_truncation wf_gce_proposal se_gce_proposal de_gce_proposal /\
  no_truncation wf_reinit_proposal se_reinit_proposal de_reinit_proposal /\
  no_truncation wf_proposal se_proposal de_proposal /\
  no_truncation wf_proposal_or_ref se_proposal_or_ref de_proposal_or_ref /\
  no_truncation wf_commit se_commit de_commit /\
  no_truncation wf_content se_content de_content /\
  no_truncation wf_framed_content se_framed_content de_framed_content /\
  (forall ct, no_truncation (wf_auth_data ct) (se_auth_data ct) (de_auth_data ct)) /\
  no_truncation wf_auth_content se_auth_content de_auth_content /\
  no_truncation wf_framed_content_tbs se_framed_content_tbs de_framed_content_tbs /\
  no_truncation wf_auth_content_tbm se_auth_content_tbm de_auth_content_tbm /\
  no_truncation wf_sender_data se_sender_data de_sender_data /\
  no_truncation wf_public_message se_public_message de_public_message /\
  no_truncation wf_private_message se_private_message de_private_message /\
  no_truncation wf_private_content_aad se_private_content_aad de_private_content_aad /\
  no_truncation wf_group_info se_group_info de_group_info /\
  no_truncation wf_group_secrets se_group_secrets de_group_secrets /\
  no_truncation any se_egs de_egs /\
  no_truncation wf_welcome se_welcome de_welcome /\
  no_truncation wf_wire_message se_wire_message de_wire_message /\
  no_truncation wf_mls_message se_mls_message de_mls_message /\
  no_truncation wf_confirmed_input se_confirmed_input de_confirmed_input.
Proof. exact no_truncation_all. Qed.
Print Assumptions C07_no_truncation.

Definition ex_message_bytes : bytes := ok_or [] (se_mls_message ex_message).
Example C03_example : wf_mls_message ex_message /\ se_mls_message ex_message = Ok ex_message_bytes /\
  length ex_message_bytes = 191%nat.
Proof. split; [exact ex_message_wf|]. vm_compute. auto. Qed.
Example C03_example_tbs :
  wf_framed_content_tbs (MkTBS MLS10 WFPublicMessage (ex_framed (SMember 2) (CCommit ex_commit)) (Some ex_gc)) /\
  exists p, se_framed_content_tbs (MkTBS MLS10 WFPublicMessage (ex_framed (SMember 2) (CCommit ex_commit)) (Some ex_gc)) = Ok p.
Proof.
  split; [|eexists; vm_compute; reflexivity]. split; [u16_ex 1|]. split; [apply ex_framed_wf; reflexivity|].
  exists ex_gc. split; [reflexivity|exact ex_gc_wf].
Qed.

(* ------------------------------------------------------------------------------------------- *)
(** * C05 *)

(** No decoder loops, whatever the bytes. *)
Theorem C05_terminates :
  never_hangs de_content_type /\
  never_hangs de_sender_type /\
  never_hangs de_wire_format /\
  never_hangs de_node_type /\
  never_hangs de_psk_type /\
  never_hangs de_psk_usage /\
  never_hangs de_credential /\
  never_hangs de_signature_scheme /\
  never_hangs de_signature_key_pair /\
  never_hangs de_hpke_key_pair /\
  never_hangs de_sender /\
  never_hangs de_extension /\
  never_hangs de_extensions /\
  never_hangs de_external_senders /\
  never_hangs de_required_capabilities /\
  never_hangs de_proposal_type /\
  never_hangs de_lifetime /\
  never_hangs de_leaf_node_source /\
  never_hangs de_capabilities /\
  never_hangs de_leaf_payload /\
  never_hangs de_leaf_node /\
  never_hangs de_parent_node /\
  never_hangs de_hpke_ciphertext /\
  never_hangs de_update_path_node /\
  never_hangs de_update_path /\
  never_hangs de_node /\
  never_hangs de_key_package_tbs /\
  never_hangs de_key_package /\
  never_hangs de_group_context /\
  never_hangs de_resumption /\
  never_hangs de_psk /\
  never_hangs de_psk_id /\
  never_hangs de_psk_label /\
  never_hangs de_add_proposal /\
  never_hangs de_update_proposal /\
  never_hangs de_remove_proposal /\
  never_hangs de_psk_proposal /\
  never_hangs de_external_init_proposal /\
  never_hangs de_gce_proposal /\
  never_hangs de_reinit_proposal /\
  never_hangs de_proposal /\
  never_hangs de_proposal_or_ref /\
  never_hangs de_commit /\
  never_hangs de_content /\
  never_hangs de_framed_content /\
  (forall ct, never_hangs (de_auth_data ct)) /\
  never_hangs de_auth_content /\
  never_hangs de_framed_content_tbs /\
  never_hangs de_auth_content_tbm /\
  never_hangs de_sender_data /\
  never_hangs de_public_message /\
  never_hangs de_private_message /\
  never_hangs de_private_content_aad /\
  never_hangs de_group_info /\
  never_hangs de_group_secrets /\
  never_hangs de_egs /\
  never_hangs de_welcome /\
  never_hangs de_wire_message /\
  never_hangs de_mls_message /\
  never_hangs de_confirmed_input /\
  never_hangs de_ratchet_tree /\ (forall ct, never_hangs (de_private_content ct)).
Proof. exact never_hangs_all. Qed.
Print Assumptions C05_terminates.

(** Panic-freedom of every decoder that does not contain one of the three faulty ones. Missing: leaf nodes with key-package source, parent nodes and stand-alone proposal types, and all structures containing them, where the full claim is false (below). *)
Theorem C05_no_panic_partial :
  never_panics de_content_type /\
  never_panics de_sender_type /\
  never_panics de_wire_format /\
  never_panics de_node_type /\
  never_panics de_psk_type /\
  never_panics de_psk_usage /\
  never_panics de_credential /\
  never_panics de_signature_scheme /\
  never_panics de_signature_key_pair /\
  never_panics de_hpke_key_pair /\
  never_panics de_sender /\
  never_panics de_extension /\
  never_panics de_extensions /\
  never_panics de_external_senders /\
  never_panics de_required_capabilities /\
  never_panics de_capabilities /\
  never_panics de_hpke_ciphertext /\
  never_panics de_update_path_node /\
  never_panics de_group_context /\
  never_panics de_resumption /\
  never_panics de_psk /\
  never_panics de_psk_id /\
  never_panics de_psk_label /\
  never_panics de_remove_proposal /\
  never_panics de_psk_proposal /\
  never_panics de_external_init_proposal /\
  never_panics de_gce_proposal /\
  never_panics de_reinit_proposal /\
  (forall ct, never_panics (de_auth_data ct)) /\
  never_panics de_sender_data /\
  never_panics de_private_message /\
  never_panics de_private_content_aad /\
  never_panics de_group_info /\
  never_panics de_group_secrets /\
  never_panics de_egs /\
  never_panics de_welcome.
Proof. exact never_panics_safe. Qed.
Print Assumptions C05_no_panic_partial.

(** Private messages, welcomes and group infos never panic. *)
Theorem C05_no_panic_by_wire_format :
  forall m bs, In m [2; 3; 4] -> de_mls_message (be 2 1 ++ be 2 m ++ bs) <> Panic.
Proof. exact mls_message_safe_kinds. Qed.
Print Assumptions C05_no_panic_by_wire_format.

(** Exactly when the faulty decoders panic. *)
Theorem C05_lifetime_panics :
  forall bs, de_lifetime bs = Panic <-> (8 <= length bs < 16)%nat.
Proof. exact lifetime_panics. Qed.
Print Assumptions C05_lifetime_panics.

(** idem *)
Theorem C05_proposal_type_panics :
  forall bs, de_proposal_type bs = Panic <-> length bs = 1%nat.
Proof. exact proposal_type_panics. Qed.
Print Assumptions C05_proposal_type_panics.

(** idem: the unmerged-leaves field is not a multiple of four bytes long. *)
Theorem C05_parent_node_panics :
  forall bs, de_parent_node bs = Panic <->
  exists k h v pre rest, se_opaque k +++ se_opaque h +++ se_opaque v = Ok pre /\ bs = pre ++ rest /\ (length v mod 4 <> 0)%nat.
Proof. exact parent_node_panics. Qed.
Print Assumptions C05_parent_node_panics.

(** idem: a key-package leaf cut inside the lifetime's second integer. *)
Theorem C05_leaf_node_panics :
  forall bs, de_leaf_node bs = Panic <->
  exists e s c cap pre tail,
    se_opaque e +++ se_opaque s +++ se_credential c +++ se_capabilities cap = Ok pre /\ wf_capabilities cap /\
    bs = pre ++ x01 :: tail /\ (8 <= length tail < 16)%nat.
Proof. exact leaf_node_panics. Qed.
Print Assumptions C05_leaf_node_panics.

(** A key-package message that makes the receiver panic. *)
Theorem C05_refuted :
  exists bs, de_mls_message bs = Panic.
Proof. exact mls_message_panic. Qed.
Print Assumptions C05_refuted.

(** A ratchet-tree extension that makes the receiver panic. *)
Theorem C05_refuted_tree :
  exists bs, de_ratchet_tree bs = Panic.
Proof. exact tree_panic. Qed.
Print Assumptions C05_refuted_tree.

(* ------------------------------------------------------------------------------------------- *)
(** * C06 *)

(** What deserialize_exact accepts: an encoding followed by anything. *)
Theorem C06_exact_accepts :
  forall A (wf : A -> Prop) ser de, roundtrip wf ser de -> canonical wf ser de -> forall bs a,
  de_exact de bs = Ok a <-> wf a /\ exists p junk, ser a = Ok p /\ bs = p ++ junk.
Proof. exact exact_accepts'. Qed.
Print Assumptions C06_exact_accepts.

(** It accepts an input that is not exactly an encoding. *)
Theorem C06_refuted :
  exists bs g, de_exact de_group_secrets bs = Ok g /\ se_group_secrets g <> Ok bs.
Proof. exact exact_refuted. Qed.
Print Assumptions C06_refuted.

(* ------------------------------------------------------------------------------------------- *)
(** * C08 *)

(** Serialization succeeds exactly when every length-prefixed field is shorter than 2^30 bytes, and reports a size error otherwise. *)
Theorem C08_sizes :
  fails_only_on_size any se_content_type /\
  fails_only_on_size any se_sender_type /\
  fails_only_on_size any se_wire_format /\
  fails_only_on_size any se_node_type /\
  fails_only_on_size any se_psk_type /\
  fails_only_on_size any se_psk_usage /\
  fails_only_on_size fits_credential se_credential /\
  fails_only_on_size any se_signature_scheme /\
  fails_only_on_size fits_signature_key_pair se_signature_key_pair /\
  fails_only_on_size fits_hpke_key_pair se_hpke_key_pair /\
  fails_only_on_size any se_sender /\
  fails_only_on_size fits_extension se_extension /\
  fails_only_on_size fits_extensions se_extensions /\
  fails_only_on_size fits_external_senders se_external_senders /\
  fails_only_on_size fits_required_capabilities se_required_capabilities /\
  fails_only_on_size any se_proposal_type /\
  fails_only_on_size any se_lifetime /\
  fails_only_on_size fits_leaf_node_source se_leaf_node_source /\
  fails_only_on_size fits_capabilities se_capabilities /\
  fails_only_on_size fits_leaf_payload se_leaf_payload /\
  fails_only_on_size fits_leaf_node se_leaf_node /\
  fails_only_on_size fits_parent_node se_parent_node /\
  fails_only_on_size fits_hpke_ciphertext se_hpke_ciphertext /\
  fails_only_on_size fits_update_path_node se_update_path_node /\
  fails_only_on_size fits_update_path se_update_path /\
  fails_only_on_size fits_node se_node /\
  fails_only_on_size fits_key_package_tbs se_key_package_tbs /\
  fails_only_on_size fits_key_package se_key_package /\
  fails_only_on_size fits_group_context se_group_context /\
  fails_only_on_size fits_resumption se_resumption /\
  fails_only_on_size fits_psk se_psk /\
  fails_only_on_size fits_psk_id se_psk_id /\
  fails_only_on_size fits_psk_label se_psk_label /\
  fails_only_on_size fits_reinit_proposal se_reinit_proposal /\
  fails_only_on_size fits_proposal se_proposal /\
  fails_only_on_size fits_proposal_or_ref se_proposal_or_ref /\
  fails_only_on_size fits_commit se_commit /\
  fails_only_on_size fits_content se_content /\
  fails_only_on_size fits_framed_content se_framed_content /\
  (forall ct, fails_only_on_size (fits_auth_data ct) (se_auth_data ct)) /\
  fails_only_on_size fits_auth_content se_auth_content /\
  fails_only_on_size any se_sender_data /\
  fails_only_on_size fits_public_message se_public_message /\
  fails_only_on_size fits_private_message se_private_message /\
  fails_only_on_size fits_private_content_aad se_private_content_aad /\
  fails_only_on_size fits_group_info se_group_info /\
  fails_only_on_size fits_group_secrets se_group_secrets /\
  fails_only_on_size fits_egs se_egs /\
  fails_only_on_size fits_welcome se_welcome /\
  fails_only_on_size fits_wire_message se_wire_message /\
  fails_only_on_size fits_mls_message se_mls_message /\
  fails_only_on_size fits_sender_data_aad se_sender_data_aad /\
  fails_only_on_size fits_private_content se_private_content /\
  fails_only_on_size fits_ratchet_tree se_ratchet_tree.
Proof. exact sizes_all. Qed.
Print Assumptions C08_sizes.

(** To-be-signed content: the same, provided the sender kinds that sign the context have one. *)
Theorem C08_tbs :
  forall t, (signs_context (fc_sender (tbs_content t)) = true -> tbs_context t <> None) ->
  (fits_framed_content_tbs t <-> exists p, se_framed_content_tbs t = Ok p) /\
  (~ fits_framed_content_tbs t <->
     (se_framed_content_tbs t = Err VarintExceeds30Bits \/ se_framed_content_tbs t = Err OpaqueSizeExceedsMaximumValueOfU32)).
Proof. exact tbs_sizes. Qed.
Print Assumptions C08_tbs.

(** Without one, that error. *)
Theorem C08_tbs_no_context :
  forall t, signs_context (fc_sender (tbs_content t)) = true -> tbs_context t = None ->
  fits_framed_content (tbs_content t) -> se_framed_content_tbs t = Err SenderMemberAndNewMemberCommitNoGroupContext.
Proof. exact tbs_no_context. Qed.
Print Assumptions C08_tbs_no_context.

(** Transcript-hash inputs of commits. *)
Theorem C08_confirmed_input :
  forall c m, fc_content (ci_content c) = CCommit m ->
  (fits_confirmed_input c <-> exists p, se_confirmed_input c = Ok p) /\
  (~ fits_confirmed_input c <->
     (se_confirmed_input c = Err VarintExceeds30Bits \/ se_confirmed_input c = Err OpaqueSizeExceedsMaximumValueOfU32)).
Proof. exact confirmed_sizes. Qed.
Print Assumptions C08_confirmed_input.

(** Transcript-hash inputs of other contents are refused. *)
Theorem C08_confirmed_input_not_commit :
  forall c, (forall m, fc_content (ci_content c) <> CCommit m) ->
  se_confirmed_input c = Err ConfirmedTranscriptHashInputContainContentCommitOnly.
Proof. exact confirmed_not_commit. Qed.
Print Assumptions C08_confirmed_input_not_commit.

Example C08_example : fits_mls_message ex_message /\ fits_ratchet_tree ex_tree.
Proof.
  destruct sizes_all as (_ & _ & _ & _ & _ & _ & H). split.
  - apply (proj1 (sizing_spec sizing_mls_message ex_message)). eexists. vm_compute. reflexivity.
  - apply (proj1 (sizing_spec sizing_ratchet_tree ex_tree)). eexists. vm_compute. reflexivity.
Qed.

(* ------------------------------------------------------------------------------------------- *)
(** * C09, C10 *)

(** Other protocol versions are refused whatever follows. *)
Theorem C09_mls_message :
  (forall bs m rest, de_mls_message bs = Ok (m, rest) -> mm_version m = MLS10) /\
  (forall v bs, v < 65536 -> v <> 1 -> de_mls_message (be 2 v ++ bs) = Err (InvalidProtocolVersion v)).
Proof. exact mls_version. Qed.
Print Assumptions C09_mls_message.

(** idem *)
Theorem C09_group_context :
  (forall bs g rest, de_group_context bs = Ok (g, rest) -> gc_version g = MLS10) /\
  (forall v bs, v < 65536 -> v <> 1 -> exists e, de_group_context (be 2 v ++ bs) = Err e).
Proof. exact gc_version'. Qed.
Print Assumptions C09_group_context.

Example C09_example : de_mls_message (be 2 2 ++ [x00; x05; x00]) = Err (InvalidProtocolVersion 2) /\
  exists g, de_group_context (ok_or [] (se_group_context ex_gc)) = Ok (g, []).
Proof. split; [reflexivity|]. eexists. vm_compute. reflexivity. Qed.

(** Code points that keep unknown values. *)
Theorem C10_open_enums :
  one_to_one cipher_suite_of_u16 u16_of_cipher_suite /\
  one_to_one credential_type_of_u16 u16_of_credential_type /\
  one_to_one extension_type_of_u16 u16_of_extension_type /\
  one_to_one proposal_type_of_u16 u16_of_proposal_type /\
  one_to_one version_of_u16 u16_of_version.
Proof. exact open_codes. Qed.
Print Assumptions C10_open_enums.

(** Code points that refuse unknown values: exactly the listed codes are accepted. *)
Theorem C10_closed_enums :
  closed_code 2 65536 de_wire_format wire_format_code /\
  closed_code 2 65536 de_signature_scheme signature_scheme_code /\
  closed_code 1 256 de_content_type content_type_code /\
  closed_code 1 256 de_sender_type sender_type_code /\
  closed_code 1 256 de_node_type node_type_code /\
  closed_code 1 256 de_psk_type psk_type_code /\
  closed_code 1 256 de_psk_usage psk_usage_code.
Proof. exact closed_codes. Qed.
Print Assumptions C10_closed_enums.

(* ------------------------------------------------------------------------------------------- *)
(** * C32 *)

(** Serialize then deserialize: trailing blanks are stripped, then blanks are added up to the least length 2^k-1. *)
Theorem C32_tree_roundtrip :
  forall t p rest, wf_tree t -> se_ratchet_tree t = Ok p ->
  exists c n m k, t = c ++ repeat None n /\ (forall c', c <> c' ++ [None]) /\
    de_ratchet_tree (p ++ rest) = Ok (c ++ repeat None m, rest) /\
    N.of_nat (length c + m) + 1 = 2 ^ k /\ (forall j, N.of_nat (length c) + 1 <= 2 ^ j -> k <= j).
Proof. exact tree_rt. Qed.
Print Assumptions C32_tree_roundtrip.

(** It is the identity exactly on trees in that form. *)
Theorem C32_tree_identity :
  forall t p, wf_tree t -> se_ratchet_tree t = Ok p ->
  (de_ratchet_tree p = Ok (t, []) <-> exists c n k, t = c ++ repeat None n /\ (forall c', c <> c' ++ [None]) /\
     N.of_nat (length t) + 1 = 2 ^ k /\ (forall j, N.of_nat (length c) + 1 <= 2 ^ j -> k <= j)).
Proof. exact tree_identity_form. Qed.
Print Assumptions C32_tree_identity.

(** Decoded trees have length 2^k-1. *)
Theorem C32_tree_decode_length :
  forall bs t rest, de_ratchet_tree bs = Ok (t, rest) -> wf_tree t /\ exists k, N.of_nat (length t) + 1 = 2 ^ k.
Proof. exact tree_len. Qed.
Print Assumptions C32_tree_decode_length.

(** Two encodings of one tree are accepted. *)
Theorem C32_not_canonical :
  exists b1 b2 t, b1 <> b2 /\ de_ratchet_tree b1 = Ok (t, []) /\ de_ratchet_tree b2 = Ok (t, []).
Proof. exact tree_two. Qed.
Print Assumptions C32_not_canonical.

Example C32_example : wf_tree ex_tree /\ exists p, se_ratchet_tree ex_tree = Ok p /\ de_ratchet_tree p = Ok (ex_tree, []).
Proof. split; [exact ex_tree_wf|]. eexists. split; vm_compute; reflexivity. Qed.

(* ------------------------------------------------------------------------------------------- *)
(** * C45 *)

(** Zero padding is ignored, any other padding refused. *)
Theorem C45_padding :
  forall c p pad, wf_private_content c -> se_private_content c = Ok p ->
  let ct := content_type_of (pc_content c) in
  (Forall (fun b => b = x00) pad -> de_private_content ct (p ++ pad) = Ok c) /\
  (~ Forall (fun b => b = x00) pad -> de_private_content ct (p ++ pad) = Err PaddingContainsNonZeroBytes).
Proof. exact padding_rt. Qed.
Print Assumptions C45_padding.

(** Nothing else is accepted. *)
Theorem C45_accepted :
  forall ct bs c, de_private_content ct bs = Ok c ->
  wf_private_content c /\ content_type_of (pc_content c) = ct /\
  exists p pad, se_private_content c = Ok p /\ bs = p ++ pad /\ Forall (fun b => b = x00) pad.
Proof. exact private_content_can. Qed.
Print Assumptions C45_accepted.

Example C45_example :
  let c := MkPrivateContent (CCommit ex_commit) (MkAuth [x01] [x02]) in
  wf_private_content c /\ exists p, se_private_content c = Ok p /\ de_private_content CTCommit (p ++ [x00; x00]) = Ok c.
Proof. cbn zeta. split; [split; [exact ex_commit_wf|exact I]|]. eexists. split; vm_compute; reflexivity. Qed.

