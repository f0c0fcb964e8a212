(** The codec properties, collected per property. Statements of this file are restated in PropCodec.v. *)
From Verif Require Export Examples.
Local Open Scope N_scope.

Ltac each_ct := match goal with |- forall ct : content_type, _ => intros ct | _ => idtac end.

Lemma roundtrip_all :
  roundtrip any se_content_type de_content_type /\
  roundtrip any se_sender_type de_sender_type /\
  roundtrip any se_wire_format de_wire_format /\
  roundtrip any se_node_type de_node_type /\
  roundtrip any se_psk_type de_psk_type /\
  roundtrip any se_psk_usage de_psk_usage /\
  roundtrip any se_credential de_credential /\
  roundtrip any se_signature_scheme de_signature_scheme /\
  roundtrip any se_signature_key_pair de_signature_key_pair /\
  roundtrip any se_hpke_key_pair de_hpke_key_pair /\
  roundtrip wf_sender se_sender de_sender /\
  roundtrip wf_extension se_extension de_extension /\
  roundtrip wf_extensions se_extensions de_extensions /\
  roundtrip any se_external_senders de_external_senders /\
  roundtrip wf_required_capabilities se_required_capabilities de_required_capabilities /\
  roundtrip (from_u16 proposal_type_of_u16) se_proposal_type de_proposal_type /\
  roundtrip wf_lifetime se_lifetime de_lifetime /\
  roundtrip wf_leaf_node_source se_leaf_node_source de_leaf_node_source /\
  roundtrip wf_capabilities se_capabilities de_capabilities /\
  roundtrip wf_leaf_payload se_leaf_payload de_leaf_payload /\
  roundtrip wf_leaf_node se_leaf_node de_leaf_node /\
  roundtrip wf_parent_node se_parent_node de_parent_node /\
  roundtrip any se_hpke_ciphertext de_hpke_ciphertext /\
  roundtrip any se_update_path_node de_update_path_node /\
  roundtrip wf_update_path se_update_path de_update_path /\
  roundtrip wf_node se_node de_node /\
  roundtrip wf_key_package_tbs se_key_package_tbs de_key_package_tbs /\
  roundtrip wf_key_package se_key_package de_key_package /\
  roundtrip wf_group_context se_group_context de_group_context /\
  roundtrip wf_resumption se_resumption de_resumption /\
  roundtrip wf_psk se_psk de_psk /\
  roundtrip wf_psk_id se_psk_id de_psk_id /\
  roundtrip wf_psk_label se_psk_label de_psk_label /\
  roundtrip wf_add_proposal se_add_proposal de_add_proposal /\
  roundtrip wf_update_proposal se_update_proposal de_update_proposal /\
  roundtrip wf_remove_proposal se_remove_proposal de_remove_proposal /\
  roundtrip wf_psk_proposal se_psk_proposal de_psk_proposal /\
  roundtrip any se_external_init_proposal de_external_init_proposal /\
  roundtrip wf_gce_proposal se_gce_proposal de_gce_proposal /\
  roundtrip wf_reinit_proposal se_reinit_proposal de_reinit_proposal /\
  roundtrip wf_proposal se_proposal de_proposal /\
  roundtrip wf_proposal_or_ref se_proposal_or_ref de_proposal_or_ref /\
  roundtrip wf_commit se_commit de_commit /\
  roundtrip wf_content se_content de_content /\
  roundtrip wf_framed_content se_framed_content de_framed_content /\
  (forall ct, roundtrip (wf_auth_data ct) (se_auth_data ct) (de_auth_data ct)) /\
  roundtrip wf_auth_content se_auth_content de_auth_content /\
  roundtrip wf_framed_content_tbs se_framed_content_tbs de_framed_content_tbs /\
  roundtrip wf_auth_content_tbm se_auth_content_tbm de_auth_content_tbm /\
  roundtrip wf_sender_data se_sender_data de_sender_data /\
  roundtrip wf_public_message se_public_message de_public_message /\
  roundtrip wf_private_message se_private_message de_private_message /\
  roundtrip wf_private_content_aad se_private_content_aad de_private_content_aad /\
  roundtrip wf_group_info se_group_info de_group_info /\
  roundtrip wf_group_secrets se_group_secrets de_group_secrets /\
  roundtrip any se_egs de_egs /\
  roundtrip wf_welcome se_welcome de_welcome /\
  roundtrip wf_wire_message se_wire_message de_wire_message /\
  roundtrip wf_mls_message se_mls_message de_mls_message /\
  roundtrip wf_confirmed_input se_confirmed_input de_confirmed_input.
Proof. repeat match goal with |- _ /\ _ => split end; each_ct; intros a p rest W H; (exact (codec_rt (_ : codec _ _ _) a p rest W H)). Qed.

Lemma canonical_all :
  canonical any se_content_type de_content_type /\
  canonical any se_sender_type de_sender_type /\
  canonical any se_wire_format de_wire_format /\
  canonical any se_node_type de_node_type /\
  canonical any se_psk_type de_psk_type /\
  canonical any se_psk_usage de_psk_usage /\
  canonical any se_credential de_credential /\
  canonical any se_signature_scheme de_signature_scheme /\
  canonical any se_signature_key_pair de_signature_key_pair /\
  canonical any se_hpke_key_pair de_hpke_key_pair /\
  canonical wf_sender se_sender de_sender /\
  canonical wf_extension se_extension de_extension /\
  canonical wf_extensions se_extensions de_extensions /\
  canonical any se_external_senders de_external_senders /\
  canonical wf_required_capabilities se_required_capabilities de_required_capabilities /\
  canonical (from_u16 proposal_type_of_u16) se_proposal_type de_proposal_type /\
  canonical wf_lifetime se_lifetime de_lifetime /\
  canonical wf_leaf_node_source se_leaf_node_source de_leaf_node_source /\
  canonical wf_capabilities se_capabilities de_capabilities /\
  canonical wf_leaf_payload se_leaf_payload de_leaf_payload /\
  canonical wf_leaf_node se_leaf_node de_leaf_node /\
  canonical wf_parent_node se_parent_node de_parent_node /\
  canonical any se_hpke_ciphertext de_hpke_ciphertext /\
  canonical any se_update_path_node de_update_path_node /\
  canonical wf_update_path se_update_path de_update_path /\
  canonical wf_node se_node de_node /\
  canonical wf_key_package_tbs se_key_package_tbs de_key_package_tbs /\
  canonical wf_key_package se_key_package de_key_package /\
  canonical wf_group_context se_group_context de_group_context /\
  canonical wf_resumption se_resumption de_resumption /\
  canonical wf_psk se_psk de_psk /\
  canonical wf_psk_id se_psk_id de_psk_id /\
  canonical wf_psk_label se_psk_label de_psk_label /\
  canonical wf_add_proposal se_add_proposal de_add_proposal /\
  canonical wf_update_proposal se_update_proposal de_update_proposal /\
  canonical wf_remove_proposal se_remove_proposal de_remove_proposal /\
  canonical wf_psk_proposal se_psk_proposal de_psk_proposal /\
  canonical any se_external_init_proposal de_external_init_proposal /\
  canonical wf_gce_proposal se_gce_proposal de_gce_proposal /\
  canonical wf_reinit_proposal se_reinit_proposal de_reinit_proposal /\
  canonical wf_proposal se_proposal de_proposal /\
  canonical wf_proposal_or_ref se_proposal_or_ref de_proposal_or_ref /\
  canonical wf_commit se_commit de_commit /\
  canonical wf_content se_content de_content /\
  canonical wf_framed_content se_framed_content de_framed_content /\
  (forall ct, canonical (wf_auth_data ct) (se_auth_data ct) (de_auth_data ct)) /\
  canonical wf_auth_content se_auth_content de_auth_content /\
  canonical wf_framed_content_tbs se_framed_content_tbs de_framed_content_tbs /\
  canonical wf_auth_content_tbm se_auth_content_tbm de_auth_content_tbm /\
  canonical wf_sender_data se_sender_data de_sender_data /\
  canonical wf_public_message se_public_message de_public_message /\
  canonical wf_private_message se_private_message de_private_message /\
  canonical wf_private_content_aad se_private_content_aad de_private_content_aad /\
  canonical wf_group_info se_group_info de_group_info /\
  canonical wf_group_secrets se_group_secrets de_group_secrets /\
  canonical any se_egs de_egs /\
  canonical wf_welcome se_welcome de_welcome /\
  canonical wf_wire_message se_wire_message de_wire_message /\
  canonical wf_mls_message se_mls_message de_mls_message /\
  canonical wf_confirmed_input se_confirmed_input de_confirmed_input.
Proof. repeat match goal with |- _ /\ _ => split end; each_ct; intros bs a rest H; (exact (codec_can (_ : codec _ _ _) bs a rest H)). Qed.

Lemma prefix_free_all :
  prefix_free any se_content_type /\
  prefix_free any se_sender_type /\
  prefix_free any se_wire_format /\
  prefix_free any se_node_type /\
  prefix_free any se_psk_type /\
  prefix_free any se_psk_usage /\
  prefix_free any se_credential /\
  prefix_free any se_signature_scheme /\
  prefix_free any se_signature_key_pair /\
  prefix_free any se_hpke_key_pair /\
  prefix_free wf_sender se_sender /\
  prefix_free wf_extension se_extension /\
  prefix_free wf_extensions se_extensions /\
  prefix_free any se_external_senders /\
  prefix_free wf_required_capabilities se_required_capabilities /\
  prefix_free (from_u16 proposal_type_of_u16) se_proposal_type /\
  prefix_free wf_lifetime se_lifetime /\
  prefix_free wf_leaf_node_source se_leaf_node_source /\
  prefix_free wf_capabilities se_capabilities /\
  prefix_free wf_leaf_payload se_leaf_payload /\
  prefix_free wf_leaf_node se_leaf_node /\
  prefix_free wf_parent_node se_parent_node /\
  prefix_free any se_hpke_ciphertext /\
  prefix_free any se_update_path_node /\
  prefix_free wf_update_path se_update_path /\
  prefix_free wf_node se_node /\
  prefix_free wf_key_package_tbs se_key_package_tbs /\
  prefix_free wf_key_package se_key_package /\
  prefix_free wf_group_context se_group_context /\
  prefix_free wf_resumption se_resumption /\
  prefix_free wf_psk se_psk /\
  prefix_free wf_psk_id se_psk_id /\
  prefix_free wf_psk_label se_psk_label /\
  prefix_free wf_add_proposal se_add_proposal /\
  prefix_free wf_update_proposal se_update_proposal /\
  prefix_free wf_remove_proposal se_remove_proposal /\
  prefix_free wf_psk_proposal se_psk_proposal /\
  prefix_free any se_external_init_proposal /\
  prefix_free wf_gce_proposal se_gce_proposal /\
  prefix_free wf_reinit_proposal se_reinit_proposal /\
  prefix_free wf_proposal se_proposal /\
  prefix_free wf_proposal_or_ref se_proposal_or_ref /\
  prefix_free wf_commit se_commit /\
  prefix_free wf_content se_content /\
  prefix_free wf_framed_content se_framed_content /\
  (forall ct, prefix_free (wf_auth_data ct) (se_auth_data ct)) /\
  prefix_free wf_auth_content se_auth_content /\
  prefix_free wf_framed_content_tbs se_framed_content_tbs /\
  prefix_free wf_auth_content_tbm se_auth_content_tbm /\
  prefix_free wf_sender_data se_sender_data /\
  prefix_free wf_public_message se_public_message /\
  prefix_free wf_private_message se_private_message /\
  prefix_free wf_private_content_aad se_private_content_aad /\
  prefix_free wf_group_info se_group_info /\
  prefix_free wf_group_secrets se_group_secrets /\
  prefix_free any se_egs /\
  prefix_free wf_welcome se_welcome /\
  prefix_free wf_wire_message se_wire_message /\
  prefix_free wf_mls_message se_mls_message /\
  prefix_free wf_confirmed_input se_confirmed_input.
Proof. repeat match goal with |- _ /\ _ => split end; each_ct; eapply codec_prefix_free'; apply _. Qed.

Lemma no_truncation_all :
  no_truncation any se_content_type de_content_type /\
  no_truncation any se_sender_type de_sender_type /\
  no_truncation any se_wire_format de_wire_format /\
  no_truncation any se_node_type de_node_type /\
  no_truncation any se_psk_type de_psk_type /\
  no_truncation any se_psk_usage de_psk_usage /\
  no_truncation any se_credential de_credential /\
  no_truncation any se_signature_scheme de_signature_scheme /\
  no_truncation any se_signature_key_pair de_signature_key_pair /\
  no_truncation any se_hpke_key_pair de_hpke_key_pair /\
  no_truncation wf_sender se_sender de_sender /\
  no_truncation wf_extension se_extension de_extension /\
  no_truncation wf_extensions se_extensions de_extensions /\
  no_truncation any se_external_senders de_external_senders /\
  no_truncation wf_required_capabilities se_required_capabilities de_required_capabilities /\
  no_truncation (from_u16 proposal_type_of_u16) se_proposal_type de_proposal_type /\
  no_truncation wf_lifetime se_lifetime de_lifetime /\
  no_truncation wf_leaf_node_source se_leaf_node_source de_leaf_node_source /\
  no_truncation wf_capabilities se_capabilities de_capabilities /\
  no_truncation wf_leaf_payload se_leaf_payload de_leaf_payload /\
  no_truncation wf_leaf_node se_leaf_node de_leaf_node /\
  no_truncation wf_parent_node se_parent_node de_parent_node /\
  no_truncation any se_hpke_ciphertext de_hpke_ciphertext /\
  no_truncation any se_update_path_node de_update_path_node /\
  no_truncation wf_update_path se_update_path de_update_path /\
  no_truncation wf_node se_node de_node /\
  no_truncation wf_key_package_tbs se_key_package_tbs de_key_package_tbs /\
  no_truncation wf_key_package se_key_package de_key_package /\
  no_truncation wf_group_context se_group_context de_group_context /\
  no_truncation wf_resumption se_resumption de_resumption /\
  no_truncation wf_psk se_psk de_psk /\
  no_truncation wf_psk_id se_psk_id de_psk_id /\
  no_truncation wf_psk_label se_psk_label de_psk_label /\
  no_truncation wf_add_proposal se_add_proposal de_add_proposal /\
  no_truncation wf_update_proposal se_update_proposal de_update_proposal /\
  no_truncation wf_remove_proposal se_remove_proposal de_remove_proposal /\
  no_truncation wf_psk_proposal se_psk_proposal de_psk_proposal /\
  no_truncation any se_external_init_proposal de_external_init_proposal /\
  no_truncation wf_gce_proposal se_gce_proposal de_gce_proposal /\
  no_truncation wf_reinit_proposal se_reinit_proposal de_reinit_proposal /\
  no_truncation wf_proposal se_proposal de_proposal /\
  no_truncation wf_proposal_or_ref se_proposal_or_ref de_proposal_or_ref /\
  no_truncation wf_commit se_commit de_commit /\
  no_truncation wf_content se_content de_content /\
  no_truncation wf_framed_content se_framed_content de_framed_content /\
  (forall ct, no_truncation (wf_auth_data ct) (se_auth_data ct) (de_auth_data ct)) /\
  no_truncation wf_auth_content se_auth_content de_auth_content /\
  no_truncation wf_framed_content_tbs se_framed_content_tbs de_framed_content_tbs /\
  no_truncation wf_auth_content_tbm se_auth_content_tbm de_auth_content_tbm /\
  no_truncation wf_sender_data se_sender_data de_sender_data /\
  no_truncation wf_public_message se_public_message de_public_message /\
  no_truncation wf_private_message se_private_message de_private_message /\
  no_truncation wf_private_content_aad se_private_content_aad de_private_content_aad /\
  no_truncation wf_group_info se_group_info de_group_info /\
  no_truncation wf_group_secrets se_group_secrets de_group_secrets /\
  no_truncation any se_egs de_egs /\
  no_truncation wf_welcome se_welcome de_welcome /\
  no_truncation wf_wire_message se_wire_message de_wire_message /\
  no_truncation wf_mls_message se_mls_message de_mls_message /\
  no_truncation wf_confirmed_input se_confirmed_input de_confirmed_input.
Proof. repeat match goal with |- _ /\ _ => split end; each_ct; eapply codec_no_trunc; apply _. Qed.

Lemma never_hangs_all :
  never_hangs de_content_type /\
  never_hangs de_sender_type /\
  never_hangs de_wire_format /\
  never_hangs de_node_type /\
  never_hangs de_psk_type /\
  never_hangs de_psk_usage /\
  never_hangs de_credential /\
  never_hangs de_signature_scheme /\
  never_hangs de_signature_key_pair /\
  never_hangs de_hpke_key_pair /\
  never_hangs de_sender /\
  never_hangs de_extension /\
  never_hangs de_extensions /\
  never_hangs de_external_senders /\
  never_hangs de_required_capabilities /\
  never_hangs de_proposal_type /\
  never_hangs de_lifetime /\
  never_hangs de_leaf_node_source /\
  never_hangs de_capabilities /\
  never_hangs de_leaf_payload /\
  never_hangs de_leaf_node /\
  never_hangs de_parent_node /\
  never_hangs de_hpke_ciphertext /\
  never_hangs de_update_path_node /\
  never_hangs de_update_path /\
  never_hangs de_node /\
  never_hangs de_key_package_tbs /\
  never_hangs de_key_package /\
  never_hangs de_group_context /\
  never_hangs de_resumption /\
  never_hangs de_psk /\
  never_hangs de_psk_id /\
  never_hangs de_psk_label /\
  never_hangs de_add_proposal /\
  never_hangs de_update_proposal /\
  never_hangs de_remove_proposal /\
  never_hangs de_psk_proposal /\
  never_hangs de_external_init_proposal /\
  never_hangs de_gce_proposal /\
  never_hangs de_reinit_proposal /\
  never_hangs de_proposal /\
  never_hangs de_proposal_or_ref /\
  never_hangs de_commit /\
  never_hangs de_content /\
  never_hangs de_framed_content /\
  (forall ct, never_hangs (de_auth_data ct)) /\
  never_hangs de_auth_content /\
  never_hangs de_framed_content_tbs /\
  never_hangs de_auth_content_tbm /\
  never_hangs de_sender_data /\
  never_hangs de_public_message /\
  never_hangs de_private_message /\
  never_hangs de_private_content_aad /\
  never_hangs de_group_info /\
  never_hangs de_group_secrets /\
  never_hangs de_egs /\
  never_hangs de_welcome /\
  never_hangs de_wire_message /\
  never_hangs de_mls_message /\
  never_hangs de_confirmed_input /\
  never_hangs de_ratchet_tree /\ (forall ct, never_hangs (de_private_content ct)).
Proof. repeat match goal with |- _ /\ _ => split end; each_ct; try (eapply desafe_hangs; apply _). intros bs. apply safe_false, safe_private_content. Qed.

Lemma never_panics_safe :
  never_panics de_content_type /\
  never_panics de_sender_type /\
  never_panics de_wire_format /\
  never_panics de_node_type /\
  never_panics de_psk_type /\
  never_panics de_psk_usage /\
  never_panics de_credential /\
  never_panics de_signature_scheme /\
  never_panics de_signature_key_pair /\
  never_panics de_hpke_key_pair /\
  never_panics de_sender /\
  never_panics de_extension /\
  never_panics de_extensions /\
  never_panics de_external_senders /\
  never_panics de_required_capabilities /\
  never_panics de_capabilities /\
  never_panics de_hpke_ciphertext /\
  never_panics de_update_path_node /\
  never_panics de_group_context /\
  never_panics de_resumption /\
  never_panics de_psk /\
  never_panics de_psk_id /\
  never_panics de_psk_label /\
  never_panics de_remove_proposal /\
  never_panics de_psk_proposal /\
  never_panics de_external_init_proposal /\
  never_panics de_gce_proposal /\
  never_panics de_reinit_proposal /\
  (forall ct, never_panics (de_auth_data ct)) /\
  never_panics de_sender_data /\
  never_panics de_private_message /\
  never_panics de_private_content_aad /\
  never_panics de_group_info /\
  never_panics de_group_secrets /\
  never_panics de_egs /\
  never_panics de_welcome.
Proof. repeat match goal with |- _ /\ _ => split end; each_ct; eapply desafe_panics; apply _. Qed.

Lemma sizes_all :
  fails_only_on_size any se_content_type /\
  fails_only_on_size any se_sender_type /\
  fails_only_on_size any se_wire_format /\
  fails_only_on_size any se_node_type /\
  fails_only_on_size any se_psk_type /\
  fails_only_on_size any se_psk_usage /\
  fails_only_on_size fits_credential se_credential /\
  fails_only_on_size any se_signature_scheme /\
  fails_only_on_size fits_signature_key_pair se_signature_key_pair /\
  fails_only_on_size fits_hpke_key_pair se_hpke_key_pair /\
  fails_only_on_size any se_sender /\
  fails_only_on_size fits_extension se_extension /\
  fails_only_on_size fits_extensions se_extensions /\
  fails_only_on_size fits_external_senders se_external_senders /\
  fails_only_on_size fits_required_capabilities se_required_capabilities /\
  fails_only_on_size any se_proposal_type /\
  fails_only_on_size any se_lifetime /\
  fails_only_on_size fits_leaf_node_source se_leaf_node_source /\
  fails_only_on_size fits_capabilities se_capabilities /\
  fails_only_on_size fits_leaf_payload se_leaf_payload /\
  fails_only_on_size fits_leaf_node se_leaf_node /\
  fails_only_on_size fits_parent_node se_parent_node /\
  fails_only_on_size fits_hpke_ciphertext se_hpke_ciphertext /\
  fails_only_on_size fits_update_path_node se_update_path_node /\
  fails_only_on_size fits_update_path se_update_path /\
  fails_only_on_size fits_node se_node /\
  fails_only_on_size fits_key_package_tbs se_key_package_tbs /\
  fails_only_on_size fits_key_package se_key_package /\
  fails_only_on_size fits_group_context se_group_context /\
  fails_only_on_size fits_resumption se_resumption /\
  fails_only_on_size fits_psk se_psk /\
  fails_only_on_size fits_psk_id se_psk_id /\
  fails_only_on_size fits_psk_label se_psk_label /\
  fails_only_on_size fits_reinit_proposal se_reinit_proposal /\
  fails_only_on_size fits_proposal se_proposal /\
  fails_only_on_size fits_proposal_or_ref se_proposal_or_ref /\
  fails_only_on_size fits_commit se_commit /\
  fails_only_on_size fits_content se_content /\
  fails_only_on_size fits_framed_content se_framed_content /\
  (forall ct, fails_only_on_size (fits_auth_data ct) (se_auth_data ct)) /\
  fails_only_on_size fits_auth_content se_auth_content /\
  fails_only_on_size any se_sender_data /\
  fails_only_on_size fits_public_message se_public_message /\
  fails_only_on_size fits_private_message se_private_message /\
  fails_only_on_size fits_private_content_aad se_private_content_aad /\
  fails_only_on_size fits_group_info se_group_info /\
  fails_only_on_size fits_group_secrets se_group_secrets /\
  fails_only_on_size fits_egs se_egs /\
  fails_only_on_size fits_welcome se_welcome /\
  fails_only_on_size fits_wire_message se_wire_message /\
  fails_only_on_size fits_mls_message se_mls_message /\
  fails_only_on_size fits_sender_data_aad se_sender_data_aad /\
  fails_only_on_size fits_private_content se_private_content /\
  fails_only_on_size fits_ratchet_tree se_ratchet_tree.
Proof. repeat match goal with |- _ /\ _ => split end; each_ct; apply sizing_spec; apply _. Qed.


(** ** Framing *)

Lemma vector_frame {A} (f : bytes -> res (A * bytes)) bs l rest : de_vector f bs = Ok (l, rest) ->
  exists hdr body, se_varint (N.of_nat (length body)) = Ok hdr /\ bs = hdr ++ body ++ rest /\
    forall rest', de_vector f (hdr ++ body ++ rest') = Ok (l, rest').
Proof.
  unfold de_vector. intros H. apply bind_ok in H as ([n r] & Hn & H).
  destruct (N.ltb_spec (N.of_nat (length r)) n) as [L|L]; [discriminate|].
  apply bind_ok in H as ([v r'] & Hv & H). apply copy_ok in Hv as [-> Hn'].
  apply (codec_can codec_varint) in Hn as (W & hdr & Hh & ->).
  apply bind_ok in H as (l' & Hl & H). apply Ok_inj in H. injection H as -> ->.
  exists hdr, v. rewrite Hn'. split; [exact Hh|]. split; [reflexivity|]. intros rest'.
  rewrite (codec_rt codec_varint _ _ _ W Hh). cbn [bind].
  destruct (N.ltb_spec (N.of_nat (length (v ++ rest'))) n) as [K|K]; [rewrite app_length in K; lia|].
  rewrite <- Hn', copy_app. cbn [bind]. rewrite Hl. reflexivity.
Qed.

Lemma opaque_frame v : (short v -> exists hdr, se_varint (N.of_nat (length v)) = Ok hdr /\ se_opaque v = Ok (hdr ++ v)).
Proof. intros H. destruct (se_opaque_short v H) as (h & H1 & H2). eauto. Qed.

(** ** deserialize_exact *)

Lemma exact_accepts {A} (wf : A -> Prop) ser de : codec wf ser de -> forall bs a,
  de_exact de bs = Ok a <-> wf a /\ exists p junk, ser a = Ok p /\ bs = p ++ junk.
Proof.
  intros C bs a. unfold de_exact. split.
  - intros H. apply bind_ok in H as ([a' r] & Hd & H). apply Ok_inj in H. subst a'.
    apply (codec_can C) in Hd as (W & p & Hp & ->). eauto.
  - intros (W & p & junk & Hp & ->). rewrite (codec_rt C _ _ _ W Hp). reflexivity.
Qed.

(** ** Versions *)

Lemma mls_message_version v bs : is_u16 v -> v <> 1 -> de_mls_message (be 2 v ++ bs) = Err (InvalidProtocolVersion v).
Proof.
  intros W N. unfold de_mls_message. rewrite (codec_rt codec_u16 v (be 2 v)) by (assumption || reflexivity).
  cbn [bind]. destruct (version_of_u16 v) eqn:E.
  - exfalso. apply N. rewrite <- (version_u16 v), E. reflexivity.
  - cbn. rewrite <- (version_u16 v), E. reflexivity.
Qed.
Lemma group_context_version v bs : is_u16 v -> v <> 1 ->
  exists e, de_group_context (be 2 v ++ bs) = Err e.
Proof.
  intros W N. destruct (de_group_context (be 2 v ++ bs)) as [[g r]|e| |] eqn:E.
  - exfalso. apply (codec_can codec_group_context) in E as ((V & _) & p & Hp & E).
    unfold se_group_context in Hp. rewrite V in Hp. apply seqw_ok in Hp as (a & b & Ha & _ & ->).
    apply Ok_inj in Ha. subst a. rewrite <- app_assoc in E.
    apply (f_equal (firstn 2)) in E. cbn [u16_of_version] in E.
    rewrite !firstn_app, !be_length, !Nat.sub_diag, !firstn_O, !app_nil_r in E.
    rewrite !firstn_all2 in E by (rewrite be_length; lia).
    apply (f_equal (unbe 0)) in E. rewrite !unbe_be in E. change (256 ^ N.of_nat 2) with 65536 in E.
    unfold is_u16 in W. rewrite !N.mod_small in E by lia. contradiction.
  - eauto.
  - exfalso. eapply (desafe_panics (safe_group_context true)). exact E.
  - exfalso. eapply (desafe_hangs (safe_group_context false)). exact E.
Qed.

(** ** Code points *)

Definition one_to_one {A} (f : N -> A) (g : A -> N) : Prop :=
  (forall v, is_u16 v -> g (f v) = v) /\ (forall v w, is_u16 v -> is_u16 w -> f v = f w -> v = w).
Lemma one_to_one_of {A} (f : N -> A) g : (forall v, g (f v) = v) -> one_to_one f g.
Proof. intros H. split; [auto|]. intros v w _ _ E. rewrite <- (H v), E. apply H. Qed.

(** A closed enum: the accepted code points are exactly those of its constructors. *)
Definition closed_code {A} (k : nat) (bound : N) (de : bytes -> res (A * bytes)) (code : A -> N) : Prop :=
  (forall a, code a < bound) /\
  (forall a b, code a = code b -> a = b) /\
  (forall v rest a r, v < bound -> (de (be k v ++ rest) = Ok (a, r) <-> code a = v /\ r = rest)).
Lemma closed_code_of {A} k bound (se : A -> res bytes) de code : bound = 256 ^ N.of_nat k ->
  (forall a, se a = Ok (be k (code a))) -> (forall a, code a < bound) -> codec any se de ->
  closed_code k bound de code.
Proof.
  intros Eb Hs Hb C. split; [exact Hb|]. split.
  - intros a b E. apply (codec_inj C a b (be k (code a)) I I (Hs a)). rewrite E. apply Hs.
  - intros v rest a r Hv. split.
    + intros H. apply (codec_can C) in H as (_ & p & Hp & E). rewrite Hs in Hp. apply Ok_inj in Hp. subst p.
      assert (E1 := f_equal (firstn k) E). assert (E2 := f_equal (skipn k) E).
      rewrite !firstn_app, !be_length, !Nat.sub_diag, !firstn_O, !app_nil_r, !firstn_all2 in E1 by (rewrite be_length; lia).
      rewrite !skipn_app, !be_length, !Nat.sub_diag in E2.
      rewrite (skipn_all2 (be k v)), (skipn_all2 (be k (code a))) in E2 by (rewrite be_length; lia). cbn in E2.
      split; [|auto]. apply (f_equal (unbe 0)) in E1. rewrite !unbe_be, <- Eb, !N.mod_small in E1 by auto. auto.
    + intros [<- ->]. apply (codec_rt C); [exact I|apply Hs].
Qed.

Definition wire_format_code (w : wire_format) : N :=
  match w with WFPublicMessage => 1 | WFPrivateMessage => 2 | WFWelcome => 3 | WFGroupInfo => 4 | WFKeyPackage => 5 end.
Definition content_type_code (w : content_type) : N :=
  match w with CTApplication => 1 | CTProposal => 2 | CTCommit => 3 end.
Definition sender_type_code (w : sender_type) : N :=
  match w with STMember => 1 | STExternal => 2 | STNewMemberProposal => 3 | STNewMemberCommit => 4 end.
Definition signature_scheme_code (s : signature_scheme) : N :=
  match s with
  | ECDSA_SECP256R1_SHA256 => 0x0403 | ECDSA_SECP384R1_SHA384 => 0x0503
  | ECDSA_SECP521R1_SHA512 => 0x0603 | ED25519 => 0x0807 | ED448 => 0x0808
  end.
Definition node_type_code (w : node_type) : N := match w with NtLeaf => 1 | NtParent => 2 end.
Definition psk_type_code (w : psk_type) : N := match w with PskExternal => 1 | PskResumption => 2 end.
Definition psk_usage_code (w : psk_usage) : N := match w with UseApplication => 1 | UseReinit => 2 | UseBranch => 3 end.

Lemma closed_codes :
  closed_code 2 65536 de_wire_format wire_format_code /\
  closed_code 2 65536 de_signature_scheme signature_scheme_code /\
  closed_code 1 256 de_content_type content_type_code /\
  closed_code 1 256 de_sender_type sender_type_code /\
  closed_code 1 256 de_node_type node_type_code /\
  closed_code 1 256 de_psk_type psk_type_code /\
  closed_code 1 256 de_psk_usage psk_usage_code.
Proof.
  Local Ltac closed C := eapply closed_code_of; [reflexivity| | |exact C]; intros []; reflexivity.
  split; [closed codec_wire_format|]. split; [closed codec_signature_scheme|]. split; [closed codec_content_type|].
  split; [closed codec_sender_type|]. split; [closed codec_node_type|]. split; [closed codec_psk_type|].
  closed codec_psk_usage.
Qed.

(** ** Serialization of to-be-signed structures *)
Lemma tbs_no_context t : signs_context (fc_sender (tbs_content t)) = true -> tbs_context t = None ->
  fits_framed_content (tbs_content t) -> se_framed_content_tbs t = Err SenderMemberAndNewMemberCommitNoGroupContext.
Proof.
  intros S E F. unfold se_framed_content_tbs. rewrite E.
  destruct (sizing_framed_content (tbs_content t)) as [[_ [p Hp]]|[K _]]; [|contradiction].
  destruct (fc_sender (tbs_content t)); try discriminate; rewrite Hp; reflexivity.
Qed.
Lemma confirmed_not_commit c : (forall m, fc_content (ci_content c) <> CCommit m) ->
  se_confirmed_input c = Err ConfirmedTranscriptHashInputContainContentCommitOnly.
Proof. intros H. unfold se_confirmed_input. destruct (fc_content _); try reflexivity. exfalso. eapply H. reflexivity. Qed.

(** ** Statements in the vocabulary of PropCodec.v *)

Lemma codec_of {A} (wf : A -> Prop) ser de : roundtrip wf ser de -> canonical wf ser de -> codec wf ser de.
Proof. intros R C. split; [exact R|exact C]. Qed.
Lemma varint_domain n :
  (n < 2 ^ 30 <-> exists p, se_varint n = Ok p) /\ (2 ^ 30 <= n -> se_varint n = Err VarintExceeds30Bits).
Proof.
  change (2 ^ 30) with 1073741824. split.
  - apply (proj1 (sizing_spec sizing_varint n)).
  - intros L. unfold se_varint. change (N.shiftl 1 6) with 64. change (N.shiftl 1 14) with 16384.
    change (N.shiftl 1 30) with 1073741824.
    destruct (N.ltb_spec n 64), (N.ltb_spec n 16384), (N.ltb_spec n 1073741824); try lia. reflexivity.
Qed.
Lemma varint_rt n p rest : se_varint n = Ok p -> de_varint (p ++ rest) = Ok (n, rest).
Proof.
  intros H. apply (codec_rt codec_varint); [|exact H]. apply (proj1 (sizing_spec sizing_varint n)). eauto.
Qed.
Lemma varint_unique bs n rest : de_varint bs = Ok (n, rest) -> n < 2 ^ 30 /\ exists p, se_varint n = Ok p /\ bs = p ++ rest.
Proof. exact (codec_can codec_varint bs n rest). Qed.
Lemma varint_widths n p : se_varint n = Ok p ->
  length p = if n <? 64 then 1%nat else if n <? 16384 then 2%nat else 4%nat.
Proof.
  unfold se_varint. change (N.shiftl 1 6) with 64. change (N.shiftl 1 14) with 16384.
  destruct (n <? 64); [intros H; apply Ok_inj in H; subst; apply be_length|].
  destruct (n <? 16384); [intros H; apply Ok_inj in H; subst; apply be_length|].
  destruct (n <? _); [intros H; apply Ok_inj in H; subst; apply be_length|discriminate].
Qed.
Lemma opaque_framing :
  (forall v, N.of_nat (length v) < 2 ^ 30 <-> exists p, se_opaque v = Ok p) /\
  (forall v p rest, se_opaque v = Ok p -> de_opaque (p ++ rest) = Ok (v, rest)) /\
  (forall bs v rest, de_opaque bs = Ok (v, rest) -> exists hdr, se_varint (N.of_nat (length v)) = Ok hdr /\ bs = hdr ++ v ++ rest).
Proof.
  split; [|split].
  - intros v. apply (proj1 (sizing_spec sizing_opaque v)).
  - intros v p rest. apply (codec_rt codec_opaque); exact I.
  - intros bs v rest H. apply (codec_can codec_opaque) in H as (_ & p & Hp & ->).
    apply se_opaque_ok in Hp as (_ & h & Hh & ->). exists h. rewrite <- app_assoc. auto.
Qed.
Lemma vector_framing A (wf : A -> Prop) ser de : roundtrip wf ser de -> canonical wf ser de ->
  (forall a p, ser a = Ok p -> p <> []) ->
  roundtrip (Forall wf) (se_vector ser) (de_vector de) /\ canonical (Forall wf) (se_vector ser) (de_vector de).
Proof.
  intros R C N. assert (E : ser_ne ser).
  { intros a p H. destruct p; [|cbn; lia]. exfalso. eapply N; eauto. }
  pose (K := codec_vector wf ser de (codec_of _ _ _ R C) E). split; [exact (codec_rt K)|exact (codec_can K)].
Qed.
Lemma option_framing A (wf : A -> Prop) ser de : roundtrip wf ser de -> canonical wf ser de ->
  roundtrip (fun o => match o with Some a => wf a | None => True end) (se_option ser) (de_option de) /\
  canonical (fun o => match o with Some a => wf a | None => True end) (se_option ser) (de_option de).
Proof.
  intros R C. pose (K := codec_option wf ser de (codec_of _ _ _ R C)). split; [exact (codec_rt K)|exact (codec_can K)].
Qed.
Lemma exact_accepts' A (wf : A -> Prop) ser de : roundtrip wf ser de -> canonical wf ser de -> forall bs a,
  de_exact de bs = Ok a <-> wf a /\ exists p junk, ser a = Ok p /\ bs = p ++ junk.
Proof. intros R C. apply exact_accepts, codec_of; assumption. Qed.
Lemma exact_refuted : exists bs g, de_exact de_group_secrets bs = Ok g /\ se_group_secrets g <> Ok bs.
Proof. exists [x01; xaa; x00; x00; xff], (MkGroupSecrets [xaa] None []). vm_compute. split; [reflexivity|discriminate]. Qed.
Lemma tbs_sizes t : (signs_context (fc_sender (tbs_content t)) = true -> tbs_context t <> None) ->
  (fits_framed_content_tbs t <-> exists p, se_framed_content_tbs t = Ok p) /\
  (~ fits_framed_content_tbs t <->
     (se_framed_content_tbs t = Err VarintExceeds30Bits \/ se_framed_content_tbs t = Err OpaqueSizeExceedsMaximumValueOfU32)).
Proof. intros H. apply sized_spec, sized_framed_content_tbs, H. Qed.
Lemma confirmed_sizes c m : fc_content (ci_content c) = CCommit m ->
  (fits_confirmed_input c <-> exists p, se_confirmed_input c = Ok p) /\
  (~ fits_confirmed_input c <->
     (se_confirmed_input c = Err VarintExceeds30Bits \/ se_confirmed_input c = Err OpaqueSizeExceedsMaximumValueOfU32)).
Proof. intros H. eapply sized_spec, sized_confirmed_input, H. Qed.
Lemma mls_version :
  (forall bs m rest, de_mls_message bs = Ok (m, rest) -> mm_version m = MLS10) /\
  (forall v bs, v < 65536 -> v <> 1 -> de_mls_message (be 2 v ++ bs) = Err (InvalidProtocolVersion v)).
Proof.
  split; [|exact mls_message_version]. intros bs m rest H. apply (codec_can codec_mls_message) in H as ((V & _) & _).
  exact V.
Qed.
Lemma gc_version' :
  (forall bs g rest, de_group_context bs = Ok (g, rest) -> gc_version g = MLS10) /\
  (forall v bs, v < 65536 -> v <> 1 -> exists e, de_group_context (be 2 v ++ bs) = Err e).
Proof.
  split; [|exact group_context_version]. intros bs m rest H. apply (codec_can codec_group_context) in H as ((V & _) & _).
  exact V.
Qed.
Lemma open_codes :
  one_to_one cipher_suite_of_u16 u16_of_cipher_suite /\
  one_to_one credential_type_of_u16 u16_of_credential_type /\
  one_to_one extension_type_of_u16 u16_of_extension_type /\
  one_to_one proposal_type_of_u16 u16_of_proposal_type /\
  one_to_one version_of_u16 u16_of_version.
Proof.
  repeat split; auto using cipher_suite_u16, credential_type_u16, extension_type_u16, proposal_type_u16, version_u16;
    intros v w _ _ E; match type of E with ?f v = ?f w => idtac end.
  - rewrite <- (cipher_suite_u16 v), E. apply cipher_suite_u16.
  - rewrite <- (credential_type_u16 v), E. apply credential_type_u16.
  - rewrite <- (extension_type_u16 v), E. apply extension_type_u16.
  - rewrite <- (proposal_type_u16 v), E. apply proposal_type_u16.
  - rewrite <- (version_u16 v), E. apply version_u16.
Qed.

(** A key package message whose leaf ends inside the lifetime. *)
Definition panic_message : bytes :=
  be 2 1 ++ be 2 5 ++ be 2 1 ++ be 2 1 ++ [x00; x00; x00] ++ be 2 1 ++ [x00] ++ [x00; x00; x00; x00; x00] ++
  [x01] ++ be 8 0.
Lemma mls_message_panic : exists bs, de_mls_message bs = Panic.
Proof. exists panic_message. vm_compute. reflexivity. Qed.
(** A parent node with a one-byte list of unmerged leaves. *)
Lemma tree_panic : exists bs, de_ratchet_tree bs = Panic.
Proof. exists [x06; x01; x02; x00; x00; x01; x00]. vm_compute. reflexivity. Qed.

Lemma tree_rt t p rest : wf_tree t -> se_ratchet_tree t = Ok p ->
  exists c n m k, t = c ++ repeat None n /\ (forall c', c <> c' ++ [None]) /\
    de_ratchet_tree (p ++ rest) = Ok (c ++ repeat None m, rest) /\
    N.of_nat (length c + m) + 1 = 2 ^ k /\ (forall j, N.of_nat (length c) + 1 <= 2 ^ j -> k <= j).
Proof.
  intros W H. destruct (tree_roundtrip t p rest W H) as (t' & D & m & k & -> & L & M).
  destruct (trim_blank_spec t) as [n E]. exists (trim_blank t), n, m, k.
  split; [exact E|]. split; [apply trim_blank_no_trailing|]. split; [exact D|].
  rewrite app_length, repeat_length in L. auto.
Qed.
Lemma tree_len bs t rest : de_ratchet_tree bs = Ok (t, rest) -> wf_tree t /\ exists k, N.of_nat (length t) + 1 = 2 ^ k.
Proof. intros H. apply tree_decode in H as (W & l & p & _ & _ & n & k & _ & L & _). eauto. Qed.
Lemma tree_two : exists b1 b2 t, b1 <> b2 /\ de_ratchet_tree b1 = Ok (t, []) /\ de_ratchet_tree b2 = Ok (t, []).
Proof. exists [x02; x00; x00], [x03; x00; x00; x00], [None; None; None]. vm_compute. split; [discriminate|auto]. Qed.
Lemma padding_rt c p pad : wf_private_content c -> se_private_content c = Ok p ->
  let ct := content_type_of (pc_content c) in
  (Forall (fun b => b = x00) pad -> de_private_content ct (p ++ pad) = Ok c) /\
  (~ Forall (fun b => b = x00) pad -> de_private_content ct (p ++ pad) = Err PaddingContainsNonZeroBytes).
Proof.
  intros W H. cbn zeta. rewrite (private_content_rt c p pad W H). split; intros K.
  - apply check_padding_ok in K. rewrite K. reflexivity.
  - rewrite (check_padding_err _ K). reflexivity.
Qed.
