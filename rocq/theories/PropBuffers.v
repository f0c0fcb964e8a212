(** Property C116: what a call leaves in the caller's buffer. The functions that keep it in view are in Buffers.v; [reads_from], [writes_to],
    [fits] and [add] are in SpecBuffers.v. *)
From Verif Require Import BufferFacts.
From Verif Require Import SpecBuffers SpecStream Examples.
Import Coq.Strings.Byte.
Local Open Scope N_scope.

(** Every deserializer takes from the buffer the bytes of the value it returns, and leaves an end of what was there. *)
Theorem C116_reads :
  reads_from rd_secret_key de_secret_key /\
  reads_from rd_identity de_identity /\
  reads_from rd_certificate de_certificate /\
  reads_from rd_credential de_credential /\
  reads_from rd_signature_scheme de_signature_scheme /\
  reads_from rd_signature_key_pair de_signature_key_pair /\
  reads_from rd_hpke_key_pair de_hpke_key_pair /\
  reads_from rd_content_type de_content_type /\
  reads_from rd_sender_type de_sender_type /\
  reads_from rd_sender de_sender /\
  reads_from rd_wire_format de_wire_format /\
  reads_from rd_extension de_extension /\
  reads_from rd_extensions de_extensions /\
  reads_from rd_application_id de_application_id /\
  reads_from rd_unknown_extension de_unknown_extension /\
  reads_from rd_external_pub de_external_pub /\
  reads_from rd_external_senders de_external_senders /\
  reads_from rd_proposal_type de_proposal_type /\
  reads_from rd_required_capabilities de_required_capabilities /\
  reads_from rd_lifetime de_lifetime /\
  reads_from rd_leaf_node_source de_leaf_node_source /\
  reads_from rd_capabilities de_capabilities /\
  reads_from rd_leaf_payload de_leaf_payload /\
  reads_from rd_leaf_node de_leaf_node /\
  reads_from rd_parent_node de_parent_node /\
  reads_from rd_hpke_ciphertext de_hpke_ciphertext /\
  reads_from rd_update_path_node de_update_path_node /\
  reads_from rd_update_path de_update_path /\
  reads_from rd_node_type de_node_type /\
  reads_from rd_node de_node /\
  reads_from rd_ratchet_tree de_ratchet_tree /\
  reads_from rd_ratchet_tree_extension de_ratchet_tree_extension /\
  reads_from rd_key_package_ref de_key_package_ref /\
  reads_from rd_key_package_tbs de_key_package_tbs /\
  reads_from rd_key_package de_key_package /\
  reads_from rd_group_context de_group_context /\
  reads_from rd_psk_type de_psk_type /\
  reads_from rd_psk_usage de_psk_usage /\
  reads_from rd_resumption de_resumption /\
  reads_from rd_psk de_psk /\
  reads_from rd_psk_id de_psk_id /\
  reads_from rd_psk_label de_psk_label /\
  reads_from rd_add_proposal de_add_proposal /\
  reads_from rd_update_proposal de_update_proposal /\
  reads_from rd_remove_proposal de_remove_proposal /\
  reads_from rd_psk_proposal de_psk_proposal /\
  reads_from rd_reinit_proposal de_reinit_proposal /\
  reads_from rd_external_init_proposal de_external_init_proposal /\
  reads_from rd_gce_proposal de_gce_proposal /\
  reads_from rd_proposal de_proposal /\
  reads_from rd_proposal_or_ref de_proposal_or_ref /\
  reads_from rd_commit de_commit /\
  reads_from rd_content de_content /\
  reads_from rd_framed_content de_framed_content /\
  (forall ct, reads_from (rd_auth_data ct) (de_auth_data ct)) /\
  reads_from rd_auth_content de_auth_content /\
  reads_from rd_framed_content_tbs de_framed_content_tbs /\
  reads_from rd_auth_content_tbm de_auth_content_tbm /\
  reads_from rd_sender_data de_sender_data /\
  reads_from rd_public_message de_public_message /\
  reads_from rd_private_message de_private_message /\
  reads_from rd_private_content_aad de_private_content_aad /\
  reads_from rd_group_info de_group_info /\
  reads_from rd_group_secrets de_group_secrets /\
  reads_from rd_egs de_egs /\
  reads_from rd_welcome de_welcome /\
  reads_from rd_wire_message de_wire_message /\
  reads_from rd_mls_message de_mls_message /\
  reads_from rd_confirmed_input de_confirmed_input.
Proof. exact c116_reads. Qed.
Print Assumptions C116_reads.

(** Every serializer adds the encoding to what the buffer holds. *)
Theorem C116_writes :
  writes_to wr_secret_key se_secret_key /\
  writes_to wr_identity se_identity /\
  writes_to wr_certificate se_certificate /\
  writes_to wr_credential se_credential /\
  writes_to wr_signature_scheme se_signature_scheme /\
  writes_to wr_signature_key_pair se_signature_key_pair /\
  writes_to wr_hpke_key_pair se_hpke_key_pair /\
  writes_to wr_content_type se_content_type /\
  writes_to wr_sender_type se_sender_type /\
  writes_to wr_sender se_sender /\
  writes_to wr_wire_format se_wire_format /\
  writes_to wr_extension se_extension /\
  writes_to wr_extensions se_extensions /\
  writes_to wr_application_id se_application_id /\
  writes_to wr_unknown_extension se_unknown_extension /\
  writes_to wr_external_pub se_external_pub /\
  writes_to wr_external_senders se_external_senders /\
  writes_to wr_proposal_type se_proposal_type /\
  writes_to wr_required_capabilities se_required_capabilities /\
  writes_to wr_lifetime se_lifetime /\
  writes_to wr_leaf_node_source se_leaf_node_source /\
  writes_to wr_capabilities se_capabilities /\
  writes_to wr_leaf_payload se_leaf_payload /\
  writes_to wr_leaf_node se_leaf_node /\
  (forall t, writes_to (fun p => wr_leaf_node_tbs p t) (fun p => se_leaf_node_tbs p t)) /\
  writes_to wr_parent_node se_parent_node /\
  writes_to wr_hpke_ciphertext se_hpke_ciphertext /\
  writes_to wr_update_path_node se_update_path_node /\
  writes_to wr_update_path se_update_path /\
  writes_to wr_node_type se_node_type /\
  writes_to wr_node se_node /\
  writes_to wr_ratchet_tree se_ratchet_tree /\
  writes_to wr_ratchet_tree_extension se_ratchet_tree_extension /\
  writes_to wr_key_package_ref se_key_package_ref /\
  writes_to wr_key_package_tbs se_key_package_tbs /\
  writes_to wr_key_package se_key_package /\
  writes_to wr_group_context se_group_context /\
  writes_to wr_psk_type se_psk_type /\
  writes_to wr_psk_usage se_psk_usage /\
  writes_to wr_resumption se_resumption /\
  writes_to wr_psk se_psk /\
  writes_to wr_psk_id se_psk_id /\
  writes_to wr_psk_label se_psk_label /\
  writes_to wr_add_proposal se_add_proposal /\
  writes_to wr_update_proposal se_update_proposal /\
  writes_to wr_remove_proposal se_remove_proposal /\
  writes_to wr_psk_proposal se_psk_proposal /\
  writes_to wr_reinit_proposal se_reinit_proposal /\
  writes_to wr_external_init_proposal se_external_init_proposal /\
  writes_to wr_gce_proposal se_gce_proposal /\
  writes_to wr_proposal se_proposal /\
  writes_to wr_proposal_or_ref se_proposal_or_ref /\
  writes_to wr_commit se_commit /\
  writes_to wr_content se_content /\
  writes_to wr_framed_content se_framed_content /\
  (forall ct, writes_to (wr_auth_data ct) (se_auth_data ct)) /\
  writes_to wr_auth_content se_auth_content /\
  writes_to wr_framed_content_tbs se_framed_content_tbs /\
  writes_to wr_auth_content_tbm se_auth_content_tbm /\
  writes_to wr_sender_data se_sender_data /\
  writes_to wr_sender_data_aad se_sender_data_aad /\
  writes_to wr_public_message se_public_message /\
  writes_to wr_private_message se_private_message /\
  writes_to wr_private_content se_private_content /\
  writes_to wr_private_content_aad se_private_content_aad /\
  writes_to wr_group_info se_group_info /\
  writes_to wr_group_secrets se_group_secrets /\
  writes_to wr_egs se_egs /\
  writes_to wr_welcome se_welcome /\
  writes_to wr_wire_message se_wire_message /\
  writes_to wr_mls_message se_mls_message /\
  writes_to wr_confirmed_input se_confirmed_input.
Proof. exact c116_writes. Qed.
Print Assumptions C116_writes.

(** So what one side writes_to after [h] the other side reads_from, and both leave what is not theirs. *)
Theorem C116_exchange : forall m p h more, wf_mls_message m -> se_mls_message m = Ok p ->
  wr_mls_message m (MkOut h None) = (Ok tt, MkOut (h ++ p) None) /\ rd_mls_message (p ++ more) = (Ok m, more).
Proof. exact c116_exchange. Qed.
Print Assumptions C116_exchange.

(** Whatever is wrong inside a list, what follows it is left: [v] are the bytes of the list, [rest] those behind it. *)
Theorem C116_in_step : forall bs v rest, de_opaque bs = Ok (v, rest) ->
  snd (rd_extensions bs) = rest /\ snd (rd_ratchet_tree bs) = rest /\ (forall A (f : bytes -> reading A), snd (rd_vector f bs) = rest).
Proof. exact c116_in_step. Qed.
Print Assumptions C116_in_step.

(** A message of which not even the version is there has not been touched. *)
Theorem C116_untouched : forall bs, (length bs < 2)%nat -> rd_mls_message bs = (Err BufferTooSmall, bs).
Proof. exact c116_none. Qed.
Print Assumptions C116_untouched.

(** The claim is false of calls that fail. A message that is refused has been taken in part, whatever it is: *)
Theorem C116_refuted_read : forall bs e, (2 <= length bs)%nat -> de_mls_message bs = Err e ->
  fst (rd_mls_message bs) = Err e /\ snd (rd_mls_message bs) <> bs.
Proof. exact c116_refuted_read. Qed.
Print Assumptions C116_refuted_read.

(** so a caller who is told that bytes are missing cannot add them to the same buffer and call again: *)
Theorem C116_refuted_cut : forall m p q, wf_mls_message m -> se_mls_message m = Ok p -> cut_of p q -> (2 <= length q)%nat ->
  ~ cut_in_lifetime (before_lifetime m) (length q) ->
  fst (rd_mls_message q) = Err BufferTooSmall /\ (length (snd (rd_mls_message q)) + 2 <= length q)%nat.
Proof. exact c116_refuted_cut. Qed.
Print Assumptions C116_refuted_cut.

(** A key package with a signature too long to be encoded has been written up to it when the error comes: *)
Theorem C116_refuted_write : forall k x b, se_key_package_tbs (kp_payload k) = Ok x -> 2 ^ 30 <= N.of_nat (length (kp_signature k)) -> fits x b ->
  exists e, wr_key_package k b = (Err e, add x b).
Proof. exact c116_refuted_write. Qed.
Print Assumptions C116_refuted_write.

(** And a buffer with too little room is not an error but a panic: *)
Theorem C116_refuted_room : forall m x h r, se_mls_message m = Ok x -> r < N.of_nat (length x) -> fst (wr_mls_message m (MkOut h (Some r))) = Panic.
Proof. exact c116_room. Qed.
Print Assumptions C116_refuted_room.

(** A message of 191 bytes, cut after 100 of them: of these, 72 are left, and with the other 91 they are not a message. Written to a buffer with room
    for 100 bytes it leaves 28 bytes there. *)
Definition ex_bytes : bytes := ok_or [] (se_mls_message ex_message).
Example C116_example : wf_mls_message ex_message /\ se_mls_message ex_message = Ok ex_bytes /\ cut_of ex_bytes (firstn 100 ex_bytes) /\
  ~ cut_in_lifetime (before_lifetime ex_message) 100 /\
  (exists left, rd_mls_message (firstn 100 ex_bytes) = (Err BufferTooSmall, left) /\ length left = 72%nat /\
     de_mls_message (left ++ skipn 100 ex_bytes) <> de_mls_message ex_bytes) /\
  rd_extensions [x02; x00; x01; x07] = (Err BufferTooSmall, [x07]) /\
  (exists b, wr_mls_message ex_message (MkOut [x07] (Some 100)) = (Panic, b) /\ length (held b) = 29%nat).
Proof.
  split; [exact ex_message_wf|]. split; [vm_compute; reflexivity|]. split; [exists (skipn 100 ex_bytes); split; [vm_compute; reflexivity|vm_compute; discriminate]|].
  split; [intros (x & H & _); vm_compute in H; discriminate H|].
  split; [exists (snd (rd_mls_message (firstn 100 ex_bytes))); repeat split; vm_compute; try reflexivity; discriminate|].
  split; [vm_compute; reflexivity|].
  exists (snd (wr_mls_message ex_message (MkOut [x07] (Some 100)))). split; vm_compute; reflexivity.
Qed.
