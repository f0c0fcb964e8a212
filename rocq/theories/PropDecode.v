(** Property C111: what decoding costs. The counting decoders, what a step is and [takes] are in SpecDecode.v. *)
From Verif Require Import DecodeFacts.
From Verif Require Import SpecDecode Examples.
Local Open Scope N_scope.

(* ------------------------------------------------------------------------------------------- *)
(** * C111 *)

(** Keys, credentials, extensions and capabilities. *)
Theorem C111_values :
  takes cd_secret_key de_secret_key 2 /\
  takes cd_identity de_identity 2 /\
  takes cd_certificate de_certificate 2 /\
  takes cd_credential de_credential 4 /\
  takes cd_signature_scheme de_signature_scheme 1 /\
  takes cd_signature_key_pair de_signature_key_pair 2 /\
  takes cd_hpke_key_pair de_hpke_key_pair 2 /\
  takes cd_extension de_extension 2 /\
  takes cd_extensions de_extensions 4 /\
  takes cd_application_id de_application_id 2 /\
  takes cd_unknown_extension de_unknown_extension 2 /\
  takes cd_external_pub de_external_pub 2 /\
  takes cd_external_senders de_external_senders 4 /\
  takes cd_proposal_type de_proposal_type 1 /\
  takes cd_required_capabilities de_required_capabilities 3 /\
  takes cd_lifetime de_lifetime 1 /\
  takes cd_leaf_node_source de_leaf_node_source 2 /\
  takes cd_capabilities de_capabilities 3.
Proof. exact takes_values. Qed.
Print Assumptions C111_values.

(** Leaves, parents, update paths and ratchet trees. *)
Theorem C111_tree :
  takes cd_leaf_payload de_leaf_payload 4 /\
  takes cd_leaf_node de_leaf_node 4 /\
  takes cd_unmerged_leaf de_unmerged_leaf 1 /\
  takes cd_parent_node de_parent_node 3 /\
  takes cd_hpke_ciphertext de_hpke_ciphertext 2 /\
  takes cd_update_path_node de_update_path_node 4 /\
  takes cd_update_path de_update_path 6 /\
  takes cd_node_type de_node_type 1 /\
  takes cd_node de_node 4 /\
  takes cd_ratchet_tree de_ratchet_tree 7 /\
  takes cd_ratchet_tree_extension de_ratchet_tree_extension 7.
Proof. exact takes_tree. Qed.
Print Assumptions C111_tree.

(** Key packages, group contexts, pre-shared key identifiers, group information and welcomes. *)
Theorem C111_joining :
  takes cd_key_package_ref de_key_package_ref 2 /\
  takes cd_key_package_tbs de_key_package_tbs 4 /\
  takes cd_key_package de_key_package 4 /\
  takes cd_group_context de_group_context 4 /\
  takes cd_psk_type de_psk_type 1 /\
  takes cd_psk_usage de_psk_usage 1 /\
  takes cd_resumption de_resumption 2 /\
  takes cd_psk de_psk 2 /\
  takes cd_psk_id de_psk_id 2 /\
  takes cd_psk_label de_psk_label 2 /\
  takes cd_group_info de_group_info 4 /\
  takes cd_group_secrets de_group_secrets 4 /\
  takes cd_egs de_egs 2 /\
  takes cd_welcome de_welcome 4.
Proof. exact takes_joining. Qed.
Print Assumptions C111_joining.

(** Proposals, commits, contents and messages. *)
Theorem C111_messages :
  takes cd_add_proposal de_add_proposal 4 /\
  takes cd_update_proposal de_update_proposal 4 /\
  takes cd_remove_proposal de_remove_proposal 1 /\
  takes cd_psk_proposal de_psk_proposal 2 /\
  takes cd_reinit_proposal de_reinit_proposal 4 /\
  takes cd_external_init_proposal de_external_init_proposal 2 /\
  takes cd_gce_proposal de_gce_proposal 4 /\
  takes cd_proposal de_proposal 4 /\
  takes cd_proposal_or_ref de_proposal_or_ref 4 /\
  takes cd_commit de_commit 6 /\
  takes cd_content_type de_content_type 1 /\
  takes cd_sender_type de_sender_type 1 /\
  takes cd_sender de_sender 1 /\
  takes cd_wire_format de_wire_format 1 /\
  takes cd_content de_content 6 /\
  takes cd_framed_content de_framed_content 6 /\
  takes cd_auth_content de_auth_content 6 /\
  takes cd_framed_content_tbs de_framed_content_tbs 6 /\
  takes cd_auth_content_tbm de_auth_content_tbm 6 /\
  takes cd_sender_data de_sender_data 2 /\
  takes cd_public_message de_public_message 6 /\
  takes cd_private_message de_private_message 2 /\
  takes cd_private_content_aad de_private_content_aad 2 /\
  takes cd_wire_message de_wire_message 6 /\
  takes cd_mls_message de_mls_message 6 /\
  takes cd_confirmed_input de_confirmed_input 6.
Proof. exact takes_messages. Qed.
Print Assumptions C111_messages.

(** Signatures and confirmation tags, and the body of a private message with its padding. *)
Theorem C111_private : forall ct,
  takes (cd_auth_data ct) (de_auth_data ct) 2 /\
  forall bs, fst (cd_private_content ct bs) = de_private_content ct bs /\ steps (cd_private_content ct bs) <= 6 * N.of_nat (length bs).
Proof. exact (fun ct => conj (takes_auth_data ct) (takes_private_content ct)). Qed.
Print Assumptions C111_private.

(** Whatever its elements are, a vector adds two steps per byte to what they take, and an optional value none; reading from a byte string
    as a whole costs no more than reading from a buffer. *)
Theorem C111_combined : forall A (c : bytes -> counted (A * bytes)) f K, takes c f K ->
  takes (cd_vector c) (de_vector f) (K + 2) /\ (1 <= K -> takes (cd_option c) (de_option f) K) /\
  forall bs, fst (cd_exact c bs) = de_exact f bs /\ steps (cd_exact c bs) <= K * N.of_nat (length bs).
Proof. exact (fun A c f K T => conj (takes_vector c f K T) (conj (fun L => takes_option c f K L T) (takes_exact c f K T))). Qed.
Print Assumptions C111_combined.

(** These multiples are not slack: n empty certificates, one byte each, take four steps each besides the length in front. *)
Theorem C111_reached : forall n h, se_varint (N.of_nat n) = Ok h ->
  cd_vector cd_certificate (h ++ repeat x00 n) = (Ok (repeat [] n, []), 4 * N.of_nat n + N.of_nat (length h) + 1).
Proof. exact empty_steps. Qed.
Print Assumptions C111_reached.

(** A commit of 191 bytes is decoded in 410 steps; without its last byte it is refused after 408. *)
Example C111_example :
  let bs := ok_or [] (se_mls_message ex_message) in
  length bs = 191%nat /\ cd_mls_message bs = (Ok (ex_message, []), 410) /\ cd_mls_message (removelast bs) = (Err BufferTooSmall, 408).
Proof. exact ex_decode_steps. Qed.
