(** Property C114: what encoding costs. The counting encoders, what a step is and [makes] are in SpecEncode.v. *)
From Verif Require Import EncodeFacts JoinFacts.
From Verif Require Import SpecEncode SpecJoin Examples ExProvider.
Import Coq.Strings.Byte.
Local Open Scope N_scope.

(** Keys, credentials, extensions and capabilities. *)
Theorem C114_values :
  makes ce_secret_key se_secret_key 1 /\
  makes ce_identity se_identity 1 /\
  makes ce_certificate se_certificate 1 /\
  makes ce_credential se_credential 3 /\
  makes ce_signature_scheme se_signature_scheme 1 /\
  makes ce_signature_key_pair se_signature_key_pair 1 /\
  makes ce_hpke_key_pair se_hpke_key_pair 1 /\
  makes ce_extension se_extension 1 /\
  makes ce_extensions se_extensions 3 /\
  makes ce_application_id se_application_id 1 /\
  makes ce_unknown_extension se_unknown_extension 1 /\
  makes ce_external_pub se_external_pub 1 /\
  makes ce_external_senders se_external_senders 3 /\
  makes ce_proposal_type se_proposal_type 1 /\
  makes ce_required_capabilities se_required_capabilities 3 /\
  makes ce_lifetime se_lifetime 1 /\
  makes ce_leaf_node_source se_leaf_node_source 1 /\
  makes ce_capabilities se_capabilities 3.
Proof. exact makes_values. Qed.
Print Assumptions C114_values.

(** Leaves, parents, update paths and ratchet trees. *)
Theorem C114_tree :
  makes ce_leaf_payload se_leaf_payload 3 /\
  makes ce_leaf_node se_leaf_node 3 /\
  makes ce_parent_node se_parent_node 3 /\
  makes ce_hpke_ciphertext se_hpke_ciphertext 1 /\
  makes ce_update_path_node se_update_path_node 3 /\
  makes ce_update_path se_update_path 5 /\
  makes ce_node_type se_node_type 1 /\
  makes ce_node se_node 3.
Proof. exact makes_tree. Qed.
Print Assumptions C114_tree.

(** Key packages, group contexts, pre-shared key identifiers, group information and welcomes. *)
Theorem C114_joining :
  makes ce_key_package_ref se_key_package_ref 1 /\
  makes ce_key_package_tbs se_key_package_tbs 3 /\
  makes ce_key_package se_key_package 3 /\
  makes ce_group_context se_group_context 3 /\
  makes ce_psk_type se_psk_type 1 /\
  makes ce_psk_usage se_psk_usage 1 /\
  makes ce_resumption se_resumption 1 /\
  makes ce_psk se_psk 1 /\
  makes ce_psk_id se_psk_id 1 /\
  makes ce_psk_label se_psk_label 1 /\
  makes ce_group_info se_group_info 3 /\
  makes ce_group_secrets se_group_secrets 3 /\
  makes ce_egs se_egs 1 /\
  makes ce_welcome se_welcome 3.
Proof. exact makes_joining. Qed.
Print Assumptions C114_joining.

(** Proposals, commits, contents and messages. *)
Theorem C114_messages :
  makes ce_add_proposal se_add_proposal 3 /\
  makes ce_update_proposal se_update_proposal 3 /\
  makes ce_remove_proposal se_remove_proposal 1 /\
  makes ce_psk_proposal se_psk_proposal 1 /\
  makes ce_reinit_proposal se_reinit_proposal 3 /\
  makes ce_external_init_proposal se_external_init_proposal 1 /\
  makes ce_gce_proposal se_gce_proposal 3 /\
  makes ce_proposal se_proposal 3 /\
  makes ce_proposal_or_ref se_proposal_or_ref 3 /\
  makes ce_commit se_commit 5 /\
  makes ce_content_type se_content_type 1 /\
  makes ce_sender_type se_sender_type 1 /\
  makes ce_sender se_sender 1 /\
  makes ce_wire_format se_wire_format 1 /\
  makes ce_content se_content 5 /\
  makes ce_framed_content se_framed_content 5 /\
  makes ce_auth_content se_auth_content 5 /\
  makes ce_framed_content_tbs se_framed_content_tbs 5 /\
  makes ce_auth_content_tbm se_auth_content_tbm 5 /\
  makes ce_sender_data se_sender_data 1 /\
  makes ce_public_message se_public_message 5 /\
  makes ce_private_message se_private_message 1 /\
  makes ce_private_content_aad se_private_content_aad 1 /\
  makes ce_wire_message se_wire_message 5 /\
  makes ce_mls_message se_mls_message 5 /\
  makes ce_confirmed_input se_confirmed_input 5.
Proof. exact makes_messages. Qed.
Print Assumptions C114_messages.

(** What only goes into signatures, tags, hashes and additional data. *)
Theorem C114_inputs :
  makes ce_content_body se_content_body 5 /\
  makes ce_sender_data_aad se_sender_data_aad 1 /\
  makes ce_private_content se_private_content 5 /\
  makes ce_group_info_base se_group_info_base 3 /\
  (forall t, makes (fun p => ce_leaf_node_tbs p t) (fun p => se_leaf_node_tbs p t) 3) /\
  (forall ct, makes (ce_auth_data ct) (se_auth_data ct) 1).
Proof. exact makes_inputs. Qed.
Print Assumptions C114_inputs.

(** Ratchet trees: what comes on top is a step for each blank at the end, of which nothing is written ... *)
Theorem C114_tree_any : forall t, fst (ce_ratchet_tree t) = se_ratchet_tree t /\ forall bs, se_ratchet_tree t = Ok bs ->
  N.of_nat (length bs) <= steps (ce_ratchet_tree t) <= 6 * N.of_nat (length bs) + (N.of_nat (length t) - N.of_nat (length (trim_blank t))).
Proof. exact m_tree. Qed.
Print Assumptions C114_tree_any.
(** ... and the trees of a group that started with one member do not end with so many. *)
Theorem C114_tree_of_group : forall P cs t bs, reachable P cs t -> se_ratchet_tree t = Ok bs -> steps (ce_ratchet_tree t) <= 7 * N.of_nat (length bs).
Proof. exact m_reachable. Qed.
Print Assumptions C114_tree_of_group.

(** Whatever its elements are, a vector of which each takes a byte at least adds two steps per byte to what they take, and an optional value none. *)
Theorem C114_combined : forall A (c : A -> counted bytes) f K, makes c f K -> (forall a bs, f a = Ok bs -> bs <> []) ->
  makes (ce_vector c) (se_vector f) (K + 2) /\ (1 <= K -> makes (ce_option c) (se_option f) K).
Proof. exact @makes_combined. Qed.
Print Assumptions C114_combined.

(** These multiples are not slack: n empty certificates, one byte each, take three steps each besides the length in front. *)
Theorem C114_reached : forall n h, se_varint (N.of_nat n) = Ok h ->
  ce_vector ce_certificate (repeat [] n) = (Ok (h ++ repeat x00 n), 3 * N.of_nat n + N.of_nat (length h) + 1).
Proof. exact empty_made. Qed.
Print Assumptions C114_reached.

(** The tree of a group, which ends with a blank; and a commit of 191 bytes. *)
Example C114_example : reachable toy Suite1 ex_old /\ (exists bs, se_ratchet_tree ex_old = Ok bs /\ N.of_nat (length bs) < steps (ce_ratchet_tree ex_old)) /\
  length (ok_or [] (se_mls_message ex_message)) = 191%nat /\ ce_mls_message ex_message = (se_mls_message ex_message, 384) /\ se_varint 3 = Ok [x03].
Proof.
  split; [exact ex_old_reachable|]. split; [exists (ok_or [] (se_ratchet_tree ex_old)); split; vm_compute; reflexivity|]. repeat split; vm_compute; reflexivity.
Qed.
