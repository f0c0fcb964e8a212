(** Property C90: decoded values are no bigger than what was received (SpecSize.v). *)
From Verif Require Import SizeFacts.
From Verif Require Import SpecSize Examples.
Import Coq.Strings.Byte.
Local Open Scope N_scope.

(* ------------------------------------------------------------------------------------------- *)
(** * C90 *)

(** A message... *)
Theorem C90_message : no_bigger size_mls_message de_mls_message.
Proof. exact message_no_bigger. Qed.
Print Assumptions C90_message.

(** ... every other structure a user can decode... *)
Theorem C90_parts :
  no_bigger size_credential de_credential /\ no_bigger size_signature_key_pair de_signature_key_pair /\ no_bigger size_hpke_key_pair de_hpke_key_pair /\
  no_bigger size_sender de_sender /\ no_bigger size_extensions de_extensions /\ no_bigger size_external_senders de_external_senders /\
  no_bigger size_required_capabilities de_required_capabilities /\ no_bigger size_capabilities de_capabilities /\ no_bigger size_leaf_node de_leaf_node /\
  no_bigger size_parent_node de_parent_node /\ no_bigger size_hpke_ciphertext de_hpke_ciphertext /\ no_bigger size_update_path de_update_path /\
  no_bigger size_node de_node /\ no_bigger size_key_package de_key_package /\ no_bigger size_group_context de_group_context /\ no_bigger size_psk_id de_psk_id /\
  no_bigger size_proposal de_proposal /\ no_bigger size_proposal_or_ref de_proposal_or_ref /\ no_bigger size_commit de_commit /\
  no_bigger size_framed_content de_framed_content /\ (forall ct, no_bigger size_auth_data (de_auth_data ct)) /\ no_bigger size_auth_content de_auth_content /\
  no_bigger size_public_message de_public_message /\ no_bigger size_private_message de_private_message /\ no_bigger size_group_info de_group_info /\
  no_bigger size_group_secrets de_group_secrets /\ no_bigger size_egs de_egs /\ no_bigger size_welcome de_welcome.
Proof. exact c90_parts. Qed.
Print Assumptions C90_parts.

(** ... and the content of a private message, whose padding is dropped, is no bigger than the bytes it was read from. *)
Theorem C90_private : forall ct bs c, de_private_content ct bs = Ok c -> size_private_content c <= N.of_nat (length bs).
Proof. exact private_no_bigger. Qed.
Print Assumptions C90_private.

(** A ratchet tree, which is filled up with blank nodes, is at most twice as big; so is the number of its nodes. *)
Theorem C90_tree : forall bs t rest, de_ratchet_tree bs = Ok (t, rest) -> size_ratchet_tree t + N.of_nat (length rest) <= 2 * N.of_nat (length bs) /\
  N.of_nat (length t) + 2 * N.of_nat (length rest) + 2 <= 2 * N.of_nat (length bs).
Proof. exact tree_no_bigger. Qed.
Print Assumptions C90_tree.

(** Not vacuous, and the bound for trees cannot be the one for messages: three bytes give a tree of size four. *)
Example ex_size_tree : exists t, de_ratchet_tree [x02; x00; x00] = Ok (t, []) /\ size_ratchet_tree t = 4.
Proof. eexists. split; vm_compute; reflexivity. Qed.
Example ex_size_message : exists p m, de_mls_message (p ++ [x07]) = Ok (m, [x07]) /\ size_mls_message m > 10.
Proof.
  exists [x00; x01; x00; x03; x00; x01; x07; x01; x0a; x01; x0b; x02; x0c; x0d; x02; x0e; x0f]. eexists. split; vm_compute; reflexivity.
Qed.
Example ex_size_private : exists c, de_private_content CTApplication [x02; x61; x62; x01; x63; x00; x00] = Ok c /\ size_private_content c = 5.
Proof. eexists. split; vm_compute; reflexivity. Qed.
