(** Properties C76 and C77: the bytes are those of RFC 9420. Vocabulary: SpecLayout.v, which writes the layout of every
    structure down without referring to the encoders. *)
From Verif Require Import LayoutFacts CodecLib WireCodecs Examples SecretFacts.
From Verif Require Import SpecLayout SpecSecrets Base Wire WireWF.
Local Open Scope N_scope.
Local Open Scope list_scope.

(* ------------------------------------------------------------------------------------------- *)
(** * C76 *)

(** Every encoder writes, and every decoder accepts, exactly the layout of RFC 9420. *)
Theorem C76_layout :
  speaks se_content_type de_content_type rfc_content_type /\
  speaks se_wire_format de_wire_format rfc_wire_format /\
  speaks se_proposal_type de_proposal_type rfc_proposal_type /\
  speaks se_signature_scheme de_signature_scheme rfc_signature_scheme /\
  speaks se_credential de_credential rfc_credential /\
  speaks se_sender de_sender rfc_sender /\
  speaks se_extensions de_extensions rfc_extensions /\
  speaks se_required_capabilities de_required_capabilities rfc_required_capabilities /\
  speaks se_application_id de_application_id opaqueV /\
  speaks se_unknown_extension de_unknown_extension opaqueV /\
  speaks se_external_pub de_external_pub opaqueV /\
  speaks se_capabilities de_capabilities rfc_capabilities /\
  speaks se_leaf_node_source de_leaf_node_source rfc_leaf_node_source /\
  speaks se_leaf_node de_leaf_node rfc_leaf_node /\
  speaks se_parent_node de_parent_node rfc_parent_node /\
  speaks se_hpke_ciphertext de_hpke_ciphertext rfc_hpke_ciphertext /\
  speaks se_update_path_node de_update_path_node rfc_update_path_node /\
  speaks se_update_path de_update_path rfc_update_path /\
  speaks se_node de_node rfc_node /\
  speaks se_key_package_ref de_key_package_ref opaqueV /\
  speaks se_key_package_tbs de_key_package_tbs rfc_key_package_tbs /\
  speaks se_key_package de_key_package rfc_key_package /\
  speaks se_group_context de_group_context rfc_group_context /\
  speaks se_psk de_psk rfc_psk /\
  speaks se_psk_id de_psk_id rfc_psk_id /\
  speaks se_psk_label de_psk_label rfc_psk_label /\
  speaks se_proposal de_proposal rfc_proposal /\
  speaks se_proposal_or_ref de_proposal_or_ref rfc_proposal_or_ref /\
  speaks se_commit de_commit rfc_commit /\
  speaks se_content de_content rfc_content /\
  speaks se_framed_content de_framed_content rfc_framed_content /\
  (forall ct, speaks (se_auth_data ct) (de_auth_data ct) (rfc_auth_data ct)) /\
  speaks se_auth_content de_auth_content rfc_auth_content /\
  speaks se_sender_data de_sender_data rfc_sender_data /\
  speaks se_private_message de_private_message rfc_private_message /\
  speaks se_private_content_aad de_private_content_aad rfc_private_content_aad /\
  speaks se_group_info de_group_info rfc_group_info /\
  speaks se_group_secrets de_group_secrets rfc_group_secrets /\
  speaks se_egs de_egs rfc_encrypted_group_secrets /\
  speaks se_welcome de_welcome rfc_welcome /\
  speaks se_mls_message de_mls_message rfc_mls_message /\
  speaks se_confirmed_input de_confirmed_input rfc_confirmed_input.
Proof. exact c76_layout. Qed.
Print Assumptions C76_layout.

(** The structures that are only ever written: what is signed, authenticated or used as associated data. *)
Theorem C76_signed :
  (forall p g i b, se_leaf_node_tbs p (TIUpdateOrCommit g i) = Ok b -> b = rfc_leaf_node_tbs p g i) /\
  (forall p l b g i, lp_source p = LSKeyPackage l -> se_leaf_node_tbs p TIKeyPackage = Ok b -> b = rfc_leaf_node_tbs p g i) /\
  (forall v w f g b, se_framed_content_tbs (MkTBS v w f (Some g)) = Ok b -> b = rfc_framed_content_tbs v w f g) /\
  (forall v w f g b, se_framed_content_tbs (MkTBS v w f None) = Ok b ->
     (fc_sender f = SNewMemberProposal \/ exists i, fc_sender f = SExternal i) /\ b = rfc_framed_content_tbs v w f g) /\
  (forall v w f g a b, se_auth_content_tbm (MkTBM (MkTBS v w f (Some g)) a) = Ok b ->
     b = rfc_framed_content_tbs v w f g ++ rfc_auth_data (kind (fc_content f)) a) /\
  (forall g b, se_group_info_base g = Ok b -> b = rfc_group_info_tbs g) /\
  (forall s b, se_sender_data_aad s = Ok b -> b = rfc_sender_data_aad s) /\
  (forall p b, se_private_content p = Ok b -> b = rfc_private_content p).
Proof. exact c76_signed. Qed.
Print Assumptions C76_signed.

(** A public message: the membership tag is there exactly when the sender is a member. *)
Theorem C76_public :
  (forall f a t b, se_public_message (MkPublic f a (Some t)) = Ok b -> b = rfc_public_message f a t) /\
  (forall bs m rest, de_public_message bs = Ok (m, rest) ->
     exists t, bs = rfc_public_message (pm_content m) (pm_auth m) t ++ rest /\
       (forall i, fc_sender (pm_content m) = SMember i -> pm_tag m = Some t)).
Proof. exact c76_public. Qed.
Print Assumptions C76_public.

(** A tree is the vector of its nodes up to the last one that is not blank; any such vector is read, blanks being added. *)
Theorem C76_tree :
  (forall t b, se_ratchet_tree t = Ok b -> exists l n, t = l ++ repeat None n /\ (forall l', l <> l' ++ [None]) /\ b = rfc_nodes l) /\
  (forall bs t rest, de_ratchet_tree bs = Ok (t, rest) -> exists l n, t = l ++ repeat None n /\ bs = rfc_nodes l ++ rest) /\
  se_ratchet_tree_extension = se_ratchet_tree /\ de_ratchet_tree_extension = de_ratchet_tree.
Proof. exact (conj c76_tree_written (conj c76_tree_read (conj eq_refl eq_refl))). Qed.
Print Assumptions C76_tree.

(** Key pairs, as they are stored. *)
Theorem C76_key_pairs :
  speaks se_signature_key_pair de_signature_key_pair stored_signature_key_pair /\ speaks se_hpke_key_pair de_hpke_key_pair stored_hpke_key_pair.
Proof. exact c76_key_pairs. Qed.
Print Assumptions C76_key_pairs.
Example C76_example_key_pair :
  se_signature_key_pair (MkSigKeyPair [x01; x02] [x03] ED25519) = Ok [x02; x01; x02; x01; x03; x08; x07] /\
  stored_signature_key_pair (MkSigKeyPair [x01; x02] [x03] ED25519) = [x02; x01; x02; x01; x03; x08; x07].
Proof. split; vm_compute; reflexivity. Qed.

(** A message is written, and these are its bytes: version 1, wire format 1, the group, the epoch, a member at leaf 2,
    no authenticated data, a proposal to remove leaf 3, the signature and the tag. *)
Definition ex_remove : framed_content := MkFramed (str "gr") 5 (SMember 2) [] (CProposal (PRemove (MkRemove 3))).
Definition ex_remove_message : mls_message := MkMLSMessage MLS10 (WMPublic (MkPublic ex_remove (MkAuth [x0e] []) (Some [x10; x11]))).
Example C76_example : se_mls_message ex_remove_message = Ok (rfc_mls_message ex_remove_message) /\
  rfc_mls_message ex_remove_message =
    [x00; x01; x00; x01; x02; x67; x72; x00; x00; x00; x00; x00; x00; x00; x05; x01; x00; x00; x00; x02;
     x00; x02; x00; x03; x00; x00; x00; x03; x01; x0e; x02; x10; x11].
Proof. split; vm_compute; reflexivity. Qed.
Example C76_example_large : se_mls_message ex_message = Ok (rfc_mls_message ex_message) /\ length (rfc_mls_message ex_message) = 191%nat.
Proof. split; vm_compute; reflexivity. Qed.
Example C76_example_tree : exists b, se_ratchet_tree ex_tree = Ok b /\ b = rfc_nodes (firstn 5 ex_tree).
Proof. eexists. split; vm_compute; reflexivity. Qed.

(* ------------------------------------------------------------------------------------------- *)
(** * C77 *)

(** The content of an external_senders extension is written as one sender without the vector around it: no value is
    written as any list of senders would be, ... *)
Theorem C77_refuted_written : forall e b l, se_external_senders e = Ok b -> fits30 (concat (map rfc_external_sender l)) ->
  b <> rfc_external_senders l.
Proof. exact c77_never_written. Qed.
Print Assumptions C77_refuted_written.
(** ... and the extension content another implementation sends is never read. *)
Theorem C77_refuted_read : forall l e rest, fits30 (concat (map rfc_external_sender l)) ->
  de_external_senders (rfc_external_senders l) <> Ok (e, rest).
Proof. exact c77_never_read. Qed.
Print Assumptions C77_refuted_read.
(** What is written and read instead: the sender alone. *)
Theorem C77_bare_partial : speaks se_external_senders de_external_senders rfc_external_sender.
Proof. exact (speaks_codec _ codec_external_senders l_external_sender). Qed.
Print Assumptions C77_bare_partial.
Example C77_example : exists b, se_external_senders (MkExtSenders [x01; x02] (CredBasic (str "alice"))) = Ok b /\ length b = 11%nat /\
  fits30 (concat (map rfc_external_sender [MkExtSenders [x01; x02] (CredBasic (str "alice"))])).
Proof. eexists. split; [vm_compute; reflexivity|]. split; reflexivity. Qed.
