(** C118: what the error of a refused encoding says is true. *)
From Verif Require Import CodecFacts Examples FaultFacts SpecFaults.
From Coq.Strings Require Import Byte.
Local Open Scope N_scope.

(** * C118: The error of a refused encoding names what is wrong with it *)
(** Whenever one of these decoders refuses bytes, a part of the bytes is wrong in the way the error says ([fault], SpecFaults.v), and the error is
    the same whatever follows that part. *)
Theorem C118_errors : truthful de_signature_key_pair /\ truthful de_hpke_key_pair /\ truthful de_credential /\ truthful de_signature_scheme /\ truthful de_content_type /\
  truthful de_sender_type /\ truthful de_sender /\ truthful de_wire_format /\ truthful de_extension /\ truthful de_extensions /\
  truthful de_external_senders /\ truthful de_required_capabilities /\ truthful de_proposal_type /\ truthful de_lifetime /\ truthful de_leaf_node_source /\
  truthful de_capabilities /\ truthful de_leaf_node /\ truthful de_parent_node /\ truthful de_hpke_ciphertext /\ truthful de_update_path_node /\
  truthful de_update_path /\ truthful de_node /\ truthful de_ratchet_tree /\ truthful de_key_package /\ truthful de_resumption /\
  truthful de_psk /\ truthful de_psk_id /\ truthful de_psk_label /\ truthful de_add_proposal /\ truthful de_update_proposal /\
  truthful de_remove_proposal /\ truthful de_psk_proposal /\ truthful de_reinit_proposal /\ truthful de_external_init_proposal /\ truthful de_gce_proposal /\
  truthful de_proposal /\ truthful de_proposal_or_ref /\ truthful de_commit /\ truthful de_content /\ truthful de_framed_content /\
  truthful de_auth_content /\ truthful de_sender_data /\ truthful de_public_message /\ truthful de_private_message /\ truthful de_private_content_aad /\
  truthful de_group_secrets /\ truthful de_egs /\ truthful de_welcome /\
  (forall ct, truthful (de_auth_data ct)) /\ (forall ct, truthful (de_private_content ct)) /\
  truthful de_varint /\ truthful de_opaque /\ truthful de_optflag.
Proof. exact c118_errors. Qed.
Print Assumptions C118_errors.
(** Decoding a whole buffer gives the same errors. *)
Theorem C118_exact : forall A (de : bytes -> res (A * bytes)), truthful de -> truthful (de_exact de).
Proof. exact @exact_truthful. Qed.
Print Assumptions C118_exact.
(** A message: the error is true, or it stands for the version of the group context in a group info. *)
Theorem C118_message : forall bs e, de_mls_message bs = Err e -> true_of de_mls_message bs e \/ of_version (uint16 1 ++ uint16 4) bs e.
Proof. exact or_mls_message. Qed.
Print Assumptions C118_message.
(** So it is with all that has a group context in it. *)
Theorem C118_context :
  (forall bs e, de_group_context bs = Err e -> true_of de_group_context bs e \/ of_version [] bs e) /\
  (forall bs e, de_group_info bs = Err e -> true_of de_group_info bs e \/ of_version [] bs e) /\
  (forall bs e, de_framed_content_tbs bs = Err e -> true_of de_framed_content_tbs bs e \/ exists pre, of_version pre bs e) /\
  (forall bs e, de_auth_content_tbm bs = Err e -> true_of de_auth_content_tbm bs e \/ exists pre, of_version pre bs e).
Proof. exact (conj or_group_context (conj or_group_info (conj or_framed_content_tbs or_auth_content_tbm))). Qed.
Print Assumptions C118_context.
(** The input of the transcript hash: the error is true, or the content is not a commit, and the error says so. *)
Theorem C118_transcript : forall bs e, de_confirmed_input bs = Err e -> true_of de_confirmed_input bs e \/
  (e = ConfirmedTranscriptHashInputContainContentCommitOnly /\
   exists w c rest, bs = rfc_wire_format w ++ rfc_framed_content c ++ rest /\ forall m, fc_content c <> CCommit m).
Proof. exact or_confirmed_input. Qed.
Print Assumptions C118_transcript.
(** False of group contexts: one of version 2 is refused with the error for a proposal of an unknown type 2, and 2 is a known type of proposals. *)
Theorem C118_refuted : exists bs, de_mls_message bs = Err (InvalidProposalTypeValue 2) /\ ~ true_of de_mls_message bs (InvalidProposalTypeValue 2).
Proof.
  exists (uint16 1 ++ uint16 4 ++ uint16 2 ++ uint16 1 ++ opaqueV (str "group") ++ uint64 5 ++ opaqueV [] ++ opaqueV []). split; [vm_compute; reflexivity|].
  intros (pre & f & post & _ & (_ & _ & N) & _). apply N. cbn. auto.
Qed.
Print Assumptions C118_refuted.

(** Refused: a message of version 2; one with an unknown wire format; a length not in its shortest form; a proposal of type 9 inside the vector of a
    commit; a string longer than the vector it is in. *)
Example C118_example :
  de_mls_message (uint16 2 ++ str "rest") = Err (InvalidProtocolVersion 2) /\ de_mls_message (uint16 1 ++ uint16 77 ++ str "rest") = Err (InvalidWireFormatValue 77) /\
  de_opaque ([x40; x05] ++ str "hello") = Err MinimumEncodingWasNotUsed /\
  de_commit (opaqueV (uint8 2 ++ opaqueV (str "ref") ++ uint8 1 ++ uint16 9) ++ uint8 0) = Err (InvalidProposalTypeValue 9) /\
  de_extensions (opaqueV (uint16 7 ++ uint8 9 ++ str "x") ++ str "many more bytes") = Err BufferTooSmall /\
  fault BufferTooSmall (uint8 4 ++ uint16 7) (uint8 9 ++ str "x") (str "many more bytes") /\
  fault (InvalidProposalTypeValue 9) (uint8 8 ++ uint8 2 ++ opaqueV (str "ref") ++ uint8 1) (uint16 9) (uint8 0).
Proof.
  split; [vm_compute; reflexivity|]. split; [vm_compute; reflexivity|]. split; [vm_compute; reflexivity|]. split; [vm_compute; reflexivity|]. split; [vm_compute; reflexivity|]. split.
  - split; [right; exists 9, (str "x"); split; [reflexivity|]; split; [reflexivity|reflexivity]|]. right. exists [], (uint16 7). reflexivity.
  - split; [reflexivity|]. split; [reflexivity|]. intros H. cbn [In] in H. repeat (destruct H as [H|H]; [discriminate|]). exact H.
Qed.
