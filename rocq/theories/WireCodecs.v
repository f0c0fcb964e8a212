(** Round trip, canonicity, sizing and outcome facts for every wire type, composed bottom-up. *)
From Verif Require Export CodecTac.
Local Open Scope N_scope.

#[export] Instance codec_content_type : codec any se_content_type de_content_type. Proof. tag_codec de_content_type. Qed.
#[export] Instance codec_sender_type : codec any se_sender_type de_sender_type. Proof. tag_codec de_sender_type. Qed.
#[export] Instance codec_wire_format : codec any se_wire_format de_wire_format. Proof. tag_codec de_wire_format. Qed.
#[export] Instance codec_node_type : codec any se_node_type de_node_type. Proof. tag_codec de_node_type. Qed.
#[export] Instance codec_psk_type : codec any se_psk_type de_psk_type. Proof. tag_codec de_psk_type. Qed.
#[export] Instance codec_psk_usage : codec any se_psk_usage de_psk_usage. Proof. tag_codec de_psk_usage. Qed.
#[export] Instance ne_content_type : ser_ne se_content_type. Proof. intros [] p H; inversion H; cbn; lia. Qed.
#[export] Instance ne_sender_type : ser_ne se_sender_type. Proof. intros [] p H; inversion H; cbn; lia. Qed.
#[export] Instance ne_wire_format : ser_ne se_wire_format. Proof. intros [] p H; inversion H; cbn; lia. Qed.
#[export] Instance ne_node_type : ser_ne se_node_type. Proof. intros [] p H; inversion H; cbn; lia. Qed.
#[export] Instance ne_psk_type : ser_ne se_psk_type. Proof. intros [] p H; inversion H; cbn; lia. Qed.
#[export] Instance ne_psk_usage : ser_ne se_psk_usage. Proof. intros [] p H; inversion H; cbn; lia. Qed.
#[export] Instance safe_content_type s : desafe s de_content_type. Proof. tag_safe de_content_type. Qed.
#[export] Instance safe_sender_type s : desafe s de_sender_type. Proof. tag_safe de_sender_type. Qed.
#[export] Instance safe_wire_format s : desafe s de_wire_format. Proof. tag_safe de_wire_format. Qed.
#[export] Instance safe_node_type s : desafe s de_node_type. Proof. tag_safe de_node_type. Qed.
#[export] Instance safe_psk_type s : desafe s de_psk_type. Proof. tag_safe de_psk_type. Qed.
#[export] Instance safe_psk_usage s : desafe s de_psk_usage. Proof. tag_safe de_psk_usage. Qed.
#[export] Instance sizing_content_type : sizing any se_content_type. Proof. intros a; apply (sized_put 1). Qed.
#[export] Instance sizing_sender_type : sizing any se_sender_type. Proof. intros a; apply (sized_put 1). Qed.
#[export] Instance sizing_wire_format : sizing any se_wire_format. Proof. intros a; apply (sized_put 2). Qed.
#[export] Instance sizing_node_type : sizing any se_node_type. Proof. intros a; apply (sized_put 1). Qed.
#[export] Instance sizing_psk_type : sizing any se_psk_type. Proof. intros a; apply (sized_put 1). Qed.
#[export] Instance sizing_psk_usage : sizing any se_psk_usage. Proof. intros a; apply (sized_put 1). Qed.

(** 16-bit code points as list elements. *)
Lemma codec_u16_as {A} (f : N -> A) (g : A -> N) : (forall v, g (f v) = v) ->
  codec (from_u16 f) (se_u16_as g) (de_u16_as f).
Proof.
  intros G. split.
  - intros a p rest (v & Hv & ->) H. unfold se_u16_as in H. rewrite G in H.
    unfold de_u16_as. rewrite (codec_rt codec_u16 v p rest Hv H). reflexivity.
  - intros bs a rest H. unfold de_u16_as in H. can_step H. apply Ok_inj in H; injection H as; subst.
    split; [eexists; split; [eassumption|reflexivity]|]. unfold se_u16_as. rewrite G. eauto.
Qed.
#[export] Instance ne_u16_as {A} (g : A -> N) : ser_ne (se_u16_as g).
Proof. intros a p H. apply ne_u16 in H. exact H. Qed.
#[export] Instance sizing_u16_as {A} (g : A -> N) : sizing any (se_u16_as g).
Proof. intros a. apply (sized_put 2). Qed.
#[export] Instance safe_u16_as {A} s (f : N -> A) : desafe s (de_u16_as f).
Proof. intros bs. unfold de_u16_as. repeat safe_step. Qed.

#[export] Instance codec_u16_version : codec _ _ _ := codec_u16_as _ _ version_u16.
#[export] Instance codec_u16_suite : codec _ _ _ := codec_u16_as _ _ cipher_suite_u16.
#[export] Instance codec_u16_ext : codec _ _ _ := codec_u16_as _ _ extension_type_u16.
#[export] Instance codec_u16_prop : codec _ _ _ := codec_u16_as _ _ proposal_type_u16.
#[export] Instance codec_u16_cred : codec _ _ _ := codec_u16_as _ _ credential_type_u16.

(* ------------------------------------------------------------------------------------------- *)
(** * Crypto types *)


Lemma Forall_any {A} (l : list A) : Forall any l.
Proof. apply Forall_forall. unfold any; trivial. Qed.
Lemma Forall_T {A} (l : list A) : Forall (fun _ => True) l.
Proof. apply Forall_forall. trivial. Qed.
#[export] Hint Resolve Forall_any Forall_T : core.

Lemma codec_any {A} {ser : A -> res bytes} {de} : codec (fun _ => True) ser de -> codec any ser de.
Proof. exact (fun H => H). Qed.

#[export] Instance codec_credential : codec any se_credential de_credential.
Proof.
  split.
  - intros [i|l] p rest _ H; unfold se_credential in H; cbn in H; aliases; split_seq; rewrite <- ?app_assoc;
      unfold de_credential; aliases; repeat rt_step; try reflexivity; auto.
  - intros bs a rest H. split; [exact I|]. unfold de_credential in H. aliases. can_step H.
    destruct (credential_type_of_u16 n) eqn:En; [| |discriminate];
      (assert (T : n = u16_of_credential_type (credential_type_of_u16 n)) by (now autorewrite with u16));
      rewrite En in T; cbn in T; subst n; can_step H; apply Ok_inj in H; injection H as; subst;
      (eexists; split; [unfold se_credential; cbn; aliases; seq_intro|rewrite <- ?app_assoc; reflexivity]).
Qed.
#[export] Instance ne_credential : ser_ne se_credential. Proof. ne_first se_credential. Qed.
#[export] Instance sizing_credential : sizing fits_credential se_credential.
Proof. record_sizing fits_credential se_credential. Qed.

#[export] Instance safe_credential s : desafe s de_credential.
Proof.
  intros bs. unfold de_credential. aliases. safe_step; [safe_step|].
  destruct (credential_type_of_u16 _); repeat safe_step.
Qed.

#[export] Instance codec_signature_scheme : codec any se_signature_scheme de_signature_scheme.
Proof.
  split.
  - intros [] p rest _ H; apply Ok_inj in H; subst; reflexivity.
  - intros bs a rest H. split; [exact I|]. unfold de_signature_scheme in H. can_step H.
    destruct (N.eqb_spec n 0x0403); [|destruct (N.eqb_spec n 0x0503); [|destruct (N.eqb_spec n 0x0603);
      [|destruct (N.eqb_spec n 0x0807); [|destruct (N.eqb_spec n 0x0808); [|discriminate]]]]];
      apply Ok_inj in H; injection H as; subst; eauto.
Qed.
#[export] Instance safe_signature_scheme s : desafe s de_signature_scheme.
Proof.
  intros bs. unfold de_signature_scheme. safe_step; [safe_step|].
  repeat match goal with |- context [if ?b then _ else _] => destruct b end; exact I.
Qed.
#[export] Instance sizing_signature_scheme : sizing any se_signature_scheme. Proof. intros a; apply (sized_put 2). Qed.

#[export] Instance codec_signature_key_pair : codec any se_signature_key_pair de_signature_key_pair.
Proof. record_codec any se_signature_key_pair de_signature_key_pair. Qed.
#[export] Instance ne_signature_key_pair : ser_ne se_signature_key_pair. Proof. ne_first se_signature_key_pair. Qed.
#[export] Instance sizing_signature_key_pair : sizing fits_signature_key_pair se_signature_key_pair.
Proof. record_sizing fits_signature_key_pair se_signature_key_pair. Qed.
#[export] Instance safe_signature_key_pair s : desafe s de_signature_key_pair.
Proof. record_safe de_signature_key_pair. Qed.

#[export] Instance codec_hpke_key_pair : codec any se_hpke_key_pair de_hpke_key_pair.
Proof. record_codec any se_hpke_key_pair de_hpke_key_pair. Qed.
#[export] Instance ne_hpke_key_pair : ser_ne se_hpke_key_pair. Proof. ne_first se_hpke_key_pair. Qed.
#[export] Instance sizing_hpke_key_pair : sizing fits_hpke_key_pair se_hpke_key_pair. Proof. record_sizing fits_hpke_key_pair se_hpke_key_pair. Qed.
#[export] Instance safe_hpke_key_pair s : desafe s de_hpke_key_pair. Proof. record_safe de_hpke_key_pair. Qed.

(* ------------------------------------------------------------------------------------------- *)
(** * Senders, extensions *)

#[export] Instance codec_sender : codec wf_sender se_sender de_sender.
Proof. sum_codec wf_sender se_sender de_sender. Qed.
#[export] Instance ne_sender : ser_ne se_sender. Proof. ne_first se_sender. Qed.
#[export] Instance sizing_sender : sizing any se_sender. Proof. sum_sizing any se_sender. Qed.
#[export] Instance safe_sender s : desafe s de_sender. Proof. sum_safe de_sender. Qed.

#[export] Instance codec_extension : codec wf_extension se_extension de_extension.
Proof. record_codec wf_extension se_extension de_extension. Qed.
#[export] Instance ne_extension : ser_ne se_extension. Proof. ne_first se_extension. Qed.
#[export] Instance sizing_extension : sizing fits_extension se_extension. Proof. record_sizing fits_extension se_extension. Qed.
#[export] Instance safe_extension s : desafe s de_extension. Proof. record_safe de_extension. Qed.

#[export] Instance codec_extensions : codec wf_extensions se_extensions de_extensions.
Proof. exact (codec_vector _ _ _ codec_extension ne_extension). Qed.
#[export] Instance ne_extensions : ser_ne se_extensions. Proof. exact (ne_vector _). Qed.
#[export] Instance sizing_extensions : sizing fits_extensions se_extensions.
Proof. exact (sizing_vector _ _ sizing_extension). Qed.
#[export] Instance safe_extensions s : desafe s de_extensions.
Proof. exact (safe_vector s _ _ _ codec_extension ne_extension (safe_extension s)). Qed.

#[export] Instance codec_external_senders : codec any se_external_senders de_external_senders.
Proof. record_codec any se_external_senders de_external_senders. Qed.
#[export] Instance ne_external_senders : ser_ne se_external_senders. Proof. ne_first se_external_senders. Qed.
#[export] Instance sizing_external_senders : sizing fits_external_senders se_external_senders. Proof. record_sizing fits_external_senders se_external_senders. Qed.
#[export] Instance safe_external_senders s : desafe s de_external_senders. Proof. record_safe de_external_senders. Qed.

#[export] Instance codec_required_capabilities : codec wf_required_capabilities se_required_capabilities de_required_capabilities.
Proof. record_codec wf_required_capabilities se_required_capabilities de_required_capabilities. Qed.
#[export] Instance ne_required_capabilities : ser_ne se_required_capabilities. Proof. ne_first se_required_capabilities. Qed.
#[export] Instance sizing_required_capabilities : sizing fits_required_capabilities se_required_capabilities. Proof. record_sizing fits_required_capabilities se_required_capabilities. Qed.
#[export] Instance safe_required_capabilities s : desafe s de_required_capabilities. Proof. record_safe de_required_capabilities. Qed.

#[export] Instance codec_proposal_type : codec (from_u16 proposal_type_of_u16) se_proposal_type de_proposal_type.
Proof.
  split.
  - intros a p rest (v & Hv & ->) H. unfold se_proposal_type in H. autorewrite with u16 in H.
    unfold de_proposal_type. repeat rt_step. reflexivity.
  - intros bs a rest H. unfold de_proposal_type in H. repeat can_step H. apply Ok_inj in H; injection H as; subst.
    split; [eexists; split; [eassumption|reflexivity]|]. unfold se_proposal_type. autorewrite with u16. eexists; split; reflexivity.
Qed.
#[export] Instance sizing_proposal_type : sizing any se_proposal_type. Proof. intros a; apply (sized_put 2). Qed.

(* ------------------------------------------------------------------------------------------- *)
(** * Leaf nodes, parent nodes, trees *)

#[export] Instance codec_lifetime : codec wf_lifetime se_lifetime de_lifetime.
Proof. record_codec wf_lifetime se_lifetime de_lifetime. Qed.
#[export] Instance ne_lifetime : ser_ne se_lifetime. Proof. ne_first se_lifetime. Qed.
#[export] Instance sizing_lifetime : sizing any se_lifetime. Proof. record_sizing any se_lifetime. Qed.

#[export] Instance codec_leaf_node_source : codec wf_leaf_node_source se_leaf_node_source de_leaf_node_source.
Proof. sum_codec wf_leaf_node_source se_leaf_node_source de_leaf_node_source. Qed.
#[export] Instance sizing_leaf_node_source : sizing fits_leaf_node_source se_leaf_node_source. Proof. sum_sizing fits_leaf_node_source se_leaf_node_source. Qed.
#[export] Instance ne_leaf_node_source : ser_ne se_leaf_node_source.
Proof.
  intros [l| |h] p H; cbn in H; try (eapply seqw_ne_l; [|exact H]; intros x Hx); eapply ne_u8; eassumption.
Qed.

#[export] Instance codec_capabilities : codec wf_capabilities se_capabilities de_capabilities.
Proof. record_codec wf_capabilities se_capabilities de_capabilities. Qed.
#[export] Instance ne_capabilities : ser_ne se_capabilities. Proof. ne_first se_capabilities. Qed.
#[export] Instance sizing_capabilities : sizing fits_capabilities se_capabilities. Proof. record_sizing fits_capabilities se_capabilities. Qed.
#[export] Instance safe_capabilities s : desafe s de_capabilities. Proof. record_safe de_capabilities. Qed.

#[export] Instance codec_leaf_payload : codec wf_leaf_payload se_leaf_payload de_leaf_payload.
Proof. record_codec wf_leaf_payload se_leaf_payload de_leaf_payload. Qed.
#[export] Instance ne_leaf_payload : ser_ne se_leaf_payload. Proof. ne_first se_leaf_payload. Qed.
#[export] Instance sizing_leaf_payload : sizing fits_leaf_payload se_leaf_payload. Proof. record_sizing fits_leaf_payload se_leaf_payload. Qed.

#[export] Instance codec_leaf_node : codec wf_leaf_node se_leaf_node de_leaf_node.
Proof. record_codec wf_leaf_node se_leaf_node de_leaf_node. Qed.
#[export] Instance ne_leaf_node : ser_ne se_leaf_node. Proof. ne_first se_leaf_node. Qed.
#[export] Instance sizing_leaf_node : sizing fits_leaf_node se_leaf_node. Proof. record_sizing fits_leaf_node se_leaf_node. Qed.

#[export] Instance codec_unmerged_leaf : codec is_u32 put_u32 de_unmerged_leaf.
Proof.
  split.
  - intros v p rest W H. unfold de_unmerged_leaf. repeat rt_step. reflexivity.
  - intros bs v rest H. unfold de_unmerged_leaf in H. can_step H. apply get_u32_ok in H as [-> W]. split; [exact W|].
    eexists; split; reflexivity.
Qed.

#[export] Instance codec_parent_node : codec wf_parent_node se_parent_node de_parent_node.
Proof. record_codec wf_parent_node se_parent_node de_parent_node. Qed.
#[export] Instance ne_parent_node : ser_ne se_parent_node. Proof. ne_first se_parent_node. Qed.
#[export] Instance sizing_parent_node : sizing fits_parent_node se_parent_node. Proof. record_sizing fits_parent_node se_parent_node. Qed.

#[export] Instance codec_hpke_ciphertext : codec any se_hpke_ciphertext de_hpke_ciphertext.
Proof. record_codec any se_hpke_ciphertext de_hpke_ciphertext. Qed.
#[export] Instance ne_hpke_ciphertext : ser_ne se_hpke_ciphertext. Proof. ne_first se_hpke_ciphertext. Qed.
#[export] Instance sizing_hpke_ciphertext : sizing fits_hpke_ciphertext se_hpke_ciphertext. Proof. record_sizing fits_hpke_ciphertext se_hpke_ciphertext. Qed.
#[export] Instance safe_hpke_ciphertext s : desafe s de_hpke_ciphertext. Proof. record_safe de_hpke_ciphertext. Qed.

#[export] Instance codec_update_path_node : codec any se_update_path_node de_update_path_node.
Proof. record_codec any se_update_path_node de_update_path_node. Qed.
#[export] Instance ne_update_path_node : ser_ne se_update_path_node. Proof. ne_first se_update_path_node. Qed.
#[export] Instance sizing_update_path_node : sizing fits_update_path_node se_update_path_node. Proof. record_sizing fits_update_path_node se_update_path_node. Qed.
#[export] Instance safe_update_path_node s : desafe s de_update_path_node. Proof. record_safe de_update_path_node. Qed.

#[export] Instance codec_update_path : codec wf_update_path se_update_path de_update_path.
Proof. record_codec wf_update_path se_update_path de_update_path. Qed.
#[export] Instance ne_update_path : ser_ne se_update_path. Proof. ne_first se_update_path. Qed.
#[export] Instance sizing_update_path : sizing fits_update_path se_update_path. Proof. record_sizing fits_update_path se_update_path. Qed.

#[export] Instance codec_node : codec wf_node se_node de_node.
Proof. sum_codec wf_node se_node de_node. Qed.
#[export] Instance ne_node : ser_ne se_node. Proof. ne_first se_node. Qed.
#[export] Instance sizing_node : sizing fits_node se_node. Proof. sum_sizing fits_node se_node. Qed.

(* ------------------------------------------------------------------------------------------- *)
(** * Key packages, group contexts, PSKs *)

#[export] Instance codec_key_package_tbs : codec wf_key_package_tbs se_key_package_tbs de_key_package_tbs.
Proof. record_codec wf_key_package_tbs se_key_package_tbs de_key_package_tbs. Qed.
#[export] Instance ne_key_package_tbs : ser_ne se_key_package_tbs. Proof. ne_first se_key_package_tbs. Qed.
#[export] Instance sizing_key_package_tbs : sizing fits_key_package_tbs se_key_package_tbs. Proof. record_sizing fits_key_package_tbs se_key_package_tbs. Qed.

#[export] Instance codec_key_package : codec wf_key_package se_key_package de_key_package.
Proof. record_codec wf_key_package se_key_package de_key_package. Qed.
#[export] Instance ne_key_package : ser_ne se_key_package. Proof. ne_first se_key_package. Qed.
#[export] Instance sizing_key_package : sizing fits_key_package se_key_package. Proof. record_sizing fits_key_package se_key_package. Qed.

#[export] Instance codec_group_context : codec wf_group_context se_group_context de_group_context.
Proof.
  split.
  - intros [v c g e t h x] p rest W H. unfold wf_group_context in W. cbn in W. destruct W as (-> & W). split_wf.
    unfold se_group_context in H; cbn in H. autorewrite with u16 in H. split_seq. rewrite <- ?app_assoc.
    unfold de_group_context. repeat rt_step. rt_done.
  - intros bs a rest H. unfold de_group_context in H. repeat can_step H.
    destruct (is_mls10 (version_of_u16 n)) eqn:E; [|discriminate]. cbn [negb] in H. can_step H.
    unfold wf_group_context, se_group_context. can_done H.
    cbn. destruct (version_of_u16 n); [reflexivity|discriminate].
Qed.
#[export] Instance ne_group_context : ser_ne se_group_context. Proof. ne_first se_group_context. Qed.
#[export] Instance sizing_group_context : sizing fits_group_context se_group_context.
Proof. record_sizing fits_group_context se_group_context. Qed.
#[export] Instance safe_group_context s : desafe s de_group_context.
Proof.
  intros bs. unfold de_group_context. apply safe_bind; [apply safe_need|]. intros u N. apply need_inv in N.
  apply safe_bind; [apply safe_get_be; lia|]. intros [v r] K. apply get_be_ok in K as [-> _].
  rewrite app_length, be_length in N.
  apply safe_bind; [apply safe_get_be; lia|]. intros [c r'] _.
  repeat safe_step. destruct (negb _); repeat safe_step.
Qed.

#[export] Instance codec_resumption : codec wf_resumption se_resumption de_resumption.
Proof. record_codec wf_resumption se_resumption de_resumption. Qed.
#[export] Instance ne_resumption : ser_ne se_resumption. Proof. ne_first se_resumption. Qed.
#[export] Instance sizing_resumption : sizing fits_resumption se_resumption. Proof. record_sizing fits_resumption se_resumption. Qed.
#[export] Instance safe_resumption s : desafe s de_resumption. Proof. record_safe de_resumption. Qed.

#[export] Instance codec_psk : codec wf_psk se_psk de_psk.
Proof. sum_codec wf_psk se_psk de_psk. Qed.
#[export] Instance ne_psk : ser_ne se_psk. Proof. ne_first se_psk. Qed.
#[export] Instance sizing_psk : sizing fits_psk se_psk. Proof. sum_sizing fits_psk se_psk. Qed.
#[export] Instance safe_psk s : desafe s de_psk. Proof. sum_safe de_psk. Qed.

#[export] Instance codec_psk_id : codec wf_psk_id se_psk_id de_psk_id.
Proof. record_codec wf_psk_id se_psk_id de_psk_id. Qed.
#[export] Instance ne_psk_id : ser_ne se_psk_id. Proof. ne_first se_psk_id. Qed.
#[export] Instance sizing_psk_id : sizing fits_psk_id se_psk_id. Proof. record_sizing fits_psk_id se_psk_id. Qed.
#[export] Instance safe_psk_id s : desafe s de_psk_id.
Proof. sum_safe de_psk_id. Qed.

#[export] Instance codec_psk_label : codec wf_psk_label se_psk_label de_psk_label.
Proof. record_codec wf_psk_label se_psk_label de_psk_label. Qed.
#[export] Instance ne_psk_label : ser_ne se_psk_label. Proof. ne_first se_psk_label. Qed.
#[export] Instance sizing_psk_label : sizing fits_psk_label se_psk_label. Proof. record_sizing fits_psk_label se_psk_label. Qed.
#[export] Instance safe_psk_label s : desafe s de_psk_label.
Proof.
  intros bs. unfold de_psk_label. safe_step; [safe_step|]. apply safe_bind; [apply safe_need|].
  intros u N. apply need_inv in N.
  apply safe_bind; [apply safe_get_be; lia|]. intros [v r] K. apply get_be_ok in K as [-> _].
  rewrite app_length, be_length in N.
  apply safe_bind; [apply safe_get_be; lia|]. intros [c r'] _. exact I.
Qed.

(** Decoders that contain one of the three faulty ones: termination only. *)
#[export] Instance safe_lifetime : desafe false de_lifetime.
Proof.
  intros bs. unfold de_lifetime. safe_step. apply safe_bind; [apply nohang_get_be|]. intros [v r] _.
  apply safe_bind; [apply nohang_get_be|]. intros [c r'] _. exact I.
Qed.
#[export] Instance safe_proposal_type : desafe false de_proposal_type.
Proof.
  intros bs. unfold de_proposal_type. safe_step. apply safe_bind; [apply nohang_get_be|]. intros [v r] _. exact I.
Qed.
#[export] Instance safe_unmerged_leaf : desafe false de_unmerged_leaf.
Proof. intros bs. unfold de_unmerged_leaf. safe_step. apply nohang_get_be. Qed.
#[export] Instance safe_leaf_node_source : desafe false de_leaf_node_source. Proof. sum_safe de_leaf_node_source. Qed.
#[export] Instance safe_leaf_payload : desafe false de_leaf_payload. Proof. record_safe de_leaf_payload. Qed.
#[export] Instance safe_leaf_node : desafe false de_leaf_node. Proof. record_safe de_leaf_node. Qed.
#[export] Instance safe_parent_node : desafe false de_parent_node. Proof. record_safe de_parent_node. Qed.
#[export] Instance safe_update_path : desafe false de_update_path. Proof. record_safe de_update_path. Qed.
#[export] Instance safe_node : desafe false de_node. Proof. sum_safe de_node. Qed.
Lemma safe_two_u16 {A} s bs (k : N -> N -> bytes -> res A) :
  (forall a b r, safe s (k a b r)) ->
  safe s (let* _ := need 4 bs in let* (a, bs) := get_u16 bs in let* (b, bs) := get_u16 bs in k a b bs).
Proof.
  intros K. safe_step. match goal with H : need _ _ = _ |- _ => apply need_inv in H as N end.
  apply safe_bind; [apply safe_get_be; lia|]. intros [v r] E. apply get_be_ok in E as [-> _].
  rewrite app_length, be_length in N.
  apply safe_bind; [apply safe_get_be; lia|]. intros [c r'] _. apply K.
Qed.
#[export] Instance safe_key_package_tbs : desafe false de_key_package_tbs.
Proof. intros bs. apply safe_two_u16. intros a b r. repeat (aliases; safe_step). Qed.
#[export] Instance safe_key_package : desafe false de_key_package. Proof. record_safe de_key_package. Qed.

(* ------------------------------------------------------------------------------------------- *)
(** * Proposals and commits *)

#[export] Instance codec_add_proposal : codec wf_add_proposal se_add_proposal de_add_proposal.
Proof. record_codec wf_add_proposal se_add_proposal de_add_proposal. Qed.
#[export] Instance ne_add_proposal : ser_ne se_add_proposal. Proof. intros a p H. exact ((_ : ser_ne se_key_package) _ _ H). Qed.
#[export] Instance safe_add_proposal : desafe false de_add_proposal. Proof. record_safe de_add_proposal. Qed.

#[export] Instance codec_update_proposal : codec wf_update_proposal se_update_proposal de_update_proposal.
Proof. record_codec wf_update_proposal se_update_proposal de_update_proposal. Qed.
#[export] Instance ne_update_proposal : ser_ne se_update_proposal. Proof. intros a p H. exact ((_ : ser_ne se_leaf_node) _ _ H). Qed.
#[export] Instance safe_update_proposal : desafe false de_update_proposal. Proof. record_safe de_update_proposal. Qed.

#[export] Instance codec_remove_proposal : codec wf_remove_proposal se_remove_proposal de_remove_proposal.
Proof. record_codec wf_remove_proposal se_remove_proposal de_remove_proposal. Qed.
#[export] Instance ne_remove_proposal : ser_ne se_remove_proposal. Proof. intros a p H. exact ((_ : ser_ne put_u32) _ _ H). Qed.
#[export] Instance safe_remove_proposal s : desafe s de_remove_proposal. Proof. record_safe de_remove_proposal. Qed.

#[export] Instance codec_psk_proposal : codec wf_psk_proposal se_psk_proposal de_psk_proposal.
Proof. record_codec wf_psk_proposal se_psk_proposal de_psk_proposal. Qed.
#[export] Instance ne_psk_proposal : ser_ne se_psk_proposal. Proof. intros a p H. exact ((_ : ser_ne se_psk_id) _ _ H). Qed.
#[export] Instance safe_psk_proposal s : desafe s de_psk_proposal. Proof. record_safe de_psk_proposal. Qed.

#[export] Instance codec_external_init_proposal : codec any se_external_init_proposal de_external_init_proposal.
Proof. record_codec any se_external_init_proposal de_external_init_proposal. Qed.
#[export] Instance ne_external_init_proposal : ser_ne se_external_init_proposal. Proof. intros a p H. exact ((_ : ser_ne se_opaque) _ _ H). Qed.
#[export] Instance safe_external_init_proposal s : desafe s de_external_init_proposal. Proof. record_safe de_external_init_proposal. Qed.

#[export] Instance codec_gce_proposal : codec wf_gce_proposal se_gce_proposal de_gce_proposal.
Proof. record_codec wf_gce_proposal se_gce_proposal de_gce_proposal. Qed.
#[export] Instance ne_gce_proposal : ser_ne se_gce_proposal. Proof. intros a p H. exact ((_ : ser_ne se_extensions) _ _ H). Qed.
#[export] Instance safe_gce_proposal s : desafe s de_gce_proposal. Proof. record_safe de_gce_proposal. Qed.

#[export] Instance codec_reinit_proposal : codec wf_reinit_proposal se_reinit_proposal de_reinit_proposal.
Proof. record_codec wf_reinit_proposal se_reinit_proposal de_reinit_proposal. Qed.
#[export] Instance ne_reinit_proposal : ser_ne se_reinit_proposal. Proof. ne_first se_reinit_proposal. Qed.
#[export] Instance sizing_reinit_proposal : sizing fits_reinit_proposal se_reinit_proposal. Proof. record_sizing fits_reinit_proposal se_reinit_proposal. Qed.
#[export] Instance safe_reinit_proposal s : desafe s de_reinit_proposal.
Proof.
  intros bs. unfold de_reinit_proposal. safe_step; [safe_step|]. apply safe_two_u16. intros a b r. repeat safe_step.
Qed.

#[export] Instance codec_proposal : codec wf_proposal se_proposal de_proposal.
Proof.
  split.
  - intros a p rest W H. unfold wf_proposal in W. unfold se_proposal in H. unfold de_proposal.
    destruct a; cbn in H; split_seq; rewrite <- ?app_assoc; repeat rt_step; reflexivity.
  - intros bs a rest H. unfold de_proposal in H. can_step H.
    (assert (T : n = u16_of_proposal_type (proposal_type_of_u16 n)) by (now autorewrite with u16)).
    destruct (proposal_type_of_u16 n) eqn:En; [ | | | | | | |discriminate];
      cbn in T; subst n; can_step H; apply Ok_inj in H; injection H as; subst;
      (split; [cbn; assumption || exact I|]);
      (eexists; split; [unfold se_proposal; cbn; seq_intro|rewrite <- ?app_assoc; reflexivity]).
Qed.
#[export] Instance ne_proposal : ser_ne se_proposal.
Proof.
  intros a p H. unfold se_proposal in H.
  destruct a; (eapply seqw_ne_l; [|exact H]; intros x Hx; eapply ne_u16; exact Hx).
Qed.
#[export] Instance sizing_proposal : sizing fits_proposal se_proposal.
Proof.
  intros [[k]|[l]|[r]|[i]|r|[o]|[x]]; unfold fits_proposal, se_proposal; cbn;
    unfold se_add_proposal, se_update_proposal, se_remove_proposal, se_psk_proposal, se_external_init_proposal,
      se_gce_proposal; cbn;
    (eapply sized_iff; [|repeat sized_step]); unfold any; tauto.
Qed.
#[export] Instance safe_proposal : desafe false de_proposal.
Proof.
  intros bs. unfold de_proposal. safe_step; [safe_step|]. destruct (proposal_type_of_u16 _); repeat safe_step.
Qed.

#[export] Instance codec_proposal_or_ref : codec wf_proposal_or_ref se_proposal_or_ref de_proposal_or_ref.
Proof. sum_codec wf_proposal_or_ref se_proposal_or_ref de_proposal_or_ref. Qed.
#[export] Instance sizing_proposal_or_ref : sizing fits_proposal_or_ref se_proposal_or_ref. Proof. sum_sizing fits_proposal_or_ref se_proposal_or_ref. Qed.
#[export] Instance safe_proposal_or_ref : desafe false de_proposal_or_ref. Proof. sum_safe de_proposal_or_ref. Qed.
#[export] Instance ne_proposal_or_ref : ser_ne se_proposal_or_ref.
Proof.
  intros [q|q] p H; cbn in H; (eapply seqw_ne_l; [|exact H]; intros x Hx); eapply ne_u8; eassumption.
Qed.

#[export] Instance codec_commit : codec wf_commit se_commit de_commit.
Proof. record_codec wf_commit se_commit de_commit. Qed.
#[export] Instance ne_commit : ser_ne se_commit. Proof. ne_first se_commit. Qed.
#[export] Instance sizing_commit : sizing fits_commit se_commit. Proof. record_sizing fits_commit se_commit. Qed.
#[export] Instance safe_commit : desafe false de_commit. Proof. record_safe de_commit. Qed.

(* ------------------------------------------------------------------------------------------- *)
(** * Framing *)

#[export] Instance codec_content : codec wf_content se_content de_content.
Proof. sum_codec wf_content se_content de_content. Qed.
#[export] Instance ne_content : ser_ne se_content. Proof. ne_first se_content. Qed.
#[export] Instance sizing_content : sizing fits_content se_content.
Proof. sum_sizing fits_content se_content. Qed.
#[export] Instance safe_content : desafe false de_content. Proof. sum_safe de_content. Qed.

#[export] Instance codec_framed_content : codec wf_framed_content se_framed_content de_framed_content.
Proof. record_codec wf_framed_content se_framed_content de_framed_content. Qed.
#[export] Instance ne_framed_content : ser_ne se_framed_content. Proof. ne_first se_framed_content. Qed.
#[export] Instance sizing_framed_content : sizing fits_framed_content se_framed_content. Proof. record_sizing fits_framed_content se_framed_content. Qed.
#[export] Instance safe_framed_content : desafe false de_framed_content. Proof. record_safe de_framed_content. Qed.

#[export] Instance codec_auth_data ct : codec (wf_auth_data ct) (se_auth_data ct) (de_auth_data ct).
Proof.
  split.
  - intros [sg tag] p rest W H. unfold se_auth_data in H. unfold de_auth_data. destruct ct; cbn in W, H; subst;
      split_seq; rewrite <- ?app_assoc; repeat rt_step; reflexivity.
  - intros bs a rest H. unfold de_auth_data in H. unfold wf_auth_data, se_auth_data.
    can_step H. destruct ct; repeat can_step H; can_done H.
Qed.
#[export] Instance ne_auth_data ct : ser_ne (se_auth_data ct). Proof. ne_first se_auth_data. Qed.
#[export] Instance sizing_auth_data ct : sizing (fits_auth_data ct) (se_auth_data ct).
Proof.
  intros a. unfold fits_auth_data, se_auth_data. apply sized_seq; [sized_step|]. destruct ct; sized_step.
Qed.
#[export] Instance safe_auth_data s ct : desafe s (de_auth_data ct).
Proof. intros bs. unfold de_auth_data. safe_step; [safe_step|]. destruct ct; repeat safe_step. Qed.

#[export] Instance codec_auth_content : codec wf_auth_content se_auth_content de_auth_content.
Proof. record_codec wf_auth_content se_auth_content de_auth_content. Qed.
#[export] Instance ne_auth_content : ser_ne se_auth_content. Proof. ne_first se_auth_content. Qed.
#[export] Instance sizing_auth_content : sizing fits_auth_content se_auth_content.
Proof. record_sizing fits_auth_content se_auth_content. Qed.
#[export] Instance safe_auth_content : desafe false de_auth_content. Proof. record_safe de_auth_content. Qed.


#[export] Instance codec_framed_content_tbs :
  codec wf_framed_content_tbs se_framed_content_tbs de_framed_content_tbs.
Proof.
  split.
  - intros [v w c g] p rest W H. unfold wf_framed_content_tbs in W. unfold se_framed_content_tbs in H.
    cbn in W, H. destruct W as ((u & Hu & ->) & Wc & Wg). autorewrite with u16 in H. split_seq. rewrite <- ?app_assoc.
    unfold de_framed_content_tbs. repeat rt_step.
    destruct (fc_sender c); try (destruct Wg as (g' & -> & Wg); rt_step; reflexivity);
      subst g; split_seq; reflexivity.
  - intros bs a rest H. unfold de_framed_content_tbs in H. unfold wf_framed_content_tbs, se_framed_content_tbs.
    repeat can_step H.
    destruct (fc_sender f) eqn:Ef; try can_step H; apply Ok_inj in H; injection H as; subst; cbn;
      rewrite Ef; autorewrite with u16;
      (split; [ split; [eexists; split; [eassumption|reflexivity]|split; [assumption|eauto]]
              | eexists; split; [seq_intro|rewrite <- ?app_assoc; reflexivity] ]).
Qed.
#[export] Instance ne_framed_content_tbs : ser_ne se_framed_content_tbs. Proof. ne_first se_framed_content_tbs. Qed.
#[export] Instance safe_framed_content_tbs : desafe false de_framed_content_tbs.
Proof.
  intros bs. unfold de_framed_content_tbs. do 3 (safe_step; [safe_step|]). destruct (fc_sender f); repeat safe_step.
Qed.
(** Without the context it needs, the structure cannot be serialized; with it, only size matters. *)
Lemma sized_framed_content_tbs t :
  (signs_context (fc_sender (tbs_content t)) = true -> tbs_context t <> None) ->
  sized (fits_framed_content_tbs t) (se_framed_content_tbs t).
Proof.
  intros K. unfold fits_framed_content_tbs, se_framed_content_tbs.
  destruct (fc_sender (tbs_content t)), (tbs_context t) as [g|]; cbn in *;
    try (exfalso; apply K; reflexivity);
    (eapply sized_iff; [|repeat sized_step]); unfold any; tauto.
Qed.

#[export] Instance codec_auth_content_tbm : codec wf_auth_content_tbm se_auth_content_tbm de_auth_content_tbm.
Proof. record_codec wf_auth_content_tbm se_auth_content_tbm de_auth_content_tbm. Qed.
#[export] Instance ne_auth_content_tbm : ser_ne se_auth_content_tbm. Proof. ne_first se_auth_content_tbm. Qed.
#[export] Instance safe_auth_content_tbm : desafe false de_auth_content_tbm.
Proof. record_safe de_auth_content_tbm. Qed.
Lemma sized_auth_content_tbm t :
  (signs_context (fc_sender (tbs_content (tbm_tbs t))) = true -> tbs_context (tbm_tbs t) <> None) ->
  sized (fits_auth_content_tbm t) (se_auth_content_tbm t).
Proof.
  intros K. unfold fits_auth_content_tbm, se_auth_content_tbm.
  apply sized_seq; [apply sized_framed_content_tbs, K|sized_step].
Qed.

#[export] Instance codec_sender_data : codec wf_sender_data se_sender_data de_sender_data.
Proof.
  split.
  - intros [i g r] p rest W H. unfold wf_sender_data in W. cbn in W. destruct W as (Wi & Wg & Wr).
    unfold se_sender_data in H. cbn in H. split_seq. apply Ok_inj in Hq2. subst q2. rewrite <- ?app_assoc.
    unfold de_sender_data. do 3 rt_step. change 4 with (N.of_nat 4). rewrite <- Wr, copy_app. reflexivity.
  - intros bs a rest H. unfold de_sender_data in H. unfold wf_sender_data, se_sender_data. do 3 can_step H.
    apply bind_ok in H as ([r rest'] & K & H). apply copy_ok in K as [-> L].
    apply Ok_inj in H; injection H as; subst. cbn.
    split; [split; [assumption|split; [assumption|lia]]|].
    eexists; split; [seq_intro|rewrite <- ?app_assoc; reflexivity].
Qed.
#[export] Instance ne_sender_data : ser_ne se_sender_data. Proof. ne_first se_sender_data. Qed.
#[export] Instance sizing_sender_data : sizing any se_sender_data. Proof. record_sizing any se_sender_data. Qed.
#[export] Instance safe_sender_data s : desafe s de_sender_data.
Proof.
  intros bs. unfold de_sender_data. safe_step. match goal with H : need _ _ = _ |- _ => apply need_inv in H as N end.
  apply safe_bind; [apply safe_get_be; lia|]. intros [v r] E. apply get_be_ok in E as [-> _].
  rewrite app_length, be_length in N.
  apply safe_bind; [apply safe_get_be; lia|]. intros [c r'] E. apply get_be_ok in E as [-> _].
  rewrite app_length, be_length in N.
  apply safe_bind; [apply safe_copy; lia|]. intros [x y] _. exact I.
Qed.
#[export] Instance sizing_sender_data_aad : sizing fits_sender_data_aad se_sender_data_aad.
Proof. record_sizing fits_sender_data_aad se_sender_data_aad. Qed.

(* ------------------------------------------------------------------------------------------- *)
(** * Messages *)

#[export] Instance codec_public_message : codec wf_public_message se_public_message de_public_message.
Proof.
  split.
  - intros [c a t] p rest W H. unfold wf_public_message in W. unfold se_public_message in H. cbn in W, H.
    destruct W as (Wc & Wa & Wt). split_seq. rewrite <- ?app_assoc. unfold de_public_message. repeat rt_step.
    destruct (fc_sender c); try (subst t; split_seq; reflexivity).
    destruct t as [t|]; [|congruence]. rt_step. reflexivity.
  - intros bs m rest H. unfold de_public_message in H. unfold wf_public_message, se_public_message.
    repeat can_step H.
    destruct (fc_sender f) eqn:Ef; try can_step H; apply Ok_inj in H; injection H as; subst; cbn; rewrite Ef;
      (split; [ split; [assumption|split; [assumption|solve [discriminate|reflexivity]]]
              | eexists; split; [seq_intro|rewrite <- ?app_assoc; reflexivity] ]).
Qed.
#[export] Instance ne_public_message : ser_ne se_public_message. Proof. ne_first se_public_message. Qed.
#[export] Instance sizing_public_message : sizing fits_public_message se_public_message.
Proof.
  intros [c a t]. unfold fits_public_message, se_public_message. cbn.
  apply sized_seq; [sized_step|]. apply sized_seq; [sized_step|].
  destruct (fc_sender c); try apply sized_ok. destruct t; cbn; [sized_step|apply sized_ok].
Qed.
#[export] Instance safe_public_message : desafe false de_public_message.
Proof.
  intros bs. unfold de_public_message. do 2 (safe_step; [safe_step|]). destruct (fc_sender f); repeat safe_step.
Qed.

#[export] Instance codec_private_message : codec wf_private_message se_private_message de_private_message.
Proof. record_codec wf_private_message se_private_message de_private_message. Qed.
#[export] Instance ne_private_message : ser_ne se_private_message. Proof. ne_first se_private_message. Qed.
#[export] Instance sizing_private_message : sizing fits_private_message se_private_message. Proof. record_sizing fits_private_message se_private_message. Qed.
#[export] Instance safe_private_message s : desafe s de_private_message. Proof. record_safe de_private_message. Qed.

#[export] Instance codec_private_content_aad : codec wf_private_content_aad se_private_content_aad de_private_content_aad.
Proof. record_codec wf_private_content_aad se_private_content_aad de_private_content_aad. Qed.
#[export] Instance ne_private_content_aad : ser_ne se_private_content_aad. Proof. ne_first se_private_content_aad. Qed.
#[export] Instance sizing_private_content_aad : sizing fits_private_content_aad se_private_content_aad. Proof. record_sizing fits_private_content_aad se_private_content_aad. Qed.
#[export] Instance safe_private_content_aad s : desafe s de_private_content_aad. Proof. record_safe de_private_content_aad. Qed.

Lemma check_padding_ok bs : check_padding bs = Ok tt <-> Forall (fun b => b = x00) bs.
Proof.
  induction bs as [|b bs IH]; cbn [check_padding]; [split; [constructor|reflexivity]|].
  destruct (N.eqb_spec (b2n b) 0) as [E|E].
  - rewrite IH. split.
    + intros H. constructor; [|exact H]. apply b2n_inj. exact E.
    + intros H. inversion H; assumption.
  - split; [discriminate|]. intros H. inversion H; subst. exfalso. apply E. reflexivity.
Qed.
Lemma check_padding_err bs : ~ Forall (fun b => b = x00) bs -> check_padding bs = Err PaddingContainsNonZeroBytes.
Proof.
  induction bs as [|b bs IH]; cbn [check_padding]; intros H; [exfalso; apply H; constructor|].
  destruct (N.eqb_spec (b2n b) 0) as [E|E]; [|reflexivity].
  apply IH. intros K. apply H. constructor; [|exact K]. apply b2n_inj. exact E.
Qed.

(** The content of a private message, followed by padding. *)
Lemma private_content_rt c p pad :
  wf_private_content c -> se_private_content c = Ok p ->
  de_private_content (content_type_of (pc_content c)) (p ++ pad) =
    let* _ := check_padding pad in Ok c.
Proof.
  intros [Wc Wa] H. destruct c as [c a]. cbn in Wc, Wa. unfold se_private_content in H. cbn in H.
  split_seq. rewrite <- ?app_assoc. unfold de_private_content. cbn [pc_content].
  destruct c; cbn in Hq, Hq0, Wc, Wa |- *; repeat rt_step; reflexivity.
Qed.
Lemma private_content_can ct bs c :
  de_private_content ct bs = Ok c ->
  wf_private_content c /\ content_type_of (pc_content c) = ct /\
  exists p pad, se_private_content c = Ok p /\ bs = p ++ pad /\ Forall (fun b => b = x00) pad.
Proof.
  intros H. unfold de_private_content in H. unfold wf_private_content, se_private_content.
  apply bind_ok in H as ([c' r] & Hc & H).
  apply bind_ok in H as ([a r'] & Ha & H). apply (codec_can (codec_auth_data ct)) in Ha as (Wa & q & Hq & ->).
  apply bind_ok in H as (u & Hu & H). apply Ok_inj in H. subst c. destruct u. apply check_padding_ok in Hu.
  destruct ct; can_step Hc; apply Ok_inj in Hc; injection Hc as; subst; cbn in *;
    (split; [split; [assumption || exact I|assumption]|split; [reflexivity|]]);
    (eexists; exists r'; split; [seq_intro|split; [rewrite <- ?app_assoc; reflexivity|assumption]]).
Qed.
#[export] Instance sizing_private_content : sizing fits_private_content se_private_content.
Proof.
  intros [c a]. unfold fits_private_content, se_private_content. cbn. apply sized_seq; [|sized_step].
  destruct c; cbn; sized_step.
Qed.
Lemma safe_private_content ct bs : safe false (de_private_content ct bs).
Proof.
  unfold de_private_content. apply safe_bind; [destruct ct; repeat safe_step|]. intros [c r] _.
  safe_step; [safe_step|]. apply safe_bind; [|intros; exact I].
  induction l as [|b l IH]; cbn; [exact I|]. destruct (_ =? 0); [|exact I].
  clear -b l. induction l as [|c l IH]; cbn; [exact I|]. destruct (_ =? 0); [exact IH|exact I].
Qed.

Lemma seqw_assoc x y z : (x +++ y) +++ z = x +++ (y +++ z).
Proof. unfold seqw. destruct x; cbn; auto; destruct y; cbn; auto; destruct z; cbn; auto. now rewrite app_assoc. Qed.
Lemma se_group_info_eq g : se_group_info g =
  se_group_context (gi_context g) +++ se_extensions (gi_extensions g) +++
  se_opaque (gi_confirmation_tag g) +++ put_u32 (gi_signer g) +++ se_opaque (gi_signature g).
Proof. unfold se_group_info, se_group_info_base. rewrite !seqw_assoc. reflexivity. Qed.

#[export] Instance codec_group_info : codec wf_group_info se_group_info de_group_info.
Proof.
  split.
  - intros [c e t i g] p rest W H. unfold wf_group_info in W. rewrite se_group_info_eq in H. cbn in W, H.
    split_wf. split_seq. rewrite <- ?app_assoc. unfold de_group_info. repeat rt_step. reflexivity.
  - intros bs a rest H. unfold de_group_info in H. repeat can_step H. unfold wf_group_info.
    apply Ok_inj in H; injection H as; subst. cbn. split; [auto|].
    eexists; split; [rewrite se_group_info_eq; seq_intro|rewrite <- ?app_assoc; reflexivity].
Qed.
#[export] Instance sizing_group_info_base : sizing fits_group_info_base se_group_info_base.
Proof. record_sizing fits_group_info_base se_group_info_base. Qed.
#[export] Instance sizing_group_info : sizing fits_group_info se_group_info.
Proof. intros g. unfold fits_group_info, se_group_info. apply sized_seq; sized_step. Qed.
#[export] Instance safe_group_info s : desafe s de_group_info. Proof. record_safe de_group_info. Qed.
#[export] Instance ne_group_info : ser_ne se_group_info.
Proof.
  intros g p H. unfold se_group_info in H. eapply seqw_ne_l; [|exact H]. intros x Hx.
  unfold se_group_info_base in Hx. eapply seqw_ne_l; [|exact Hx]. intros y Hy. exact (ne_group_context _ _ Hy).
Qed.

#[export] Instance codec_group_secrets : codec wf_group_secrets se_group_secrets de_group_secrets.
Proof. record_codec wf_group_secrets se_group_secrets de_group_secrets. Qed.
#[export] Instance ne_group_secrets : ser_ne se_group_secrets. Proof. ne_first se_group_secrets. Qed.
#[export] Instance sizing_group_secrets : sizing fits_group_secrets se_group_secrets. Proof. record_sizing fits_group_secrets se_group_secrets. Qed.
#[export] Instance safe_group_secrets s : desafe s de_group_secrets. Proof. record_safe de_group_secrets. Qed.

#[export] Instance codec_egs : codec any se_egs de_egs.
Proof. record_codec any se_egs de_egs. Qed.
#[export] Instance ne_egs : ser_ne se_egs. Proof. ne_first se_egs. Qed.
#[export] Instance sizing_egs : sizing fits_egs se_egs. Proof. record_sizing fits_egs se_egs. Qed.
#[export] Instance safe_egs s : desafe s de_egs. Proof. record_safe de_egs. Qed.

#[export] Instance codec_welcome : codec wf_welcome se_welcome de_welcome.
Proof. record_codec wf_welcome se_welcome de_welcome. Qed.
#[export] Instance ne_welcome : ser_ne se_welcome. Proof. ne_first se_welcome. Qed.
#[export] Instance sizing_welcome : sizing fits_welcome se_welcome. Proof. record_sizing fits_welcome se_welcome. Qed.
#[export] Instance safe_welcome s : desafe s de_welcome. Proof. record_safe de_welcome. Qed.

#[export] Instance codec_wire_message : codec wf_wire_message se_wire_message de_wire_message.
Proof. sum_codec wf_wire_message se_wire_message de_wire_message. Qed.
#[export] Instance ne_wire_message : ser_ne se_wire_message. Proof. ne_first se_wire_message. Qed.
#[export] Instance sizing_wire_message : sizing fits_wire_message se_wire_message. Proof. sum_sizing fits_wire_message se_wire_message. Qed.
#[export] Instance safe_wire_message : desafe false de_wire_message. Proof. sum_safe de_wire_message. Qed.

#[export] Instance codec_mls_message : codec wf_mls_message se_mls_message de_mls_message.
Proof.
  split.
  - intros [v m] p rest W H. unfold wf_mls_message in W. cbn in W. destruct W as (-> & W).
    unfold se_mls_message in H; cbn in H. split_seq. rewrite <- ?app_assoc.
    unfold de_mls_message. repeat rt_step. rt_done.
  - intros bs a rest H. unfold de_mls_message in H. can_step H.
    destruct (is_mls10 (version_of_u16 n)) eqn:E; [|discriminate]. cbn [negb] in H. can_step H.
    unfold wf_mls_message, se_mls_message. can_done H.
    cbn. destruct (version_of_u16 n); [reflexivity|discriminate].
Qed.
#[export] Instance ne_mls_message : ser_ne se_mls_message. Proof. ne_first se_mls_message. Qed.
#[export] Instance sizing_mls_message : sizing fits_mls_message se_mls_message.
Proof. record_sizing fits_mls_message se_mls_message. Qed.
#[export] Instance safe_mls_message : desafe false de_mls_message.
Proof.
  intros bs. unfold de_mls_message. safe_step; [safe_step|]. destruct (negb _); repeat safe_step.
Qed.

#[export] Instance codec_confirmed_input : codec wf_confirmed_input se_confirmed_input de_confirmed_input.
Proof.
  split.
  - intros [w c g] p rest W H. unfold wf_confirmed_input in W. unfold se_confirmed_input in H. cbn in W, H.
    destruct W as (Wc & m & Em). rewrite Em in H. split_seq. rewrite <- ?app_assoc.
    unfold de_confirmed_input. repeat rt_step. rewrite Em. repeat rt_step. reflexivity.
  - intros bs a rest H. unfold de_confirmed_input in H. unfold wf_confirmed_input, se_confirmed_input.
    repeat can_step H. destruct (fc_content f) eqn:Ef; try discriminate. can_step H.
    apply Ok_inj in H; injection H as; subst; cbn. rewrite Ef.
    split; [eauto|]. eexists; split; [seq_intro|rewrite <- ?app_assoc; reflexivity].
Qed.
#[export] Instance ne_confirmed_input : ser_ne se_confirmed_input.
Proof.
  intros c p H. unfold se_confirmed_input in H. destruct (fc_content _); try discriminate.
  eapply seqw_ne_l; [|exact H]. intros x Hx. exact (ne_wire_format _ _ Hx).
Qed.
Lemma sized_confirmed_input c m : fc_content (ci_content c) = CCommit m ->
  sized (fits_confirmed_input c) (se_confirmed_input c).
Proof.
  intros E. unfold fits_confirmed_input, se_confirmed_input. rewrite E.
  eapply sized_iff; [|repeat sized_step]. unfold any; tauto.
Qed.
#[export] Instance safe_confirmed_input : desafe false de_confirmed_input.
Proof.
  intros bs. unfold de_confirmed_input. do 2 (safe_step; [safe_step|]). destruct (fc_content f); repeat safe_step.
Qed.
