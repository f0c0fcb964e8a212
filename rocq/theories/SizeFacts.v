(** Proofs about the sizes of decoded values. *)
From Coq Require Import ZifyBool ZifyNat ZifyN.
From Verif Require Import SpecSize CodecLib WireCodecs TreeCodec.
Local Open Scope N_scope.

(** Every encoding is at least as long as the value is big. *)
Definition light {A} (size : A -> N) (ser : A -> res bytes) : Prop := forall a p, ser a = Ok p -> size a <= N.of_nat (length p).
Existing Class light.
Lemma light_use {A} {size : A -> N} {ser : A -> res bytes} {L : light size ser} a p : ser a = Ok p -> size a <= N.of_nat (length p).
Proof. apply L. Qed.

#[export] Instance light_u8 : light size_one put_u8. Proof. intros a p H. injection H as <-. unfold size_one. cbn [length be]. lia. Qed.
#[export] Instance light_u16 : light size_one put_u16. Proof. intros a p H. injection H as <-. unfold size_one. cbn [length be]. lia. Qed.
#[export] Instance light_u32 : light size_one put_u32. Proof. intros a p H. injection H as <-. unfold size_one. cbn [length be]. lia. Qed.
#[export] Instance light_u64 : light size_one put_u64. Proof. intros a p H. injection H as <-. unfold size_one. cbn [length be]. lia. Qed.
#[export] Instance light_u16_as {A} (g : A -> N) : light size_one (se_u16_as g). Proof. intros a p H. apply (light_u16 _ _ H). Qed.
Lemma varint_one n p : se_varint n = Ok p -> (1 <= length p)%nat.
Proof.
  unfold se_varint. intros H. destruct (n <? _) in H; [apply light_u8 in H; unfold size_one in H; lia|]. destruct (n <? _) in H; [apply light_u16 in H; unfold size_one in H; lia|].
  destruct (n <? _) in H; [apply light_u32 in H; unfold size_one in H; lia|discriminate].
Qed.
#[export] Instance light_opaque : light size_string se_opaque.
Proof.
  intros a p. unfold se_opaque, size_string. destruct (_ <=? _); [discriminate|]. intros H. apply seqw_ok in H as (x & y & X & Y & ->). apply varint_one in X. injection Y as <-. rewrite app_length. lia.
Qed.
Lemma light_elems {A} (size : A -> N) ser {L : light size ser} l p : se_elems ser l = Ok p -> fold_right (fun a n => size a + n) 0 l <= N.of_nat (length p).
Proof.
  revert p. induction l as [|a l IH]; intros p H; cbn [se_elems fold_right] in *; [lia|]. apply seqw_ok in H as (x & y & X & Y & ->). apply L in X. apply IH in Y. rewrite app_length. lia.
Qed.
#[export] Instance light_vector {A} (size : A -> N) ser {L : light size ser} : light (size_list size) (se_vector ser).
Proof. intros l p H. unfold se_vector in H. apply bind_ok in H as (raw & R & H). apply (light_elems size) in R; [|exact L]. apply light_opaque in H. unfold size_list, size_string in *. lia. Qed.
#[export] Instance light_option {A} (size : A -> N) ser {L : light size ser} : light (size_option size) (se_option ser).
Proof.
  intros [a|] p H; cbn [se_option size_option] in *; unfold size_option.
  - apply seqw_ok in H as (x & y & X & Y & ->). apply light_u8 in X. apply L in Y. rewrite app_length. unfold size_one in X. lia.
  - apply light_u8 in H. unfold size_one in H. lia.
Qed.

Ltac weigh :=
  repeat match goal with
  | H : _ +++ _ = Ok _ |- _ => let x := fresh "x" in let y := fresh "y" in let X := fresh "X" in let Y := fresh "Y" in apply seqw_ok in H as (x & y & X & Y & ->)
  | H : Ok _ = Ok _ |- _ => injection H as <-
  end;
  repeat match goal with H : ?f ?a = Ok ?p |- _ => let K := fresh "K" in pose proof (light_use (ser := f) a p H) as K; clear H end;
  rewrite ?app_length; unfold size_one in *; cbn [length]; lia.
Ltac light f size := let a := fresh "a" in let p := fresh "p" in let H := fresh "H" in intros a p H; unfold f in H; unfold size; try (destruct a; cbn in H |- * ); weigh.

#[export] Instance light_secret_key : light size_string se_secret_key := light_opaque.
#[export] Instance light_identity : light size_string se_identity := light_opaque.
#[export] Instance light_certificate : light size_string se_certificate := light_opaque.
#[export] Instance light_ref : light size_string se_key_package_ref := light_opaque.
#[export] Instance light_content_type : light size_one se_content_type. Proof. intros a p H. exact (light_u8 _ _ H). Qed.
#[export] Instance light_sender_type : light size_one se_sender_type. Proof. intros a p H. exact (light_u8 _ _ H). Qed.
#[export] Instance light_node_type : light size_one se_node_type. Proof. intros a p H. exact (light_u8 _ _ H). Qed.
#[export] Instance light_psk_type : light size_one se_psk_type. Proof. intros a p H. exact (light_u8 _ _ H). Qed.
#[export] Instance light_psk_usage : light size_one se_psk_usage. Proof. intros a p H. exact (light_u8 _ _ H). Qed.
#[export] Instance light_wire_format : light size_one se_wire_format. Proof. intros a p H. exact (light_u16 _ _ H). Qed.
#[export] Instance light_scheme : light size_one se_signature_scheme. Proof. intros a p H. exact (light_u16 _ _ H). Qed.
#[export] Instance light_credential : light size_credential se_credential.
Proof. intros a p H. unfold se_credential in H. unfold size_credential. destruct a; weigh. Qed.
#[export] Instance light_signature_key_pair : light size_signature_key_pair se_signature_key_pair.
Proof. intros a p H. unfold se_signature_key_pair in H. unfold size_signature_key_pair. weigh. Qed.
#[export] Instance light_hpke_key_pair : light size_hpke_key_pair se_hpke_key_pair.
Proof. intros a p H. unfold se_hpke_key_pair in H. unfold size_hpke_key_pair. weigh. Qed.
#[export] Instance light_sender : light size_sender se_sender.
Proof. intros a p H. unfold se_sender in H. unfold size_sender. destruct a; weigh. Qed.
#[export] Instance light_extension : light size_extension se_extension.
Proof. intros a p H. unfold se_extension in H. unfold size_extension. weigh. Qed.
#[export] Instance light_extensions : light size_extensions se_extensions := light_vector _ _.
#[export] Instance light_external_senders : light size_external_senders se_external_senders.
Proof. intros a p H. unfold se_external_senders in H. unfold size_external_senders. weigh. Qed.
#[export] Instance light_required_capabilities : light size_required_capabilities se_required_capabilities.
Proof. intros a p H. unfold se_required_capabilities in H. unfold size_required_capabilities. weigh. Qed.
#[export] Instance light_lifetime : light (fun _ => 2) se_lifetime.
Proof. intros a p H. unfold se_lifetime in H. weigh. Qed.
#[export] Instance light_leaf_node_source : light size_leaf_node_source se_leaf_node_source.
Proof. intros a p H. unfold se_leaf_node_source in H. unfold size_leaf_node_source. destruct a; weigh. Qed.
#[export] Instance light_capabilities : light size_capabilities se_capabilities.
Proof. intros a p H. unfold se_capabilities in H. unfold size_capabilities. weigh. Qed.
#[export] Instance light_leaf_payload : light size_leaf_payload se_leaf_payload.
Proof. intros a p H. unfold se_leaf_payload in H. unfold size_leaf_payload. weigh. Qed.
#[export] Instance light_leaf_node : light size_leaf_node se_leaf_node.
Proof. intros a p H. unfold se_leaf_node in H. unfold size_leaf_node. weigh. Qed.
#[export] Instance light_parent_node : light size_parent_node se_parent_node.
Proof. intros a p H. unfold se_parent_node in H. unfold size_parent_node. weigh. Qed.
#[export] Instance light_hpke_ciphertext : light size_hpke_ciphertext se_hpke_ciphertext.
Proof. intros a p H. unfold se_hpke_ciphertext in H. unfold size_hpke_ciphertext. weigh. Qed.
#[export] Instance light_update_path_node : light size_update_path_node se_update_path_node.
Proof. intros a p H. unfold se_update_path_node in H. unfold size_update_path_node. weigh. Qed.
#[export] Instance light_update_path : light size_update_path se_update_path.
Proof. intros a p H. unfold se_update_path in H. unfold size_update_path. weigh. Qed.
#[export] Instance light_node : light size_node se_node.
Proof. intros a p H. unfold se_node in H. unfold size_node. destruct a; weigh. Qed.
#[export] Instance light_key_package_tbs : light size_key_package_tbs se_key_package_tbs.
Proof. intros a p H. unfold se_key_package_tbs in H. unfold size_key_package_tbs. weigh. Qed.
#[export] Instance light_key_package : light size_key_package se_key_package.
Proof. intros a p H. unfold se_key_package in H. unfold size_key_package. weigh. Qed.
#[export] Instance light_group_context : light size_group_context se_group_context.
Proof. intros a p H. unfold se_group_context in H. unfold size_group_context. weigh. Qed.
#[export] Instance light_psk_id : light size_psk_id se_psk_id.
Proof. intros a p H. unfold se_psk_id, se_psk in H. unfold size_psk_id. destruct (pi_psk a); unfold se_resumption in H; weigh. Qed.
#[export] Instance light_proposal : light size_proposal se_proposal.
Proof.
  intros a p H. unfold se_proposal in H. unfold size_proposal.
  destruct a; unfold se_add_proposal, se_update_proposal, se_remove_proposal, se_psk_proposal, se_reinit_proposal, se_external_init_proposal, se_gce_proposal in H; weigh.
Qed.
#[export] Instance light_proposal_or_ref : light size_proposal_or_ref se_proposal_or_ref.
Proof. intros a p H. unfold se_proposal_or_ref in H. unfold size_proposal_or_ref. destruct a; weigh. Qed.
#[export] Instance light_commit : light size_commit se_commit.
Proof. intros a p H. unfold se_commit in H. unfold size_commit. weigh. Qed.
#[export] Instance light_body : light size_body se_content_body.
Proof. intros a p H. unfold se_content_body in H. unfold size_body. destruct a; weigh. Qed.
#[export] Instance light_framed_content : light size_framed_content se_framed_content.
Proof. intros a p H. unfold se_framed_content, se_content in H. unfold size_framed_content. weigh. Qed.
#[export] Instance light_private_message : light size_private_message se_private_message.
Proof. intros a p H. unfold se_private_message in H. unfold size_private_message. weigh. Qed.
#[export] Instance light_group_info : light size_group_info se_group_info.
Proof. intros a p H. unfold se_group_info, se_group_info_base in H. unfold size_group_info. weigh. Qed.
#[export] Instance light_group_secrets : light size_group_secrets se_group_secrets.
Proof. intros a p H. unfold se_group_secrets in H. unfold size_group_secrets. weigh. Qed.
#[export] Instance light_egs : light size_egs se_egs.
Proof. intros a p H. unfold se_egs in H. unfold size_egs. weigh. Qed.
#[export] Instance light_welcome : light size_welcome se_welcome.
Proof. intros a p H. unfold se_welcome in H. unfold size_welcome. weigh. Qed.

Lemma light_no_bigger {A} {wf : A -> Prop} {size ser de} : codec wf ser de -> light size ser -> no_bigger size de.
Proof. intros C L bs a rest H. apply (codec_can C) in H as (_ & p & S & ->). apply L in S. rewrite app_length. lia. Qed.

(** ** Confirmation tags, which are only sometimes in the message *)
Lemma opaque_no_bigger : no_bigger size_string de_opaque.
Proof. exact (light_no_bigger codec_opaque light_opaque). Qed.
Lemma auth_no_bigger ct : no_bigger size_auth_data (de_auth_data ct).
Proof.
  intros bs a rest H. unfold de_auth_data in H. apply bind_ok in H as ([s bs'] & S & H). apply opaque_no_bigger in S. unfold size_auth_data.
  destruct ct; [injection H as <- <-; cbn [ad_signature ad_confirmation_tag length]; lia|injection H as <- <-; cbn [ad_signature ad_confirmation_tag length]; lia|].
  apply bind_ok in H as ([t bs''] & T & H). apply opaque_no_bigger in T. injection H as <- <-. cbn [ad_signature ad_confirmation_tag]. unfold size_string in *. lia.
Qed.
Lemma framed_no_bigger : no_bigger size_framed_content de_framed_content.
Proof. exact (light_no_bigger codec_framed_content light_framed_content). Qed.
Lemma public_no_bigger : no_bigger size_public_message de_public_message.
Proof.
  intros bs a rest H. unfold de_public_message in H. apply bind_ok in H as ([c b1] & C & H). apply framed_no_bigger in C. apply bind_ok in H as ([d b2] & D & H). apply auth_no_bigger in D.
  unfold size_public_message. destruct (fc_sender c); [apply bind_ok in H as ([t b3] & T & H); apply opaque_no_bigger in T| | |]; injection H as <- <-; cbn [pm_content pm_auth pm_tag]; lia.
Qed.
Lemma auth_content_no_bigger : no_bigger size_auth_content de_auth_content.
Proof.
  intros bs a rest H. unfold de_auth_content in H. apply bind_ok in H as ([w b1] & W & H). apply (light_no_bigger codec_wire_format light_wire_format) in W.
  apply bind_ok in H as ([c b2] & C & H). apply framed_no_bigger in C. apply bind_ok in H as ([d b3] & D & H). apply auth_no_bigger in D. injection H as <- <-.
  unfold size_auth_content, size_one in *. cbn [ac_content ac_auth]. lia.
Qed.
Lemma private_no_bigger ct bs c : de_private_content ct bs = Ok c -> size_private_content c <= N.of_nat (length bs).
Proof.
  unfold de_private_content. intros H. apply bind_ok in H as ([d b1] & D & H). apply bind_ok in H as ([a b2] & A & H). apply auth_no_bigger in A. apply bind_ok in H as (u & _ & H). injection H as <-.
  unfold size_private_content. cbn [pc_content pc_auth]. destruct ct; apply bind_ok in D as ([x b3] & X & D); injection D as <- <-; cbn [size_body].
  - apply opaque_no_bigger in X. lia.
  - apply (light_no_bigger codec_proposal light_proposal) in X. lia.
  - apply (light_no_bigger codec_commit light_commit) in X. lia.
Qed.
Lemma message_no_bigger : no_bigger size_mls_message de_mls_message.
Proof.
  intros bs a rest H. unfold de_mls_message in H. apply bind_ok in H as ([v b1] & V & H). apply (light_no_bigger codec_u16 light_u16) in V. destruct (negb _); [discriminate|].
  apply bind_ok in H as ([m b2] & M & H). injection H as <- <-. unfold size_mls_message, size_one in *. cbn [mm_wire]. unfold de_wire_message in M.
  apply bind_ok in M as (u & _ & M). apply bind_ok in M as ([w b3] & W & M). apply (light_no_bigger codec_wire_format light_wire_format) in W. unfold size_one in W.
  destruct w; apply bind_ok in M as ([x b4] & X & M); injection M as <- <-.
  - apply public_no_bigger in X. lia.
  - apply (light_no_bigger codec_private_message light_private_message) in X. lia.
  - apply (light_no_bigger codec_welcome light_welcome) in X. lia.
  - apply (light_no_bigger codec_group_info light_group_info) in X. lia.
  - apply (light_no_bigger codec_key_package light_key_package) in X. lia.
Qed.

(** ** Trees, which are filled up with blanks *)
Lemma tree_no_bigger bs t rest : de_ratchet_tree bs = Ok (t, rest) -> size_ratchet_tree t + N.of_nat (length rest) <= 2 * N.of_nat (length bs) /\
  N.of_nat (length t) + 2 * N.of_nat (length rest) + 2 <= 2 * N.of_nat (length bs).
Proof.
  intros H. apply tree_decode in H as (_ & l & p & S & -> & n & k & -> & K & M). apply (light_vector (size_option size_node) (se_option se_node)) in S.
  assert (ONE : forall l' : ratchet_tree, N.of_nat (length l') <= fold_right (fun a n => size_option size_node a + n) 0 l').
  { induction l' as [|a l' IH]; cbn [length fold_right]; [lia|]. unfold size_option at 1. lia. }
  assert (APP : forall l', fold_right (fun a n => size_option size_node a + n) 0 (l' ++ repeat None n) = fold_right (fun a n => size_option size_node a + n) 0 l' + N.of_nat n).
  { induction l' as [|a l' IH]; cbn [app fold_right]; [|rewrite IH; lia]. clear. induction n as [|n IH]; cbn [repeat fold_right]; [lia|]. rewrite IH. unfold size_option at 1. lia. }
  assert (L : N.of_nat (length (l ++ repeat None n)) <= 2 * N.of_nat (length l)).
  { destruct (N.eq_0_gt_0_cases k) as [->|G]; [change (2 ^ 0) with 1 in K; lia|].
    destruct (N.le_gt_cases (N.of_nat (length l) + 1) (2 ^ (k - 1))) as [X|X]; [specialize (M _ X); lia|].
    replace k with (N.succ (k - 1)) in K by lia. rewrite N.pow_succ_r' in K. lia. }
  unfold size_ratchet_tree, size_list in *. rewrite APP. specialize (ONE l). clear - S L ONE. rewrite app_length, repeat_length in L. rewrite !app_length, repeat_length. lia.
Qed.
Lemma c90_parts :
  no_bigger size_credential de_credential /\ no_bigger size_signature_key_pair de_signature_key_pair /\ no_bigger size_hpke_key_pair de_hpke_key_pair /\
  no_bigger size_sender de_sender /\ no_bigger size_extensions de_extensions /\ no_bigger size_external_senders de_external_senders /\
  no_bigger size_required_capabilities de_required_capabilities /\ no_bigger size_capabilities de_capabilities /\ no_bigger size_leaf_node de_leaf_node /\
  no_bigger size_parent_node de_parent_node /\ no_bigger size_hpke_ciphertext de_hpke_ciphertext /\ no_bigger size_update_path de_update_path /\
  no_bigger size_node de_node /\ no_bigger size_key_package de_key_package /\ no_bigger size_group_context de_group_context /\ no_bigger size_psk_id de_psk_id /\
  no_bigger size_proposal de_proposal /\ no_bigger size_proposal_or_ref de_proposal_or_ref /\ no_bigger size_commit de_commit /\
  no_bigger size_framed_content de_framed_content /\ (forall ct, no_bigger size_auth_data (de_auth_data ct)) /\ no_bigger size_auth_content de_auth_content /\
  no_bigger size_public_message de_public_message /\ no_bigger size_private_message de_private_message /\ no_bigger size_group_info de_group_info /\
  no_bigger size_group_secrets de_group_secrets /\ no_bigger size_egs de_egs /\ no_bigger size_welcome de_welcome.
Proof.
  repeat split; first [exact (light_no_bigger codec_credential light_credential)|exact (light_no_bigger codec_signature_key_pair light_signature_key_pair)|idtac].
  - exact (light_no_bigger codec_hpke_key_pair light_hpke_key_pair).
  - exact (light_no_bigger codec_sender light_sender).
  - exact (light_no_bigger codec_extensions light_extensions).
  - exact (light_no_bigger codec_external_senders light_external_senders).
  - exact (light_no_bigger codec_required_capabilities light_required_capabilities).
  - exact (light_no_bigger codec_capabilities light_capabilities).
  - exact (light_no_bigger codec_leaf_node light_leaf_node).
  - exact (light_no_bigger codec_parent_node light_parent_node).
  - exact (light_no_bigger codec_hpke_ciphertext light_hpke_ciphertext).
  - exact (light_no_bigger codec_update_path light_update_path).
  - exact (light_no_bigger codec_node light_node).
  - exact (light_no_bigger codec_key_package light_key_package).
  - exact (light_no_bigger codec_group_context light_group_context).
  - exact (light_no_bigger codec_psk_id light_psk_id).
  - exact (light_no_bigger codec_proposal light_proposal).
  - exact (light_no_bigger codec_proposal_or_ref light_proposal_or_ref).
  - exact (light_no_bigger codec_commit light_commit).
  - exact framed_no_bigger.
  - exact auth_no_bigger.
  - exact auth_content_no_bigger.
  - exact public_no_bigger.
  - exact (light_no_bigger codec_private_message light_private_message).
  - exact (light_no_bigger codec_group_info light_group_info).
  - exact (light_no_bigger codec_group_secrets light_group_secrets).
  - exact (light_no_bigger codec_egs light_egs).
  - exact (light_no_bigger codec_welcome light_welcome).
Qed.
