(** The proofs for C111. *)
From Verif Require Import SpecDecode Examples CodecFacts.
From Coq Require Import Lia.
Local Open Scope N_scope.

Definition blen (bs : bytes) : N := N.of_nat (length bs).

(** * The counting decoders are the decoders *)

Lemma same_bind {A B} (m : counted A) m' (k : A -> counted B) k' :
  fst m = m' -> (forall a, fst (k a) = k' a) -> fst (cbind m k) = bind m' k'.
Proof. intros <- H. unfold cbind, bind. destruct (fst m); cbn; auto. Qed.
Lemma same_costing {A} n (m : counted A) m' : fst m = m' -> fst (costing n m) = m'.
Proof. auto. Qed.

Create HintDb cdsame.
Ltac same_tac :=
  repeat first
    [ reflexivity
    | solve [auto with cdsame]
    | apply same_costing
    | apply same_bind; [ | intro; cbn beta iota ]
    | match goal with
      | |- fst (match ?x with _ => _ end) = _ => destruct x
      | |- fst (let (_, _) := ?x in _) = _ => destruct x
      end ].

Lemma same_read k bs : fst (c_read k bs) = (let* _ := need k bs in get_be k bs).
Proof. unfold c_read. same_tac. Qed.
Lemma same_read_u8 bs : fst (c_read_u8 bs) = read_u8 bs. Proof. apply same_read. Qed.
Lemma same_read_u16 bs : fst (c_read_u16 bs) = read_u16 bs. Proof. apply same_read. Qed.
Lemma same_read_u32 bs : fst (c_read_u32 bs) = read_u32 bs. Proof. apply same_read. Qed.
Lemma same_read_u64 bs : fst (c_read_u64 bs) = read_u64 bs. Proof. apply same_read. Qed.
#[global] Hint Resolve same_read_u8 same_read_u16 same_read_u32 same_read_u64 : cdsame.
Lemma same_varint_tail k : forall v bs, fst (c_varint_tail k v bs) = varint_tail k v bs.
Proof. induction k as [|k IH]; intros v bs; cbn [c_varint_tail varint_tail]; [reflexivity|]. apply same_bind; [auto with cdsame|]. intros [b r]. apply IH. Qed.
#[global] Hint Resolve same_varint_tail : cdsame.
Lemma same_varint bs : fst (cd_varint bs) = de_varint bs.
Proof. unfold cd_varint, de_varint. same_tac. Qed.
#[global] Hint Resolve same_varint : cdsame.
Lemma same_opaque bs : fst (cd_opaque bs) = de_opaque bs.
Proof. unfold cd_opaque, de_opaque. same_tac. Qed.
#[global] Hint Resolve same_opaque : cdsame.
Lemma same_vec_loop {A} (f : bytes -> counted (A * bytes)) f' : (forall bs, fst (f bs) = f' bs) ->
  forall k bs, fst (c_vec_loop f k bs) = vec_loop f' k bs.
Proof.
  intros H k. induction k as [|k IH]; intros [|b bs]; cbn [c_vec_loop vec_loop]; try reflexivity.
  apply same_costing, same_bind; [apply H|]. intros [a r]. apply same_bind; [apply IH|]. reflexivity.
Qed.
Lemma same_vector {A} (f : bytes -> counted (A * bytes)) f' : (forall bs, fst (f bs) = f' bs) -> forall bs, fst (cd_vector f bs) = de_vector f' bs.
Proof. intros H bs. pose proof (same_vec_loop f f' H). unfold cd_vector, de_vector. same_tac. Qed.
#[global] Hint Resolve same_vector : cdsame.
Lemma same_optflag bs : fst (cd_optflag bs) = de_optflag bs.
Proof. unfold cd_optflag, de_optflag. same_tac. Qed.
#[global] Hint Resolve same_optflag : cdsame.
Lemma same_option {A} (f : bytes -> counted (A * bytes)) f' : (forall bs, fst (f bs) = f' bs) -> forall bs, fst (cd_option f bs) = de_option f' bs.
Proof. intros H bs. unfold cd_option, de_option. same_tac. Qed.
#[global] Hint Resolve same_option : cdsame.
Lemma same_exact {A} (f : bytes -> counted (A * bytes)) f' : (forall bs, fst (f bs) = f' bs) -> forall bs, fst (cd_exact f bs) = de_exact f' bs.
Proof. intros H bs. unfold cd_exact, de_exact. same_tac. Qed.
Lemma same_pad_blank k : forall t, fst (c_pad_blank k t) = pad_blank k t.
Proof. induction k as [|k IH]; intro t; cbn [c_pad_blank pad_blank]; destruct (is_power_of_two _); try reflexivity. apply same_costing, IH. Qed.
#[global] Hint Resolve same_pad_blank : cdsame.
Lemma same_check_padding bs : fst (c_check_padding bs) = check_padding bs.
Proof. induction bs as [|b bs IH]; cbn [c_check_padding check_padding]; [reflexivity|]. apply same_costing. destruct (b2n b =? 0); [apply IH|reflexivity]. Qed.
#[global] Hint Resolve same_check_padding : cdsame.

Lemma same_secret_key bs : fst (cd_secret_key bs) = de_secret_key bs.
Proof. unfold cd_secret_key, de_secret_key. same_tac. Qed.
#[global] Hint Resolve same_secret_key : cdsame.
Lemma same_identity bs : fst (cd_identity bs) = de_identity bs.
Proof. unfold cd_identity, de_identity. same_tac. Qed.
#[global] Hint Resolve same_identity : cdsame.
Lemma same_certificate bs : fst (cd_certificate bs) = de_certificate bs.
Proof. unfold cd_certificate, de_certificate. same_tac. Qed.
#[global] Hint Resolve same_certificate : cdsame.
Lemma same_credential bs : fst (cd_credential bs) = de_credential bs.
Proof. unfold cd_credential, de_credential. same_tac. Qed.
#[global] Hint Resolve same_credential : cdsame.
Lemma same_signature_scheme bs : fst (cd_signature_scheme bs) = de_signature_scheme bs.
Proof. unfold cd_signature_scheme, de_signature_scheme. same_tac. Qed.
#[global] Hint Resolve same_signature_scheme : cdsame.
Lemma same_signature_key_pair bs : fst (cd_signature_key_pair bs) = de_signature_key_pair bs.
Proof. unfold cd_signature_key_pair, de_signature_key_pair. same_tac. Qed.
#[global] Hint Resolve same_signature_key_pair : cdsame.
Lemma same_hpke_key_pair bs : fst (cd_hpke_key_pair bs) = de_hpke_key_pair bs.
Proof. unfold cd_hpke_key_pair, de_hpke_key_pair. same_tac. Qed.
#[global] Hint Resolve same_hpke_key_pair : cdsame.
Lemma same_content_type bs : fst (cd_content_type bs) = de_content_type bs.
Proof. unfold cd_content_type, de_content_type. same_tac. Qed.
#[global] Hint Resolve same_content_type : cdsame.
Lemma same_sender_type bs : fst (cd_sender_type bs) = de_sender_type bs.
Proof. unfold cd_sender_type, de_sender_type. same_tac. Qed.
#[global] Hint Resolve same_sender_type : cdsame.
Lemma same_sender bs : fst (cd_sender bs) = de_sender bs.
Proof. unfold cd_sender, de_sender. same_tac. Qed.
#[global] Hint Resolve same_sender : cdsame.
Lemma same_wire_format bs : fst (cd_wire_format bs) = de_wire_format bs.
Proof. unfold cd_wire_format, de_wire_format. same_tac. Qed.
#[global] Hint Resolve same_wire_format : cdsame.
Lemma same_extension bs : fst (cd_extension bs) = de_extension bs.
Proof. unfold cd_extension, de_extension. same_tac. Qed.
#[global] Hint Resolve same_extension : cdsame.
Lemma same_extensions bs : fst (cd_extensions bs) = de_extensions bs.
Proof. unfold cd_extensions, de_extensions. same_tac. Qed.
#[global] Hint Resolve same_extensions : cdsame.
Lemma same_application_id bs : fst (cd_application_id bs) = de_application_id bs.
Proof. unfold cd_application_id, de_application_id. same_tac. Qed.
#[global] Hint Resolve same_application_id : cdsame.
Lemma same_unknown_extension bs : fst (cd_unknown_extension bs) = de_unknown_extension bs.
Proof. unfold cd_unknown_extension, de_unknown_extension. same_tac. Qed.
#[global] Hint Resolve same_unknown_extension : cdsame.
Lemma same_external_pub bs : fst (cd_external_pub bs) = de_external_pub bs.
Proof. unfold cd_external_pub, de_external_pub. same_tac. Qed.
#[global] Hint Resolve same_external_pub : cdsame.
Lemma same_external_senders bs : fst (cd_external_senders bs) = de_external_senders bs.
Proof. unfold cd_external_senders, de_external_senders. same_tac. Qed.
#[global] Hint Resolve same_external_senders : cdsame.
Lemma same_proposal_type bs : fst (cd_proposal_type bs) = de_proposal_type bs.
Proof. unfold cd_proposal_type, de_proposal_type. same_tac. Qed.
#[global] Hint Resolve same_proposal_type : cdsame.
Lemma same_u16_as {A} (g : N -> A) bs : fst (cd_u16_as g bs) = de_u16_as g bs.
Proof. unfold cd_u16_as, de_u16_as. same_tac. Qed.
#[global] Hint Resolve same_u16_as : cdsame.
Lemma same_required_capabilities bs : fst (cd_required_capabilities bs) = de_required_capabilities bs.
Proof. unfold cd_required_capabilities, de_required_capabilities. same_tac. Qed.
#[global] Hint Resolve same_required_capabilities : cdsame.
Lemma same_lifetime bs : fst (cd_lifetime bs) = de_lifetime bs.
Proof. unfold cd_lifetime, de_lifetime. same_tac. Qed.
#[global] Hint Resolve same_lifetime : cdsame.
Lemma same_leaf_node_source bs : fst (cd_leaf_node_source bs) = de_leaf_node_source bs.
Proof. unfold cd_leaf_node_source, de_leaf_node_source. same_tac. Qed.
#[global] Hint Resolve same_leaf_node_source : cdsame.
Lemma same_capabilities bs : fst (cd_capabilities bs) = de_capabilities bs.
Proof. unfold cd_capabilities, de_capabilities. same_tac. Qed.
#[global] Hint Resolve same_capabilities : cdsame.
Lemma same_leaf_payload bs : fst (cd_leaf_payload bs) = de_leaf_payload bs.
Proof. unfold cd_leaf_payload, de_leaf_payload. same_tac. Qed.
#[global] Hint Resolve same_leaf_payload : cdsame.
Lemma same_leaf_node bs : fst (cd_leaf_node bs) = de_leaf_node bs.
Proof. unfold cd_leaf_node, de_leaf_node. same_tac. Qed.
#[global] Hint Resolve same_leaf_node : cdsame.
Lemma same_unmerged_leaf bs : fst (cd_unmerged_leaf bs) = de_unmerged_leaf bs.
Proof. unfold cd_unmerged_leaf, de_unmerged_leaf. same_tac. Qed.
#[global] Hint Resolve same_unmerged_leaf : cdsame.
Lemma same_parent_node bs : fst (cd_parent_node bs) = de_parent_node bs.
Proof. unfold cd_parent_node, de_parent_node. same_tac. Qed.
#[global] Hint Resolve same_parent_node : cdsame.
Lemma same_hpke_ciphertext bs : fst (cd_hpke_ciphertext bs) = de_hpke_ciphertext bs.
Proof. unfold cd_hpke_ciphertext, de_hpke_ciphertext. same_tac. Qed.
#[global] Hint Resolve same_hpke_ciphertext : cdsame.
Lemma same_update_path_node bs : fst (cd_update_path_node bs) = de_update_path_node bs.
Proof. unfold cd_update_path_node, de_update_path_node. same_tac. Qed.
#[global] Hint Resolve same_update_path_node : cdsame.
Lemma same_update_path bs : fst (cd_update_path bs) = de_update_path bs.
Proof. unfold cd_update_path, de_update_path. same_tac. Qed.
#[global] Hint Resolve same_update_path : cdsame.
Lemma same_node_type bs : fst (cd_node_type bs) = de_node_type bs.
Proof. unfold cd_node_type, de_node_type. same_tac. Qed.
#[global] Hint Resolve same_node_type : cdsame.
Lemma same_node bs : fst (cd_node bs) = de_node bs.
Proof. unfold cd_node, de_node. same_tac. Qed.
#[global] Hint Resolve same_node : cdsame.
Lemma same_ratchet_tree bs : fst (cd_ratchet_tree bs) = de_ratchet_tree bs.
Proof. unfold cd_ratchet_tree, de_ratchet_tree. same_tac. Qed.
#[global] Hint Resolve same_ratchet_tree : cdsame.
Lemma same_ratchet_tree_extension bs : fst (cd_ratchet_tree_extension bs) = de_ratchet_tree_extension bs.
Proof. unfold cd_ratchet_tree_extension, de_ratchet_tree_extension. same_tac. Qed.
#[global] Hint Resolve same_ratchet_tree_extension : cdsame.
Lemma same_key_package_ref bs : fst (cd_key_package_ref bs) = de_key_package_ref bs.
Proof. unfold cd_key_package_ref, de_key_package_ref. same_tac. Qed.
#[global] Hint Resolve same_key_package_ref : cdsame.
Lemma same_key_package_tbs bs : fst (cd_key_package_tbs bs) = de_key_package_tbs bs.
Proof. unfold cd_key_package_tbs, de_key_package_tbs. same_tac. Qed.
#[global] Hint Resolve same_key_package_tbs : cdsame.
Lemma same_key_package bs : fst (cd_key_package bs) = de_key_package bs.
Proof. unfold cd_key_package, de_key_package. same_tac. Qed.
#[global] Hint Resolve same_key_package : cdsame.
Lemma same_group_context bs : fst (cd_group_context bs) = de_group_context bs.
Proof. unfold cd_group_context, de_group_context. same_tac. Qed.
#[global] Hint Resolve same_group_context : cdsame.
Lemma same_psk_type bs : fst (cd_psk_type bs) = de_psk_type bs.
Proof. unfold cd_psk_type, de_psk_type. same_tac. Qed.
#[global] Hint Resolve same_psk_type : cdsame.
Lemma same_psk_usage bs : fst (cd_psk_usage bs) = de_psk_usage bs.
Proof. unfold cd_psk_usage, de_psk_usage. same_tac. Qed.
#[global] Hint Resolve same_psk_usage : cdsame.
Lemma same_resumption bs : fst (cd_resumption bs) = de_resumption bs.
Proof. unfold cd_resumption, de_resumption. same_tac. Qed.
#[global] Hint Resolve same_resumption : cdsame.
Lemma same_psk bs : fst (cd_psk bs) = de_psk bs.
Proof. unfold cd_psk, de_psk. same_tac. Qed.
#[global] Hint Resolve same_psk : cdsame.
Lemma same_psk_id bs : fst (cd_psk_id bs) = de_psk_id bs.
Proof. unfold cd_psk_id, de_psk_id. same_tac. Qed.
#[global] Hint Resolve same_psk_id : cdsame.
Lemma same_psk_label bs : fst (cd_psk_label bs) = de_psk_label bs.
Proof. unfold cd_psk_label, de_psk_label. same_tac. Qed.
#[global] Hint Resolve same_psk_label : cdsame.
Lemma same_add_proposal bs : fst (cd_add_proposal bs) = de_add_proposal bs.
Proof. unfold cd_add_proposal, de_add_proposal. same_tac. Qed.
#[global] Hint Resolve same_add_proposal : cdsame.
Lemma same_update_proposal bs : fst (cd_update_proposal bs) = de_update_proposal bs.
Proof. unfold cd_update_proposal, de_update_proposal. same_tac. Qed.
#[global] Hint Resolve same_update_proposal : cdsame.
Lemma same_remove_proposal bs : fst (cd_remove_proposal bs) = de_remove_proposal bs.
Proof. unfold cd_remove_proposal, de_remove_proposal. same_tac. Qed.
#[global] Hint Resolve same_remove_proposal : cdsame.
Lemma same_psk_proposal bs : fst (cd_psk_proposal bs) = de_psk_proposal bs.
Proof. unfold cd_psk_proposal, de_psk_proposal. same_tac. Qed.
#[global] Hint Resolve same_psk_proposal : cdsame.
Lemma same_reinit_proposal bs : fst (cd_reinit_proposal bs) = de_reinit_proposal bs.
Proof. unfold cd_reinit_proposal, de_reinit_proposal. same_tac. Qed.
#[global] Hint Resolve same_reinit_proposal : cdsame.
Lemma same_external_init_proposal bs : fst (cd_external_init_proposal bs) = de_external_init_proposal bs.
Proof. unfold cd_external_init_proposal, de_external_init_proposal. same_tac. Qed.
#[global] Hint Resolve same_external_init_proposal : cdsame.
Lemma same_gce_proposal bs : fst (cd_gce_proposal bs) = de_gce_proposal bs.
Proof. unfold cd_gce_proposal, de_gce_proposal. same_tac. Qed.
#[global] Hint Resolve same_gce_proposal : cdsame.
Lemma same_proposal bs : fst (cd_proposal bs) = de_proposal bs.
Proof. unfold cd_proposal, de_proposal. same_tac. Qed.
#[global] Hint Resolve same_proposal : cdsame.
Lemma same_proposal_or_ref bs : fst (cd_proposal_or_ref bs) = de_proposal_or_ref bs.
Proof. unfold cd_proposal_or_ref, de_proposal_or_ref. same_tac. Qed.
#[global] Hint Resolve same_proposal_or_ref : cdsame.
Lemma same_commit bs : fst (cd_commit bs) = de_commit bs.
Proof. unfold cd_commit, de_commit. same_tac. Qed.
#[global] Hint Resolve same_commit : cdsame.
Lemma same_content bs : fst (cd_content bs) = de_content bs.
Proof. unfold cd_content, de_content. same_tac. Qed.
#[global] Hint Resolve same_content : cdsame.
Lemma same_framed_content bs : fst (cd_framed_content bs) = de_framed_content bs.
Proof. unfold cd_framed_content, de_framed_content. same_tac. Qed.
#[global] Hint Resolve same_framed_content : cdsame.
Lemma same_auth_data ct bs : fst (cd_auth_data ct bs) = de_auth_data ct bs.
Proof. unfold cd_auth_data, de_auth_data. same_tac. Qed.
#[global] Hint Resolve same_auth_data : cdsame.
Lemma same_auth_content bs : fst (cd_auth_content bs) = de_auth_content bs.
Proof. unfold cd_auth_content, de_auth_content. same_tac. Qed.
#[global] Hint Resolve same_auth_content : cdsame.
Lemma same_framed_content_tbs bs : fst (cd_framed_content_tbs bs) = de_framed_content_tbs bs.
Proof. unfold cd_framed_content_tbs, de_framed_content_tbs. same_tac. Qed.
#[global] Hint Resolve same_framed_content_tbs : cdsame.
Lemma same_auth_content_tbm bs : fst (cd_auth_content_tbm bs) = de_auth_content_tbm bs.
Proof. unfold cd_auth_content_tbm, de_auth_content_tbm. same_tac. Qed.
#[global] Hint Resolve same_auth_content_tbm : cdsame.
Lemma same_sender_data bs : fst (cd_sender_data bs) = de_sender_data bs.
Proof. unfold cd_sender_data, de_sender_data. same_tac. Qed.
#[global] Hint Resolve same_sender_data : cdsame.
Lemma same_public_message bs : fst (cd_public_message bs) = de_public_message bs.
Proof. unfold cd_public_message, de_public_message. same_tac. Qed.
#[global] Hint Resolve same_public_message : cdsame.
Lemma same_private_message bs : fst (cd_private_message bs) = de_private_message bs.
Proof. unfold cd_private_message, de_private_message. same_tac. Qed.
#[global] Hint Resolve same_private_message : cdsame.
Lemma same_private_content ct bs : fst (cd_private_content ct bs) = de_private_content ct bs.
Proof. unfold cd_private_content, de_private_content. same_tac. Qed.
#[global] Hint Resolve same_private_content : cdsame.
Lemma same_private_content_aad bs : fst (cd_private_content_aad bs) = de_private_content_aad bs.
Proof. unfold cd_private_content_aad, de_private_content_aad. same_tac. Qed.
#[global] Hint Resolve same_private_content_aad : cdsame.
Lemma same_group_info bs : fst (cd_group_info bs) = de_group_info bs.
Proof. unfold cd_group_info, de_group_info. same_tac. Qed.
#[global] Hint Resolve same_group_info : cdsame.
Lemma same_group_secrets bs : fst (cd_group_secrets bs) = de_group_secrets bs.
Proof. unfold cd_group_secrets, de_group_secrets. same_tac. Qed.
#[global] Hint Resolve same_group_secrets : cdsame.
Lemma same_egs bs : fst (cd_egs bs) = de_egs bs.
Proof. unfold cd_egs, de_egs. same_tac. Qed.
#[global] Hint Resolve same_egs : cdsame.
Lemma same_welcome bs : fst (cd_welcome bs) = de_welcome bs.
Proof. unfold cd_welcome, de_welcome. same_tac. Qed.
#[global] Hint Resolve same_welcome : cdsame.
Lemma same_wire_message bs : fst (cd_wire_message bs) = de_wire_message bs.
Proof. unfold cd_wire_message, de_wire_message. same_tac. Qed.
#[global] Hint Resolve same_wire_message : cdsame.
Lemma same_mls_message bs : fst (cd_mls_message bs) = de_mls_message bs.
Proof. unfold cd_mls_message, de_mls_message. same_tac. Qed.
#[global] Hint Resolve same_mls_message : cdsame.
Lemma same_confirmed_input bs : fst (cd_confirmed_input bs) = de_confirmed_input bs.
Proof. unfold cd_confirmed_input, de_confirmed_input. same_tac. Qed.
#[global] Hint Resolve same_confirmed_input : cdsame.

(** * The steps are at least the bytes read, and at most a multiple of them *)

Definition spent {A} (K n : N) (m : counted (A * bytes)) : Prop :=
  match fst m with
  | Ok (_, r) => blen r <= n /\ n <= snd m + blen r /\ snd m + K * blen r <= K * n
  | _ => snd m <= K * n
  end.
Definition linear {A} (K : N) (f : bytes -> counted (A * bytes)) : Prop := forall bs, spent K (blen bs) (f bs).

Lemma spent_bind {A B} K n (m : counted (A * bytes)) (k : A * bytes -> counted (B * bytes)) :
  spent K n m -> (forall a r, spent K (blen r) (k (a, r))) -> spent K n (cbind m k).
Proof.
  unfold spent, cbind. destruct m as [[[a r]|e| |] c]; cbn [fst snd]; try (intros; assumption).
  intros [L [H1 H2]] G. specialize (G a r). destruct (fst (k (a, r))) as [[b r']|e| |]; lia.
Qed.
Lemma spent_free {A B} K n (m : res A) (k : A -> counted (B * bytes)) : (forall a, spent K n (k a)) -> spent K n (cbind (uncounted m) k).
Proof. unfold spent, cbind, uncounted. destruct m as [a|e| |]; cbn [fst snd]; intro H; try apply N.le_0_l. exact (H a). Qed.
Lemma spent_ret {A} K (a : A) r : spent K (blen r) (ret (a, r)).
Proof. unfold spent, ret; cbn [fst snd]. lia. Qed.
Lemma spent_fail {A} K n e : spent (A := A) K n (fail e).
Proof. unfold spent, fail; cbn [fst snd]. apply N.le_0_l. Qed.
Lemma linear_weaken {A} K K' (f : bytes -> counted (A * bytes)) : linear K f -> K <= K' -> forall bs, spent K' (blen bs) (f bs).
Proof.
  intros H L bs. specialize (H bs). unfold spent in *. destruct (fst (f bs)) as [[a r]|e| |]; try (etransitivity; [exact H|apply N.mul_le_mono_r, L]).
  destruct H as [H0 [H1 H2]]. repeat split; try assumption. nia.
Qed.

Lemma spent_get k : linear 1 (c_get_be k).
Proof.
  intro bs. unfold spent, c_get_be, get_be; cbn [fst snd]. destruct (Nat.ltb_spec (length bs) k) as [L|L]; [lia|].
  unfold blen. rewrite skipn_length. lia.
Qed.
Lemma spent_read k : linear 1 (c_read k).
Proof. intro bs. unfold c_read. apply spent_free. intros _. apply spent_get. Qed.
Lemma linear_tail k : forall v, linear 1 (c_varint_tail k v).
Proof.
  induction k as [|k IH]; intros v bs; cbn [c_varint_tail]; [apply spent_ret|].
  apply spent_bind; [apply spent_read|]. intros b r. apply IH.
Qed.
Lemma linear_varint : linear 1 cd_varint.
Proof.
  intro bs. unfold cd_varint. apply spent_bind; [apply spent_read|]. intros b r. cbv zeta.
  destruct (_ =? 3); [apply spent_fail|]. apply spent_bind; [apply linear_tail|]. intros v r'.
  destruct (_ && _); [apply spent_fail|apply spent_ret].
Qed.
Lemma varint_progress bs n r : fst (cd_varint bs) = Ok (n, r) -> blen r + 1 <= blen bs.
Proof.
  unfold cd_varint, cbind. destruct (c_read_u8 bs) as [[[b r0]|e| |] c] eqn:E; cbn [fst snd]; try discriminate.
  assert (Hr : blen r0 + 1 <= blen bs).
  { unfold c_read_u8, c_read, cbind, uncounted, need, c_get_be, get_be in E. cbn [fst snd] in E.
    destruct (Nat.ltb_spec (length bs) 1) as [L|L]; cbn [fst snd] in E; [discriminate|].
    inversion E; subst. unfold blen. destruct bs; cbn [length] in *; lia. }
  destruct (_ =? 3); [discriminate|].
  pose proof (linear_tail (N.to_nat (N.shiftl 1 (N.shiftr b 6) - 1)) (N.land b 63) r0) as H. unfold spent in H.
  destruct (fst (c_varint_tail _ _ r0)) as [[v r1]|e| |]; cbn [fst snd]; try discriminate.
  destruct (_ && _); [discriminate|]. cbn. intro Q. inversion Q; subst. lia.
Qed.
Lemma linear_opaque : linear 2 cd_opaque.
Proof.
  intro bs. pose proof (linear_varint bs) as H. pose proof (varint_progress bs) as P. unfold spent in H.
  unfold cd_opaque, cbind, spent. destruct (cd_varint bs) as [[[n r]|e| |] c]; cbn [fst snd] in *; try lia.
  specialize (P n r eq_refl). fold (blen r). destruct (N.ltb_spec (blen r) n) as [L|L]; [unfold fail; cbn [fst snd]; lia|].
  unfold c_copy, copy_to_bytes. fold (blen r). destruct (N.ltb_spec (blen r) n) as [?|_]; [lia|]. cbn [fst snd].
  unfold blen in *. rewrite skipn_length. lia.
Qed.
Lemma spent_copy n bs : 1 <= n -> spent 2 (blen bs) (c_copy n bs).
Proof.
  intro L1. unfold spent, c_copy, copy_to_bytes. fold (blen bs). destruct (N.ltb_spec (blen bs) n) as [L|L]; cbn [fst snd]; [lia|].
  unfold blen in *. rewrite skipn_length. lia.
Qed.
Lemma loop_steps {A} K (f : bytes -> counted (A * bytes)) : linear K f -> forall k bs,
  snd (c_vec_loop f k bs) <= N.of_nat k + K * blen bs /\ (forall l, fst (c_vec_loop f k bs) = Ok l -> (length l <= k)%nat).
Proof.
  intros H k. induction k as [|k IH]; intros [|b bs]; cbn [c_vec_loop].
  1, 3: split; [apply N.le_0_l|intros l E; inversion E; apply Nat.le_0_l].
  { split; [apply N.le_0_l|discriminate]. }
  set (s := b :: bs). specialize (H s). unfold spent in H. unfold costing, cbind, ret. cbn [fst snd].
  destruct (fst (f s)) as [[a r]|e| |]; cbn [fst snd]; try (split; [lia|discriminate]).
  destruct (IH r) as [I1 I2]. destruct (fst (c_vec_loop f k r)) as [l|e| |]; cbn [fst snd]; try (split; [lia|discriminate]).
  split; [lia|]. intros l' E. inversion E; subst. specialize (I2 l eq_refl). cbn [length]. lia.
Qed.
(** What a vector of such elements costs besides: the bytes once more, and one step per element. *)
Lemma vector_steps {A} K (f : bytes -> counted (A * bytes)) : linear K f -> forall bs,
  match fst (cd_vector f bs) with
  | Ok (l, r) => blen r + 1 <= blen bs /\ blen bs <= snd (cd_vector f bs) + blen r /\ N.of_nat (length l) + 1 + blen r <= blen bs /\
                 snd (cd_vector f bs) + (K + 2) * blen r <= (K + 2) * blen bs
  | _ => snd (cd_vector f bs) <= (K + 2) * blen bs
  end.
Proof.
  intros F bs. pose proof (linear_varint bs) as H. pose proof (varint_progress bs) as P. unfold spent in H.
  unfold cd_vector, cbind, ret. destruct (cd_varint bs) as [[[n r]|e| |] c]; cbn [fst snd] in *; try lia.
  specialize (P n r eq_refl). fold (blen r). destruct (N.ltb_spec (blen r) n) as [L|L]; [unfold fail; cbn [fst snd]; lia|].
  unfold c_copy, copy_to_bytes. fold (blen r). destruct (N.ltb_spec (blen r) n) as [?|_]; [lia|]. cbn [fst snd].
  set (v := firstn (N.to_nat n) r). assert (Lv : blen v = n) by (unfold v, blen in *; rewrite firstn_length; lia).
  assert (Lr : blen (skipn (N.to_nat n) r) = blen r - n) by (unfold blen in *; rewrite skipn_length; lia).
  destruct (loop_steps K f F (length v) v) as [S1 S2]. fold (blen v) in S1. rewrite Lv in S1.
  destruct (fst (c_vec_loop f (length v) v)) as [l|e| |]; cbn [fst snd].
  2-4: nia.
  specialize (S2 l eq_refl). unfold blen in Lv. rewrite Lr. repeat split; nia.
Qed.
Lemma linear_vector {A} K (f : bytes -> counted (A * bytes)) : linear K f -> linear (K + 2) (cd_vector f).
Proof. intros F bs. pose proof (vector_steps K f F bs) as H. unfold spent. destruct (fst (cd_vector f bs)) as [[l r]|e| |]; [|exact H..]. lia. Qed.
Lemma linear_optflag : linear 1 cd_optflag.
Proof.
  intro bs. unfold cd_optflag. apply spent_bind; [apply spent_read|]. intros b r.
  destruct (b =? 0); [apply spent_ret|]. destruct (b =? 1); [apply spent_ret|apply spent_fail].
Qed.
Lemma linear_option {A} K (f : bytes -> counted (A * bytes)) : 1 <= K -> linear K f -> linear K (cd_option f).
Proof.
  intros L F bs. unfold cd_option. apply spent_bind; [apply (linear_weaken 1); [apply linear_optflag|exact L]|]. intros [|] r.
  - apply spent_bind; [apply F|]. intros a r'. apply spent_ret.
  - apply spent_ret.
Qed.
Lemma pad_steps k : forall t, snd (c_pad_blank k t) <= N.of_nat k.
Proof. induction k as [|k IH]; intro t; cbn [c_pad_blank]; destruct (is_power_of_two _); cbn [snd ret uncounted]; try lia. unfold costing; cbn [snd]. specialize (IH (t ++ [None])%list). lia. Qed.
Lemma padding_steps bs : snd (c_check_padding bs) <= blen bs.
Proof.
  induction bs as [|b bs IH]; cbn [c_check_padding]; [cbn; lia|]. unfold costing, blen in *. cbn [snd length].
  destruct (b2n b =? 0); cbn [snd fail]; lia.
Qed.

Create HintDb cdlin.
Ltac lin_leaf := first
  [ apply spent_ret | apply spent_fail
  | eapply linear_weaken; [solve [eauto with cdlin] | lia]
  | apply (linear_weaken 1); [apply spent_read | lia] | apply (linear_weaken 1); [apply spent_get | lia]
  | apply (linear_weaken 2); [apply linear_opaque | lia]
  | eapply linear_weaken; [apply linear_vector; solve [eauto with cdlin] | lia] ].
Ltac lin_tac :=
  repeat first
    [ lin_leaf
    | apply spent_free; intro; cbn beta iota
    | apply spent_bind; [ | intros ? ?; cbn beta iota ]
    | match goal with
      | |- spent _ _ (match ?x with _ => _ end) => destruct x
      end ].
#[global] Hint Resolve linear_opaque : cdlin.

Lemma linear_secret_key : linear 2 cd_secret_key.
Proof. intro bs. unfold cd_secret_key. lin_tac. Qed.
#[global] Hint Resolve linear_secret_key : cdlin.
Lemma linear_identity : linear 2 cd_identity.
Proof. intro bs. unfold cd_identity. lin_tac. Qed.
#[global] Hint Resolve linear_identity : cdlin.
Lemma linear_certificate : linear 2 cd_certificate.
Proof. intro bs. unfold cd_certificate. lin_tac. Qed.
#[global] Hint Resolve linear_certificate : cdlin.
Lemma linear_credential : linear 4 cd_credential.
Proof. intro bs. unfold cd_credential. lin_tac. Qed.
#[global] Hint Resolve linear_credential : cdlin.
Lemma linear_signature_scheme : linear 1 cd_signature_scheme.
Proof. intro bs. unfold cd_signature_scheme. lin_tac. Qed.
#[global] Hint Resolve linear_signature_scheme : cdlin.
Lemma linear_signature_key_pair : linear 2 cd_signature_key_pair.
Proof. intro bs. unfold cd_signature_key_pair. lin_tac. Qed.
#[global] Hint Resolve linear_signature_key_pair : cdlin.
Lemma linear_hpke_key_pair : linear 2 cd_hpke_key_pair.
Proof. intro bs. unfold cd_hpke_key_pair. lin_tac. Qed.
#[global] Hint Resolve linear_hpke_key_pair : cdlin.
Lemma linear_content_type : linear 1 cd_content_type.
Proof. intro bs. unfold cd_content_type. lin_tac. Qed.
#[global] Hint Resolve linear_content_type : cdlin.
Lemma linear_sender_type : linear 1 cd_sender_type.
Proof. intro bs. unfold cd_sender_type. lin_tac. Qed.
#[global] Hint Resolve linear_sender_type : cdlin.
Lemma linear_sender : linear 1 cd_sender.
Proof. intro bs. unfold cd_sender. lin_tac. Qed.
#[global] Hint Resolve linear_sender : cdlin.
Lemma linear_wire_format : linear 1 cd_wire_format.
Proof. intro bs. unfold cd_wire_format. lin_tac. Qed.
#[global] Hint Resolve linear_wire_format : cdlin.
Lemma linear_extension : linear 2 cd_extension.
Proof. intro bs. unfold cd_extension. lin_tac. Qed.
#[global] Hint Resolve linear_extension : cdlin.
Lemma linear_extensions : linear 4 cd_extensions.
Proof. intro bs. unfold cd_extensions. lin_tac. Qed.
#[global] Hint Resolve linear_extensions : cdlin.
Lemma linear_application_id : linear 2 cd_application_id.
Proof. intro bs. unfold cd_application_id. lin_tac. Qed.
#[global] Hint Resolve linear_application_id : cdlin.
Lemma linear_unknown_extension : linear 2 cd_unknown_extension.
Proof. intro bs. unfold cd_unknown_extension. lin_tac. Qed.
#[global] Hint Resolve linear_unknown_extension : cdlin.
Lemma linear_external_pub : linear 2 cd_external_pub.
Proof. intro bs. unfold cd_external_pub. lin_tac. Qed.
#[global] Hint Resolve linear_external_pub : cdlin.
Lemma linear_external_senders : linear 4 cd_external_senders.
Proof. intro bs. unfold cd_external_senders. lin_tac. Qed.
#[global] Hint Resolve linear_external_senders : cdlin.
Lemma linear_proposal_type : linear 1 cd_proposal_type.
Proof. intro bs. unfold cd_proposal_type. lin_tac. Qed.
#[global] Hint Resolve linear_proposal_type : cdlin.
Lemma linear_u16_as {A} (g : N -> A) : linear 1 (cd_u16_as g).
Proof. intro bs. unfold cd_u16_as. lin_tac. Qed.
#[global] Hint Resolve linear_u16_as : cdlin.
Lemma linear_required_capabilities : linear 3 cd_required_capabilities.
Proof. intro bs. unfold cd_required_capabilities. lin_tac. Qed.
#[global] Hint Resolve linear_required_capabilities : cdlin.
Lemma linear_lifetime : linear 1 cd_lifetime.
Proof. intro bs. unfold cd_lifetime. lin_tac. Qed.
#[global] Hint Resolve linear_lifetime : cdlin.
Lemma linear_leaf_node_source : linear 2 cd_leaf_node_source.
Proof. intro bs. unfold cd_leaf_node_source. lin_tac. Qed.
#[global] Hint Resolve linear_leaf_node_source : cdlin.
Lemma linear_capabilities : linear 3 cd_capabilities.
Proof. intro bs. unfold cd_capabilities. lin_tac. Qed.
#[global] Hint Resolve linear_capabilities : cdlin.
Lemma linear_leaf_payload : linear 4 cd_leaf_payload.
Proof. intro bs. unfold cd_leaf_payload. lin_tac. Qed.
#[global] Hint Resolve linear_leaf_payload : cdlin.
Lemma linear_leaf_node : linear 4 cd_leaf_node.
Proof. intro bs. unfold cd_leaf_node. lin_tac. Qed.
#[global] Hint Resolve linear_leaf_node : cdlin.
Lemma linear_unmerged_leaf : linear 1 cd_unmerged_leaf.
Proof. intro bs. unfold cd_unmerged_leaf. lin_tac. Qed.
#[global] Hint Resolve linear_unmerged_leaf : cdlin.
Lemma linear_parent_node : linear 3 cd_parent_node.
Proof. intro bs. unfold cd_parent_node. lin_tac. Qed.
#[global] Hint Resolve linear_parent_node : cdlin.
Lemma linear_hpke_ciphertext : linear 2 cd_hpke_ciphertext.
Proof. intro bs. unfold cd_hpke_ciphertext. lin_tac. Qed.
#[global] Hint Resolve linear_hpke_ciphertext : cdlin.
Lemma linear_update_path_node : linear 4 cd_update_path_node.
Proof. intro bs. unfold cd_update_path_node. lin_tac. Qed.
#[global] Hint Resolve linear_update_path_node : cdlin.
Lemma linear_update_path : linear 6 cd_update_path.
Proof. intro bs. unfold cd_update_path. lin_tac. Qed.
#[global] Hint Resolve linear_update_path : cdlin.
Lemma linear_node_type : linear 1 cd_node_type.
Proof. intro bs. unfold cd_node_type. lin_tac. Qed.
#[global] Hint Resolve linear_node_type : cdlin.
Lemma linear_node : linear 4 cd_node.
Proof. intro bs. unfold cd_node. lin_tac. Qed.
#[global] Hint Resolve linear_node : cdlin.
Lemma linear_ratchet_tree : linear 7 cd_ratchet_tree.
Proof.
  intro bs. pose proof (vector_steps 4 (cd_option cd_node) (linear_option 4 cd_node ltac:(lia) linear_node) bs) as H.
  unfold spent, cd_ratchet_tree, cbind, ret. destruct (cd_vector (cd_option cd_node) bs) as [[[l r]|e| |] c]; cbn [fst snd] in *; try lia.
  pose proof (pad_steps (length l + 1) l) as S. destruct (fst (c_pad_blank (length l + 1) l)); cbn [fst snd]; lia.
Qed.
#[global] Hint Resolve linear_ratchet_tree : cdlin.
Lemma linear_ratchet_tree_extension : linear 7 cd_ratchet_tree_extension.
Proof. intro bs. unfold cd_ratchet_tree_extension. lin_tac. Qed.
#[global] Hint Resolve linear_ratchet_tree_extension : cdlin.
Lemma linear_key_package_ref : linear 2 cd_key_package_ref.
Proof. intro bs. unfold cd_key_package_ref. lin_tac. Qed.
#[global] Hint Resolve linear_key_package_ref : cdlin.
Lemma linear_key_package_tbs : linear 4 cd_key_package_tbs.
Proof. intro bs. unfold cd_key_package_tbs. lin_tac. Qed.
#[global] Hint Resolve linear_key_package_tbs : cdlin.
Lemma linear_key_package : linear 4 cd_key_package.
Proof. intro bs. unfold cd_key_package. lin_tac. Qed.
#[global] Hint Resolve linear_key_package : cdlin.
Lemma linear_group_context : linear 4 cd_group_context.
Proof. intro bs. unfold cd_group_context. lin_tac. Qed.
#[global] Hint Resolve linear_group_context : cdlin.
Lemma linear_psk_type : linear 1 cd_psk_type.
Proof. intro bs. unfold cd_psk_type. lin_tac. Qed.
#[global] Hint Resolve linear_psk_type : cdlin.
Lemma linear_psk_usage : linear 1 cd_psk_usage.
Proof. intro bs. unfold cd_psk_usage. lin_tac. Qed.
#[global] Hint Resolve linear_psk_usage : cdlin.
Lemma linear_resumption : linear 2 cd_resumption.
Proof. intro bs. unfold cd_resumption. lin_tac. Qed.
#[global] Hint Resolve linear_resumption : cdlin.
Lemma linear_psk : linear 2 cd_psk.
Proof. intro bs. unfold cd_psk. lin_tac. Qed.
#[global] Hint Resolve linear_psk : cdlin.
Lemma linear_psk_id : linear 2 cd_psk_id.
Proof. intro bs. unfold cd_psk_id. lin_tac. Qed.
#[global] Hint Resolve linear_psk_id : cdlin.
Lemma linear_psk_label : linear 2 cd_psk_label.
Proof. intro bs. unfold cd_psk_label. lin_tac. Qed.
#[global] Hint Resolve linear_psk_label : cdlin.
Lemma linear_add_proposal : linear 4 cd_add_proposal.
Proof. intro bs. unfold cd_add_proposal. lin_tac. Qed.
#[global] Hint Resolve linear_add_proposal : cdlin.
Lemma linear_update_proposal : linear 4 cd_update_proposal.
Proof. intro bs. unfold cd_update_proposal. lin_tac. Qed.
#[global] Hint Resolve linear_update_proposal : cdlin.
Lemma linear_remove_proposal : linear 1 cd_remove_proposal.
Proof. intro bs. unfold cd_remove_proposal. lin_tac. Qed.
#[global] Hint Resolve linear_remove_proposal : cdlin.
Lemma linear_psk_proposal : linear 2 cd_psk_proposal.
Proof. intro bs. unfold cd_psk_proposal. lin_tac. Qed.
#[global] Hint Resolve linear_psk_proposal : cdlin.
Lemma linear_reinit_proposal : linear 4 cd_reinit_proposal.
Proof. intro bs. unfold cd_reinit_proposal. lin_tac. Qed.
#[global] Hint Resolve linear_reinit_proposal : cdlin.
Lemma linear_external_init_proposal : linear 2 cd_external_init_proposal.
Proof. intro bs. unfold cd_external_init_proposal. lin_tac. Qed.
#[global] Hint Resolve linear_external_init_proposal : cdlin.
Lemma linear_gce_proposal : linear 4 cd_gce_proposal.
Proof. intro bs. unfold cd_gce_proposal. lin_tac. Qed.
#[global] Hint Resolve linear_gce_proposal : cdlin.
Lemma linear_proposal : linear 4 cd_proposal.
Proof. intro bs. unfold cd_proposal. lin_tac. Qed.
#[global] Hint Resolve linear_proposal : cdlin.
Lemma linear_proposal_or_ref : linear 4 cd_proposal_or_ref.
Proof. intro bs. unfold cd_proposal_or_ref. lin_tac. Qed.
#[global] Hint Resolve linear_proposal_or_ref : cdlin.
Lemma linear_commit : linear 6 cd_commit.
Proof. intro bs. unfold cd_commit. lin_tac. Qed.
#[global] Hint Resolve linear_commit : cdlin.
Lemma linear_content : linear 6 cd_content.
Proof. intro bs. unfold cd_content. lin_tac. Qed.
#[global] Hint Resolve linear_content : cdlin.
Lemma linear_framed_content : linear 6 cd_framed_content.
Proof. intro bs. unfold cd_framed_content. lin_tac. Qed.
#[global] Hint Resolve linear_framed_content : cdlin.
Lemma linear_auth_data ct : linear 2 (cd_auth_data ct).
Proof. intro bs. unfold cd_auth_data. lin_tac. Qed.
#[global] Hint Resolve linear_auth_data : cdlin.
Lemma linear_auth_content : linear 6 cd_auth_content.
Proof. intro bs. unfold cd_auth_content. lin_tac. Qed.
#[global] Hint Resolve linear_auth_content : cdlin.
Lemma linear_framed_content_tbs : linear 6 cd_framed_content_tbs.
Proof. intro bs. unfold cd_framed_content_tbs. lin_tac. Qed.
#[global] Hint Resolve linear_framed_content_tbs : cdlin.
Lemma linear_auth_content_tbm : linear 6 cd_auth_content_tbm.
Proof. intro bs. unfold cd_auth_content_tbm. lin_tac. Qed.
#[global] Hint Resolve linear_auth_content_tbm : cdlin.
Lemma linear_sender_data : linear 2 cd_sender_data.
Proof. intro bs. unfold cd_sender_data. lin_tac. apply spent_copy. lia. Qed.
#[global] Hint Resolve linear_sender_data : cdlin.
Lemma linear_public_message : linear 6 cd_public_message.
Proof. intro bs. unfold cd_public_message. lin_tac. Qed.
#[global] Hint Resolve linear_public_message : cdlin.
Lemma linear_private_message : linear 2 cd_private_message.
Proof. intro bs. unfold cd_private_message. lin_tac. Qed.
#[global] Hint Resolve linear_private_message : cdlin.
Lemma private_content_steps ct bs : snd (cd_private_content ct bs) <= 6 * blen bs.
Proof.
  unfold cd_private_content.
  assert (H : spent 6 (blen bs) (match ct with
    | CTApplication => let+ (d, bs) := cd_opaque bs in ret (CApplication d, bs)
    | CTProposal => let+ (p, bs) := cd_proposal bs in ret (CProposal p, bs)
    | CTCommit => let+ (m, bs) := cd_commit bs in ret (CCommit m, bs)
    end)) by lin_tac.
  unfold cbind at 1. unfold spent in H.
  match goal with |- context [match fst ?m with _ => _ end] => destruct m as [[[c r]|e| |] k] end; cbn [fst snd] in *; try lia.
  pose proof (linear_weaken 2 6 _ (linear_auth_data ct) ltac:(lia) r) as G. unfold spent in G.
  unfold cbind at 1. destruct (cd_auth_data ct r) as [[[a r']|e| |] k']; cbn [fst snd] in *; try lia.
  pose proof (padding_steps r') as S. unfold cbind, ret. destruct (fst (c_check_padding r')); cbn [fst snd]; lia.
Qed.
Lemma linear_private_content_aad : linear 2 cd_private_content_aad.
Proof. intro bs. unfold cd_private_content_aad. lin_tac. Qed.
#[global] Hint Resolve linear_private_content_aad : cdlin.
Lemma linear_group_info : linear 4 cd_group_info.
Proof. intro bs. unfold cd_group_info. lin_tac. Qed.
#[global] Hint Resolve linear_group_info : cdlin.
Lemma linear_group_secrets : linear 4 cd_group_secrets.
Proof. intro bs. unfold cd_group_secrets. lin_tac. Qed.
#[global] Hint Resolve linear_group_secrets : cdlin.
Lemma linear_egs : linear 2 cd_egs.
Proof. intro bs. unfold cd_egs. lin_tac. Qed.
#[global] Hint Resolve linear_egs : cdlin.
Lemma linear_welcome : linear 4 cd_welcome.
Proof. intro bs. unfold cd_welcome. lin_tac. Qed.
#[global] Hint Resolve linear_welcome : cdlin.
Lemma linear_wire_message : linear 6 cd_wire_message.
Proof. intro bs. unfold cd_wire_message. lin_tac. Qed.
#[global] Hint Resolve linear_wire_message : cdlin.
Lemma linear_mls_message : linear 6 cd_mls_message.
Proof. intro bs. unfold cd_mls_message. lin_tac. Qed.
#[global] Hint Resolve linear_mls_message : cdlin.
Lemma linear_confirmed_input : linear 6 cd_confirmed_input.
Proof. intro bs. unfold cd_confirmed_input. lin_tac. Qed.
#[global] Hint Resolve linear_confirmed_input : cdlin.

Lemma takes_of {A} (c : bytes -> counted (A * bytes)) f K : (forall bs, fst (c bs) = f bs) -> linear K c -> takes c f K.
Proof.
  intros S L bs. specialize (L bs). rewrite <- S. unfold spent, steps in *. fold (blen bs). split; [reflexivity|].
  destruct (fst (c bs)) as [[a r]|e| |]; (split; [try exact L; nia|]); intros a' rest E; inversion E; subst.
  fold (blen rest). exists (blen bs - blen rest). nia.
Qed.
Lemma takes_values :
  takes cd_secret_key de_secret_key 2 /\
  takes cd_identity de_identity 2 /\
  takes cd_certificate de_certificate 2 /\
  takes cd_credential de_credential 4 /\
  takes cd_signature_scheme de_signature_scheme 1 /\
  takes cd_signature_key_pair de_signature_key_pair 2 /\
  takes cd_hpke_key_pair de_hpke_key_pair 2 /\
  takes cd_extension de_extension 2 /\
  takes cd_extensions de_extensions 4 /\
  takes cd_application_id de_application_id 2 /\
  takes cd_unknown_extension de_unknown_extension 2 /\
  takes cd_external_pub de_external_pub 2 /\
  takes cd_external_senders de_external_senders 4 /\
  takes cd_proposal_type de_proposal_type 1 /\
  takes cd_required_capabilities de_required_capabilities 3 /\
  takes cd_lifetime de_lifetime 1 /\
  takes cd_leaf_node_source de_leaf_node_source 2 /\
  takes cd_capabilities de_capabilities 3.
Proof.
  split; [apply takes_of; [exact same_secret_key | exact linear_secret_key]|].
  split; [apply takes_of; [exact same_identity | exact linear_identity]|].
  split; [apply takes_of; [exact same_certificate | exact linear_certificate]|].
  split; [apply takes_of; [exact same_credential | exact linear_credential]|].
  split; [apply takes_of; [exact same_signature_scheme | exact linear_signature_scheme]|].
  split; [apply takes_of; [exact same_signature_key_pair | exact linear_signature_key_pair]|].
  split; [apply takes_of; [exact same_hpke_key_pair | exact linear_hpke_key_pair]|].
  split; [apply takes_of; [exact same_extension | exact linear_extension]|].
  split; [apply takes_of; [exact same_extensions | exact linear_extensions]|].
  split; [apply takes_of; [exact same_application_id | exact linear_application_id]|].
  split; [apply takes_of; [exact same_unknown_extension | exact linear_unknown_extension]|].
  split; [apply takes_of; [exact same_external_pub | exact linear_external_pub]|].
  split; [apply takes_of; [exact same_external_senders | exact linear_external_senders]|].
  split; [apply takes_of; [exact same_proposal_type | exact linear_proposal_type]|].
  split; [apply takes_of; [exact same_required_capabilities | exact linear_required_capabilities]|].
  split; [apply takes_of; [exact same_lifetime | exact linear_lifetime]|].
  split; [apply takes_of; [exact same_leaf_node_source | exact linear_leaf_node_source]|].
  apply takes_of; [exact same_capabilities | exact linear_capabilities].
Qed.
Lemma takes_tree :
  takes cd_leaf_payload de_leaf_payload 4 /\
  takes cd_leaf_node de_leaf_node 4 /\
  takes cd_unmerged_leaf de_unmerged_leaf 1 /\
  takes cd_parent_node de_parent_node 3 /\
  takes cd_hpke_ciphertext de_hpke_ciphertext 2 /\
  takes cd_update_path_node de_update_path_node 4 /\
  takes cd_update_path de_update_path 6 /\
  takes cd_node_type de_node_type 1 /\
  takes cd_node de_node 4 /\
  takes cd_ratchet_tree de_ratchet_tree 7 /\
  takes cd_ratchet_tree_extension de_ratchet_tree_extension 7.
Proof.
  split; [apply takes_of; [exact same_leaf_payload | exact linear_leaf_payload]|].
  split; [apply takes_of; [exact same_leaf_node | exact linear_leaf_node]|].
  split; [apply takes_of; [exact same_unmerged_leaf | exact linear_unmerged_leaf]|].
  split; [apply takes_of; [exact same_parent_node | exact linear_parent_node]|].
  split; [apply takes_of; [exact same_hpke_ciphertext | exact linear_hpke_ciphertext]|].
  split; [apply takes_of; [exact same_update_path_node | exact linear_update_path_node]|].
  split; [apply takes_of; [exact same_update_path | exact linear_update_path]|].
  split; [apply takes_of; [exact same_node_type | exact linear_node_type]|].
  split; [apply takes_of; [exact same_node | exact linear_node]|].
  split; [apply takes_of; [exact same_ratchet_tree | exact linear_ratchet_tree]|].
  apply takes_of; [exact same_ratchet_tree_extension | exact linear_ratchet_tree_extension].
Qed.
Lemma takes_joining :
  takes cd_key_package_ref de_key_package_ref 2 /\
  takes cd_key_package_tbs de_key_package_tbs 4 /\
  takes cd_key_package de_key_package 4 /\
  takes cd_group_context de_group_context 4 /\
  takes cd_psk_type de_psk_type 1 /\
  takes cd_psk_usage de_psk_usage 1 /\
  takes cd_resumption de_resumption 2 /\
  takes cd_psk de_psk 2 /\
  takes cd_psk_id de_psk_id 2 /\
  takes cd_psk_label de_psk_label 2 /\
  takes cd_group_info de_group_info 4 /\
  takes cd_group_secrets de_group_secrets 4 /\
  takes cd_egs de_egs 2 /\
  takes cd_welcome de_welcome 4.
Proof.
  split; [apply takes_of; [exact same_key_package_ref | exact linear_key_package_ref]|].
  split; [apply takes_of; [exact same_key_package_tbs | exact linear_key_package_tbs]|].
  split; [apply takes_of; [exact same_key_package | exact linear_key_package]|].
  split; [apply takes_of; [exact same_group_context | exact linear_group_context]|].
  split; [apply takes_of; [exact same_psk_type | exact linear_psk_type]|].
  split; [apply takes_of; [exact same_psk_usage | exact linear_psk_usage]|].
  split; [apply takes_of; [exact same_resumption | exact linear_resumption]|].
  split; [apply takes_of; [exact same_psk | exact linear_psk]|].
  split; [apply takes_of; [exact same_psk_id | exact linear_psk_id]|].
  split; [apply takes_of; [exact same_psk_label | exact linear_psk_label]|].
  split; [apply takes_of; [exact same_group_info | exact linear_group_info]|].
  split; [apply takes_of; [exact same_group_secrets | exact linear_group_secrets]|].
  split; [apply takes_of; [exact same_egs | exact linear_egs]|].
  apply takes_of; [exact same_welcome | exact linear_welcome].
Qed.
Lemma takes_messages :
  takes cd_add_proposal de_add_proposal 4 /\
  takes cd_update_proposal de_update_proposal 4 /\
  takes cd_remove_proposal de_remove_proposal 1 /\
  takes cd_psk_proposal de_psk_proposal 2 /\
  takes cd_reinit_proposal de_reinit_proposal 4 /\
  takes cd_external_init_proposal de_external_init_proposal 2 /\
  takes cd_gce_proposal de_gce_proposal 4 /\
  takes cd_proposal de_proposal 4 /\
  takes cd_proposal_or_ref de_proposal_or_ref 4 /\
  takes cd_commit de_commit 6 /\
  takes cd_content_type de_content_type 1 /\
  takes cd_sender_type de_sender_type 1 /\
  takes cd_sender de_sender 1 /\
  takes cd_wire_format de_wire_format 1 /\
  takes cd_content de_content 6 /\
  takes cd_framed_content de_framed_content 6 /\
  takes cd_auth_content de_auth_content 6 /\
  takes cd_framed_content_tbs de_framed_content_tbs 6 /\
  takes cd_auth_content_tbm de_auth_content_tbm 6 /\
  takes cd_sender_data de_sender_data 2 /\
  takes cd_public_message de_public_message 6 /\
  takes cd_private_message de_private_message 2 /\
  takes cd_private_content_aad de_private_content_aad 2 /\
  takes cd_wire_message de_wire_message 6 /\
  takes cd_mls_message de_mls_message 6 /\
  takes cd_confirmed_input de_confirmed_input 6.
Proof.
  split; [apply takes_of; [exact same_add_proposal | exact linear_add_proposal]|].
  split; [apply takes_of; [exact same_update_proposal | exact linear_update_proposal]|].
  split; [apply takes_of; [exact same_remove_proposal | exact linear_remove_proposal]|].
  split; [apply takes_of; [exact same_psk_proposal | exact linear_psk_proposal]|].
  split; [apply takes_of; [exact same_reinit_proposal | exact linear_reinit_proposal]|].
  split; [apply takes_of; [exact same_external_init_proposal | exact linear_external_init_proposal]|].
  split; [apply takes_of; [exact same_gce_proposal | exact linear_gce_proposal]|].
  split; [apply takes_of; [exact same_proposal | exact linear_proposal]|].
  split; [apply takes_of; [exact same_proposal_or_ref | exact linear_proposal_or_ref]|].
  split; [apply takes_of; [exact same_commit | exact linear_commit]|].
  split; [apply takes_of; [exact same_content_type | exact linear_content_type]|].
  split; [apply takes_of; [exact same_sender_type | exact linear_sender_type]|].
  split; [apply takes_of; [exact same_sender | exact linear_sender]|].
  split; [apply takes_of; [exact same_wire_format | exact linear_wire_format]|].
  split; [apply takes_of; [exact same_content | exact linear_content]|].
  split; [apply takes_of; [exact same_framed_content | exact linear_framed_content]|].
  split; [apply takes_of; [exact same_auth_content | exact linear_auth_content]|].
  split; [apply takes_of; [exact same_framed_content_tbs | exact linear_framed_content_tbs]|].
  split; [apply takes_of; [exact same_auth_content_tbm | exact linear_auth_content_tbm]|].
  split; [apply takes_of; [exact same_sender_data | exact linear_sender_data]|].
  split; [apply takes_of; [exact same_public_message | exact linear_public_message]|].
  split; [apply takes_of; [exact same_private_message | exact linear_private_message]|].
  split; [apply takes_of; [exact same_private_content_aad | exact linear_private_content_aad]|].
  split; [apply takes_of; [exact same_wire_message | exact linear_wire_message]|].
  split; [apply takes_of; [exact same_mls_message | exact linear_mls_message]|].
  apply takes_of; [exact same_confirmed_input | exact linear_confirmed_input].
Qed.

Lemma takes_auth_data ct : takes (cd_auth_data ct) (de_auth_data ct) 2.
Proof. apply takes_of; [exact (same_auth_data ct) | exact (linear_auth_data ct)]. Qed.
Lemma takes_private_content ct bs :
  fst (cd_private_content ct bs) = de_private_content ct bs /\ steps (cd_private_content ct bs) <= 6 * N.of_nat (length bs).
Proof. split; [apply same_private_content|apply private_content_steps]. Qed.
Lemma linear_of {A} (c : bytes -> counted (A * bytes)) f K : takes c f K -> linear K c.
Proof.
  intros T bs. destruct (T bs) as [S [L H]]. unfold spent, steps in *. fold (blen bs) in L. rewrite <- S in H.
  destruct (fst (c bs)) as [[a r]|e| |]; [|exact L..]. destruct (H a r eq_refl) as [n [E [H1 H2]]]. fold (blen bs) (blen r) in E. nia.
Qed.
Lemma takes_vector {A} (c : bytes -> counted (A * bytes)) f K : takes c f K -> takes (cd_vector c) (de_vector f) (K + 2).
Proof. intro T. apply takes_of; [apply same_vector; intro bs; apply (T bs)|apply linear_vector, (linear_of c f), T]. Qed.
Lemma takes_option {A} (c : bytes -> counted (A * bytes)) f K : 1 <= K -> takes c f K -> takes (cd_option c) (de_option f) K.
Proof. intros L T. apply takes_of; [apply same_option; intro bs; apply (T bs)|apply linear_option; [exact L|apply (linear_of c f), T]]. Qed.
Lemma takes_exact {A} (c : bytes -> counted (A * bytes)) f K : takes c f K ->
  forall bs, fst (cd_exact c bs) = de_exact f bs /\ steps (cd_exact c bs) <= K * N.of_nat (length bs).
Proof.
  intros T bs. split; [apply same_exact; intro b; apply (T b)|]. destruct (T bs) as [_ [L _]]. unfold steps, cd_exact, cbind, ret in *.
  destruct (fst (c bs)) as [[a r]|e| |]; cbn [fst snd]; lia.
Qed.
Lemma ex_decode_steps :
  let bs := ok_or [] (se_mls_message ex_message) in
  length bs = 191%nat /\ cd_mls_message bs = (Ok (ex_message, []), 410) /\ cd_mls_message (removelast bs) = (Err BufferTooSmall, 408).
Proof. vm_compute. repeat split. Qed.
(** Empty byte strings in a vector take four steps each, one byte being all there is of them. *)
Lemma loop_empty n : c_vec_loop cd_certificate n (repeat x00 n) = (Ok (repeat [] n), 3 * N.of_nat n).
Proof.
  induction n as [|n IH]; [reflexivity|]. cbn [repeat c_vec_loop]. unfold costing, cbind.
  assert (E : cd_certificate (x00 :: repeat x00 n) = (Ok ([], repeat x00 n), 2)) by (destruct n; reflexivity).
  rewrite E. cbn [fst snd]. rewrite IH. cbn [fst snd ret]. f_equal. lia.
Qed.
Lemma empty_steps n h : se_varint (N.of_nat n) = Ok h ->
  cd_vector cd_certificate (h ++ repeat x00 n) = (Ok (repeat [] n, []), 4 * N.of_nat n + N.of_nat (length h) + 1).
Proof.
  intro E. assert (V : de_varint (h ++ repeat x00 n) = Ok (N.of_nat n, repeat x00 n)) by (apply varint_rt, E).
  rewrite <- same_varint in V. pose proof (linear_varint (h ++ repeat x00 n)) as L. unfold spent in L.
  unfold cd_vector, cbind. rewrite V in *. destruct L as [_ L]. unfold blen in L. rewrite app_length, repeat_length in L.
  rewrite repeat_length, N.ltb_irrefl. unfold c_copy, copy_to_bytes. rewrite repeat_length, N.ltb_irrefl, Nat2N.id.
  assert (F : firstn n (repeat x00 n) = repeat x00 n) by (apply firstn_all2; rewrite repeat_length; lia).
  assert (G : skipn n (repeat x00 n) = []) by (apply skipn_all2; rewrite repeat_length; lia).
  cbn [fst snd]. rewrite F, G, repeat_length, loop_empty. cbn [fst snd ret]. f_equal. lia.
Qed.
