(** Proofs for C116. *)
From Verif Require Import SpecBuffers WireCodecs SpecStream StreamFacts.
From Coq Require Import Lia.
Import Coq.Strings.Byte.
Local Open Scope N_scope.

(** * Reading *)

Definition rd {A} (m : reading A) (d : res (A * bytes)) (bs : bytes) : Prop :=
  (exists p, bs = p ++ snd m)%list /\
  match d with
  | Ok (a, rest) => m = (Ok a, rest)
  | Err e => fst m = Err e
  | Panic => fst m = Panic
  | Hang => fst m = Hang
  end.
Lemma rd_of {A} (r : bytes -> reading A) d bs : reads_from r d -> rd (r bs) (d bs) bs.
Proof. intros H. exact (H bs). Qed.
Lemma rd_bind {A B} (m : reading A) d (k : A * bytes -> reading B) k' bs : rd m d bs -> (forall a r, rd (k (a, r)) (k' (a, r)) r) ->
  rd (rbind m k) (bind d k') bs.
Proof.
  intros [[p E] H] K. destruct d as [[a r]|e| |]; cbn [bind].
  - subst m. cbn [rbind snd] in *. destruct (K a r) as [[q Eq] C]. split; [|exact C]. exists (p ++ q)%list. rewrite E. rewrite Eq at 1. apply app_assoc.
  - destruct m as [o r]. cbn [fst] in H. subst o. cbn [rbind]. split; [exists p; exact E|reflexivity].
  - destruct m as [o r]. cbn [fst] in H. subst o. cbn [rbind]. split; [exists p; exact E|reflexivity].
  - destruct m as [o r]. cbn [fst] in H. subst o. cbn [rbind]. split; [exists p; exact E|reflexivity].
Qed.
Lemma rd_ok {A} (a : A) bs : rd (Ok a, bs) (Ok (a, bs)) bs.
Proof. split; [exists []; reflexivity|reflexivity]. Qed.
Lemma rd_err {A} e bs : rd (@Err A e, bs) (Err e) bs.
Proof. split; [exists []; reflexivity|reflexivity]. Qed.
Lemma rd_need {B} k bs (c : unit * bytes -> reading B) c' : rd (c (tt, bs)) (c' tt) bs ->
  rd (rbind (r_need k bs) c) (bind (need k bs) c') bs.
Proof.
  intros H. unfold r_need, need. destruct (Nat.ltb _ _); cbn [rbind bind]; [apply rd_err|exact H].
Qed.
Lemma reads_get k : reads_from (r_get_be k) (get_be k).
Proof.
  intros bs. unfold r_get_be, get_be. destruct (Nat.ltb _ _); cbn [fst snd]; [split; [exists []; reflexivity|reflexivity]|].
  split; [|reflexivity]. exists (firstn k bs). symmetry. apply firstn_skipn.
Qed.
Lemma reads_copy n : reads_from (r_copy n) (copy_to_bytes n).
Proof.
  intros bs. unfold r_copy, copy_to_bytes. destruct (_ <? _); cbn [fst snd]; [split; [exists []; reflexivity|reflexivity]|].
  split; [|reflexivity]. exists (firstn (N.to_nat n) bs). symmetry. apply firstn_skipn.
Qed.
Lemma reads_u8 : reads_from r_read_u8 read_u8.
Proof. intros bs. apply rd_need. apply reads_get. Qed.
Lemma reads_u16 : reads_from r_read_u16 read_u16.
Proof. intros bs. apply rd_need. apply reads_get. Qed.
Lemma reads_u32 : reads_from r_read_u32 read_u32.
Proof. intros bs. apply rd_need. apply reads_get. Qed.
Lemma reads_u64 : reads_from r_read_u64 read_u64.
Proof. intros bs. apply rd_need. apply reads_get. Qed.
Lemma reads_tail k : forall v, reads_from (r_varint_tail k v) (varint_tail k v).
Proof.
  induction k as [|k IH]; intros v bs; cbn [r_varint_tail varint_tail]; [apply rd_ok|].
  apply rd_bind; [apply reads_u8|]. intros b r. apply IH.
Qed.
Lemma reads_varint : reads_from rd_varint de_varint.
Proof.
  intros bs. unfold rd_varint, de_varint. apply rd_bind; [apply reads_u8|]. intros b r. cbv zeta beta iota.
  destruct (_ =? 3); [apply rd_err|]. apply rd_bind; [apply reads_tail|]. intros v r'. cbv beta iota. destruct (_ && _); [apply rd_err|apply rd_ok].
Qed.
Lemma reads_opaque : reads_from rd_opaque de_opaque.
Proof.
  intros bs. unfold rd_opaque, de_opaque. apply rd_bind; [apply reads_varint|]. intros n r. cbv beta iota. destruct (_ <? _); [apply rd_err|apply reads_copy].
Qed.
Lemma r_loop {A} (f : bytes -> reading A) d : reads_from f d -> forall k bs, r_vec_loop f k bs = vec_loop d k bs.
Proof.
  intros H. induction k as [|k IH]; intros bs; destruct bs as [|b bs]; cbn [r_vec_loop vec_loop]; try reflexivity.
  destruct (H (b :: bs)) as [_ C]. destruct (d (b :: bs)) as [[a r]|e| |]; cbn [bind].
  - rewrite C. cbn [bind]. rewrite IH. reflexivity.
  - destruct (f (b :: bs)) as [o r]. cbn [fst] in C. subst o. reflexivity.
  - destruct (f (b :: bs)) as [o r]. cbn [fst] in C. subst o. reflexivity.
  - destruct (f (b :: bs)) as [o r]. cbn [fst] in C. subst o. reflexivity.
Qed.
Lemma reads_vector {A} (f : bytes -> reading A) d : reads_from f d -> reads_from (rd_vector f) (de_vector d).
Proof.
  intros H bs. unfold rd_vector, de_vector. apply rd_bind; [apply reads_varint|]. intros n r. cbv beta iota. destruct (_ <? _); [apply rd_err|].
  apply rd_bind; [apply reads_copy|]. intros v r'. cbv beta iota. rewrite (r_loop f d H).
  split; [exists []; reflexivity|]. destruct (vec_loop d (length v) v); reflexivity.
Qed.
Lemma reads_optflag : reads_from rd_optflag de_optflag.
Proof.
  intros bs. unfold rd_optflag, de_optflag. apply rd_bind; [apply reads_u8|]. intros b r. cbv beta iota.
  destruct (b =? 0); [apply rd_ok|]. destruct (b =? 1); [apply rd_ok|apply rd_err].
Qed.
Lemma reads_option {A} (f : bytes -> reading A) d : reads_from f d -> reads_from (rd_option f) (de_option d).
Proof.
  intros H bs. unfold rd_option, de_option. apply rd_bind; [apply reads_optflag|]. intros b r. cbv beta iota. destruct b; [|apply rd_ok].
  apply rd_bind; [apply H|]. intros a r'. apply rd_ok.
Qed.
Create HintDb buf.
#[global] Hint Resolve reads_u8 reads_u16 reads_u32 reads_u64 reads_copy reads_opaque reads_vector reads_option : buf.
Lemma reads_get_u16 : reads_from r_get_u16 get_u16. Proof. apply reads_get. Qed.
Lemma reads_get_u32 : reads_from r_get_u32 get_u32. Proof. apply reads_get. Qed.
Lemma reads_get_u64 : reads_from r_get_u64 get_u64. Proof. apply reads_get. Qed.
#[global] Hint Resolve reads_get_u16 reads_get_u32 reads_get_u64 : buf.
Ltac rstep :=
  first [ apply rd_ok | apply rd_err
        | apply rd_need
        | apply rd_bind; [solve [match goal with |- rd (?r _) (?d _) _ => apply (rd_of r d); auto 6 with buf end]|intros ? ?; cbv beta iota]
        | match goal with |- rd (match ?x with _ => _ end) _ _ => destruct x end
        | match goal with |- rd (?r _) (?d _) _ => apply (rd_of r d); auto 6 with buf end ].
Ltac rds r d := intros bs; match goal with |- ?G => change (rd (r bs) (d bs) bs) end; unfold r, d; repeat rstep.

Lemma r_secret_key : reads_from rd_secret_key de_secret_key.
Proof. unfold rd_secret_key, de_secret_key. auto 6 with buf. Qed.
#[global] Hint Resolve r_secret_key : buf.
Lemma r_identity : reads_from rd_identity de_identity.
Proof. unfold rd_identity, de_identity. auto 6 with buf. Qed.
#[global] Hint Resolve r_identity : buf.
Lemma r_certificate : reads_from rd_certificate de_certificate.
Proof. unfold rd_certificate, de_certificate. auto 6 with buf. Qed.
#[global] Hint Resolve r_certificate : buf.
Lemma r_credential : reads_from rd_credential de_credential.
Proof. rds rd_credential de_credential. Qed.
#[global] Hint Resolve r_credential : buf.
Lemma r_signature_scheme : reads_from rd_signature_scheme de_signature_scheme.
Proof. rds rd_signature_scheme de_signature_scheme. Qed.
#[global] Hint Resolve r_signature_scheme : buf.
Lemma r_signature_key_pair : reads_from rd_signature_key_pair de_signature_key_pair.
Proof. rds rd_signature_key_pair de_signature_key_pair. Qed.
#[global] Hint Resolve r_signature_key_pair : buf.
Lemma r_hpke_key_pair : reads_from rd_hpke_key_pair de_hpke_key_pair.
Proof. rds rd_hpke_key_pair de_hpke_key_pair. Qed.
#[global] Hint Resolve r_hpke_key_pair : buf.
Lemma r_content_type : reads_from rd_content_type de_content_type.
Proof. rds rd_content_type de_content_type. Qed.
#[global] Hint Resolve r_content_type : buf.
Lemma r_sender_type : reads_from rd_sender_type de_sender_type.
Proof. rds rd_sender_type de_sender_type. Qed.
#[global] Hint Resolve r_sender_type : buf.
Lemma r_sender : reads_from rd_sender de_sender.
Proof. rds rd_sender de_sender. Qed.
#[global] Hint Resolve r_sender : buf.
Lemma r_wire_format : reads_from rd_wire_format de_wire_format.
Proof. rds rd_wire_format de_wire_format. Qed.
#[global] Hint Resolve r_wire_format : buf.
Lemma r_extension : reads_from rd_extension de_extension.
Proof. rds rd_extension de_extension. Qed.
#[global] Hint Resolve r_extension : buf.
Lemma r_extensions : reads_from rd_extensions de_extensions.
Proof. unfold rd_extensions, de_extensions. auto 6 with buf. Qed.
#[global] Hint Resolve r_extensions : buf.
Lemma r_application_id : reads_from rd_application_id de_application_id.
Proof. unfold rd_application_id, de_application_id. auto 6 with buf. Qed.
#[global] Hint Resolve r_application_id : buf.
Lemma r_unknown_extension : reads_from rd_unknown_extension de_unknown_extension.
Proof. unfold rd_unknown_extension, de_unknown_extension. auto 6 with buf. Qed.
#[global] Hint Resolve r_unknown_extension : buf.
Lemma r_external_pub : reads_from rd_external_pub de_external_pub.
Proof. unfold rd_external_pub, de_external_pub. auto 6 with buf. Qed.
#[global] Hint Resolve r_external_pub : buf.
Lemma r_external_senders : reads_from rd_external_senders de_external_senders.
Proof. rds rd_external_senders de_external_senders. Qed.
#[global] Hint Resolve r_external_senders : buf.
Lemma r_proposal_type : reads_from rd_proposal_type de_proposal_type.
Proof. rds rd_proposal_type de_proposal_type. Qed.
#[global] Hint Resolve r_proposal_type : buf.
Lemma r_u16_as {A} (f : N -> A) : reads_from (rd_u16_as f) (de_u16_as f).
Proof. intros bs. match goal with |- ?G => change (rd ((rd_u16_as f) bs) ((de_u16_as f) bs) bs) end. unfold rd_u16_as, de_u16_as. repeat rstep. Qed.
#[global] Hint Resolve r_u16_as : buf.
Lemma r_required_capabilities : reads_from rd_required_capabilities de_required_capabilities.
Proof. rds rd_required_capabilities de_required_capabilities. Qed.
#[global] Hint Resolve r_required_capabilities : buf.
Lemma r_lifetime : reads_from rd_lifetime de_lifetime.
Proof. rds rd_lifetime de_lifetime. Qed.
#[global] Hint Resolve r_lifetime : buf.
Lemma r_leaf_node_source : reads_from rd_leaf_node_source de_leaf_node_source.
Proof. rds rd_leaf_node_source de_leaf_node_source. Qed.
#[global] Hint Resolve r_leaf_node_source : buf.
Lemma r_capabilities : reads_from rd_capabilities de_capabilities.
Proof. rds rd_capabilities de_capabilities. Qed.
#[global] Hint Resolve r_capabilities : buf.
Lemma r_leaf_payload : reads_from rd_leaf_payload de_leaf_payload.
Proof. rds rd_leaf_payload de_leaf_payload. Qed.
#[global] Hint Resolve r_leaf_payload : buf.
Lemma r_leaf_node : reads_from rd_leaf_node de_leaf_node.
Proof. rds rd_leaf_node de_leaf_node. Qed.
#[global] Hint Resolve r_leaf_node : buf.
Lemma r_unmerged_leaf : reads_from rd_unmerged_leaf de_unmerged_leaf.
Proof. rds rd_unmerged_leaf de_unmerged_leaf. Qed.
#[global] Hint Resolve r_unmerged_leaf : buf.
Lemma r_parent_node : reads_from rd_parent_node de_parent_node.
Proof. rds rd_parent_node de_parent_node. Qed.
#[global] Hint Resolve r_parent_node : buf.
Lemma r_hpke_ciphertext : reads_from rd_hpke_ciphertext de_hpke_ciphertext.
Proof. rds rd_hpke_ciphertext de_hpke_ciphertext. Qed.
#[global] Hint Resolve r_hpke_ciphertext : buf.
Lemma r_update_path_node : reads_from rd_update_path_node de_update_path_node.
Proof. rds rd_update_path_node de_update_path_node. Qed.
#[global] Hint Resolve r_update_path_node : buf.
Lemma r_update_path : reads_from rd_update_path de_update_path.
Proof. rds rd_update_path de_update_path. Qed.
#[global] Hint Resolve r_update_path : buf.
Lemma r_node_type : reads_from rd_node_type de_node_type.
Proof. rds rd_node_type de_node_type. Qed.
#[global] Hint Resolve r_node_type : buf.
Lemma r_node : reads_from rd_node de_node.
Proof. rds rd_node de_node. Qed.
#[global] Hint Resolve r_node : buf.
Lemma r_ratchet_tree : reads_from rd_ratchet_tree de_ratchet_tree.
Proof.
  intros bs. unfold rd_ratchet_tree, de_ratchet_tree. apply rd_bind; [apply reads_vector; auto 6 with buf|]. intros l r. cbv beta iota.
  destruct (pad_blank (length l + 1) l); cbn [rbind bind]; try apply rd_ok; (split; [exists []; reflexivity|reflexivity]).
Qed.
#[global] Hint Resolve r_ratchet_tree : buf.
Lemma r_ratchet_tree_extension : reads_from rd_ratchet_tree_extension de_ratchet_tree_extension.
Proof. unfold rd_ratchet_tree_extension, de_ratchet_tree_extension. auto 6 with buf. Qed.
#[global] Hint Resolve r_ratchet_tree_extension : buf.
Lemma r_key_package_ref : reads_from rd_key_package_ref de_key_package_ref.
Proof. unfold rd_key_package_ref, de_key_package_ref. auto 6 with buf. Qed.
#[global] Hint Resolve r_key_package_ref : buf.
Lemma r_key_package_tbs : reads_from rd_key_package_tbs de_key_package_tbs.
Proof. rds rd_key_package_tbs de_key_package_tbs. Qed.
#[global] Hint Resolve r_key_package_tbs : buf.
Lemma r_key_package : reads_from rd_key_package de_key_package.
Proof. rds rd_key_package de_key_package. Qed.
#[global] Hint Resolve r_key_package : buf.
Lemma r_group_context : reads_from rd_group_context de_group_context.
Proof. rds rd_group_context de_group_context. Qed.
#[global] Hint Resolve r_group_context : buf.
Lemma r_psk_type : reads_from rd_psk_type de_psk_type.
Proof. rds rd_psk_type de_psk_type. Qed.
#[global] Hint Resolve r_psk_type : buf.
Lemma r_psk_usage : reads_from rd_psk_usage de_psk_usage.
Proof. rds rd_psk_usage de_psk_usage. Qed.
#[global] Hint Resolve r_psk_usage : buf.
Lemma r_resumption : reads_from rd_resumption de_resumption.
Proof. rds rd_resumption de_resumption. Qed.
#[global] Hint Resolve r_resumption : buf.
Lemma r_psk : reads_from rd_psk de_psk.
Proof. rds rd_psk de_psk. Qed.
#[global] Hint Resolve r_psk : buf.
Lemma r_psk_id : reads_from rd_psk_id de_psk_id.
Proof. rds rd_psk_id de_psk_id. Qed.
#[global] Hint Resolve r_psk_id : buf.
Lemma r_psk_label : reads_from rd_psk_label de_psk_label.
Proof. rds rd_psk_label de_psk_label. Qed.
#[global] Hint Resolve r_psk_label : buf.
Lemma r_add_proposal : reads_from rd_add_proposal de_add_proposal.
Proof. rds rd_add_proposal de_add_proposal. Qed.
#[global] Hint Resolve r_add_proposal : buf.
Lemma r_update_proposal : reads_from rd_update_proposal de_update_proposal.
Proof. rds rd_update_proposal de_update_proposal. Qed.
#[global] Hint Resolve r_update_proposal : buf.
Lemma r_remove_proposal : reads_from rd_remove_proposal de_remove_proposal.
Proof. rds rd_remove_proposal de_remove_proposal. Qed.
#[global] Hint Resolve r_remove_proposal : buf.
Lemma r_psk_proposal : reads_from rd_psk_proposal de_psk_proposal.
Proof. rds rd_psk_proposal de_psk_proposal. Qed.
#[global] Hint Resolve r_psk_proposal : buf.
Lemma r_reinit_proposal : reads_from rd_reinit_proposal de_reinit_proposal.
Proof. rds rd_reinit_proposal de_reinit_proposal. Qed.
#[global] Hint Resolve r_reinit_proposal : buf.
Lemma r_external_init_proposal : reads_from rd_external_init_proposal de_external_init_proposal.
Proof. rds rd_external_init_proposal de_external_init_proposal. Qed.
#[global] Hint Resolve r_external_init_proposal : buf.
Lemma r_gce_proposal : reads_from rd_gce_proposal de_gce_proposal.
Proof. rds rd_gce_proposal de_gce_proposal. Qed.
#[global] Hint Resolve r_gce_proposal : buf.
Lemma r_proposal : reads_from rd_proposal de_proposal.
Proof. rds rd_proposal de_proposal. Qed.
#[global] Hint Resolve r_proposal : buf.
Lemma r_proposal_or_ref : reads_from rd_proposal_or_ref de_proposal_or_ref.
Proof. rds rd_proposal_or_ref de_proposal_or_ref. Qed.
#[global] Hint Resolve r_proposal_or_ref : buf.
Lemma r_commit : reads_from rd_commit de_commit.
Proof. rds rd_commit de_commit. Qed.
#[global] Hint Resolve r_commit : buf.
Lemma r_content : reads_from rd_content de_content.
Proof. rds rd_content de_content. Qed.
#[global] Hint Resolve r_content : buf.
Lemma r_framed_content : reads_from rd_framed_content de_framed_content.
Proof. rds rd_framed_content de_framed_content. Qed.
#[global] Hint Resolve r_framed_content : buf.
Lemma r_auth_data ct : reads_from (rd_auth_data ct) (de_auth_data ct).
Proof. intros bs. match goal with |- ?G => change (rd ((rd_auth_data ct) bs) ((de_auth_data ct) bs) bs) end. unfold rd_auth_data, de_auth_data. repeat rstep. Qed.
#[global] Hint Resolve r_auth_data : buf.
Lemma r_auth_content : reads_from rd_auth_content de_auth_content.
Proof. rds rd_auth_content de_auth_content. Qed.
#[global] Hint Resolve r_auth_content : buf.
Lemma r_framed_content_tbs : reads_from rd_framed_content_tbs de_framed_content_tbs.
Proof. rds rd_framed_content_tbs de_framed_content_tbs. Qed.
#[global] Hint Resolve r_framed_content_tbs : buf.
Lemma r_auth_content_tbm : reads_from rd_auth_content_tbm de_auth_content_tbm.
Proof. rds rd_auth_content_tbm de_auth_content_tbm. Qed.
#[global] Hint Resolve r_auth_content_tbm : buf.
Lemma r_sender_data : reads_from rd_sender_data de_sender_data.
Proof. rds rd_sender_data de_sender_data. Qed.
#[global] Hint Resolve r_sender_data : buf.
Lemma r_public_message : reads_from rd_public_message de_public_message.
Proof. rds rd_public_message de_public_message. Qed.
#[global] Hint Resolve r_public_message : buf.
Lemma r_private_message : reads_from rd_private_message de_private_message.
Proof. rds rd_private_message de_private_message. Qed.
#[global] Hint Resolve r_private_message : buf.
Lemma r_private_content_aad : reads_from rd_private_content_aad de_private_content_aad.
Proof. rds rd_private_content_aad de_private_content_aad. Qed.
#[global] Hint Resolve r_private_content_aad : buf.
Lemma r_group_info : reads_from rd_group_info de_group_info.
Proof. rds rd_group_info de_group_info. Qed.
#[global] Hint Resolve r_group_info : buf.
Lemma r_group_secrets : reads_from rd_group_secrets de_group_secrets.
Proof. rds rd_group_secrets de_group_secrets. Qed.
#[global] Hint Resolve r_group_secrets : buf.
Lemma r_egs : reads_from rd_egs de_egs.
Proof. rds rd_egs de_egs. Qed.
#[global] Hint Resolve r_egs : buf.
Lemma r_welcome : reads_from rd_welcome de_welcome.
Proof. rds rd_welcome de_welcome. Qed.
#[global] Hint Resolve r_welcome : buf.
Lemma r_wire_message : reads_from rd_wire_message de_wire_message.
Proof. rds rd_wire_message de_wire_message. Qed.
#[global] Hint Resolve r_wire_message : buf.
Lemma r_mls_message : reads_from rd_mls_message de_mls_message.
Proof. rds rd_mls_message de_mls_message. Qed.
#[global] Hint Resolve r_mls_message : buf.
Lemma r_confirmed_input : reads_from rd_confirmed_input de_confirmed_input.
Proof. rds rd_confirmed_input de_confirmed_input. Qed.
#[global] Hint Resolve r_confirmed_input : buf.

(** * Writing *)

Definition wr (w : writing) (s : res bytes) : Prop := exists v,
  (forall x, s = Ok x -> v = x) /\
  forall b,
    (fits v b -> w b = (ends s, add v b)) /\
    (~ fits v b -> fst (w b) = Panic /\ exists p q, v = (p ++ q)%list /\ held (snd (w b)) = (held b ++ p)%list).
Lemma wr_of {A} (w : A -> writing) s a : writes_to w s -> wr (w a) (s a).
Proof. intros H. exact (H a). Qed.
Lemma fits_app u v b : fits (u ++ v) b <-> fits u b /\ fits v (add u b).
Proof.
  unfold fits, add. destruct b as [h [r|]]; cbn [room]; [|tauto]. rewrite app_length, Nat2N.inj_add. lia.
Qed.
Lemma add_app u v b : add (u ++ v) b = add v (add u b).
Proof.
  unfold add. destruct b as [h [r|]]; cbn [room held]; rewrite app_assoc; [|reflexivity]. do 2 f_equal. rewrite app_length, Nat2N.inj_add. lia.
Qed.
Lemma fits_dec v b : fits v b \/ ~ fits v b.
Proof. unfold fits. destruct (room b); [|left; exact I]. lia. Qed.
Lemma add_nil b : add [] b = b.
Proof. unfold add. destruct b as [h [r|]]; cbn [room held]; rewrite app_nil_r; [|reflexivity]. do 2 f_equal. cbn [length]. lia. Qed.
Lemma fits_nil b : fits [] b.
Proof. unfold fits. destruct (room b); cbn [length]; lia || exact I. Qed.
Lemma wr_done : wr w_done (Ok []).
Proof.
  exists []. split; [intros x [= <-]; reflexivity|]. intros b. split; [intros _; rewrite add_nil; reflexivity|]. intros H. destruct (H (fits_nil b)).
Qed.
Lemma wr_fail e : wr (w_fail e) (Err e).
Proof.
  exists []. split; [discriminate|]. intros b. split; [intros _; rewrite add_nil; reflexivity|]. intros H. destruct (H (fits_nil b)).
Qed.
Lemma wr_put v : wr (w_put v) (Ok v).
Proof.
  exists v. split; [intros x [= <-]; reflexivity|]. intros [h [r|]]; unfold w_put, fits, add; cbn [room held ends].
  - destruct (r <? _) eqn:E; [apply N.ltb_lt in E|apply N.ltb_ge in E]; (split; intros H; try lia).
    + split; [reflexivity|]. exists [], v. cbn [snd held]. rewrite app_nil_r. split; reflexivity.
    + reflexivity.
  - split; [reflexivity|]. intros H. destruct (H I).
Qed.
Lemma wr_seq x y a b : wr x a -> wr y b -> wr (x >> y) (a +++ b).
Proof.
  intros [u [U X]] [v [V Y]]. unfold seqw. destruct a as [a|e| |]; cbn [bind].
  - specialize (U a eq_refl). subst a. exists (u ++ v)%list. split.
    + intros w. destruct b as [b| | |]; cbn [bind]; try discriminate. intros [= <-]. rewrite (V b eq_refl). reflexivity.
    + intros o. destruct (X o) as [X1 X2]. rewrite fits_app. split.
      * intros [F1 F2]. destruct (Y (add u o)) as [Y1 _]. unfold w_then. rewrite (X1 F1). cbn [ends]. rewrite (Y1 F2), add_app. f_equal. destruct b; reflexivity.
      * intros N. unfold w_then. destruct (fits_dec u o) as [F|F].
        -- rewrite (X1 F). cbn [ends]. destruct (Y (add u o)) as [_ Y2]. destruct Y2 as [P (p & q & -> & Hp)]; [tauto|]. split; [exact P|].
           exists (u ++ p)%list, q. rewrite Hp. cbn [add held]. rewrite !app_assoc. split; reflexivity.
        -- destruct (X2 F) as [P (p & q & -> & Hp)]. destruct (x o) as [m o']. cbn [fst snd] in P, Hp. subst m. cbn [fst snd]. split; [reflexivity|].
           exists p, (q ++ v)%list. rewrite Hp, !app_assoc. split; reflexivity.
  - exists u. split; [discriminate|]. intros o. destruct (X o) as [X1 X2]. unfold w_then. split.
    + intros F. rewrite (X1 F). reflexivity.
    + intros F. destruct (X2 F) as [P Q]. destruct (x o) as [m o']. cbn [fst snd] in P, Q. subst m. cbn [fst snd]. split; [reflexivity|exact Q].
  - exists u. split; [discriminate|]. intros o. destruct (X o) as [X1 X2]. unfold w_then. split.
    + intros F. rewrite (X1 F). reflexivity.
    + intros F. destruct (X2 F) as [P Q]. destruct (x o) as [m o']. cbn [fst snd] in P, Q. subst m. cbn [fst snd]. split; [reflexivity|exact Q].
  - exists u. split; [discriminate|]. intros o. destruct (X o) as [X1 X2]. unfold w_then. split.
    + intros F. rewrite (X1 F). reflexivity.
    + intros F. destruct (X2 F) as [P Q]. destruct (x o) as [m o']. cbn [fst snd] in P, Q. subst m. cbn [fst snd]. split; [reflexivity|exact Q].
Qed.
Lemma w_u8 : writes_to w_put_u8 put_u8. Proof. intros n. apply wr_put. Qed.
Lemma w_u16 : writes_to w_put_u16 put_u16. Proof. intros n. apply wr_put. Qed.
Lemma w_u32 : writes_to w_put_u32 put_u32. Proof. intros n. apply wr_put. Qed.
Lemma w_u64 : writes_to w_put_u64 put_u64. Proof. intros n. apply wr_put. Qed.
Lemma w_varint : writes_to wr_varint se_varint.
Proof.
  intros n. unfold wr_varint, se_varint. destruct (n <? N.shiftl 1 6); [apply w_u8|]. destruct (n <? N.shiftl 1 14); [apply w_u16|].
  destruct (n <? N.shiftl 1 30); [apply w_u32|apply wr_fail].
Qed.
Lemma w_opaque : writes_to wr_opaque se_opaque.
Proof. intros v. unfold wr_opaque, se_opaque. destruct (_ <=? _); [apply wr_fail|]. apply wr_seq; [apply w_varint|apply wr_put]. Qed.
Lemma w_elems {A} (w : A -> writing) s l : writes_to w s -> wr (wr_elems w l) (se_elems s l).
Proof. intros H. induction l as [|a l IH]; cbn [wr_elems se_elems]; [apply wr_done|]. apply wr_seq; [apply H|exact IH]. Qed.
Lemma w_vector {A} (w : A -> writing) s : writes_to w s -> writes_to (wr_vector w) (se_vector s).
Proof.
  intros H l. destruct (w_elems w s l H) as [v [V E]]. destruct (E (MkOut [] None)) as [E1 _]. specialize (E1 I).
  change (wr (wr_vector w l) (se_vector s l)). unfold se_vector. destruct (se_elems s l) as [raw|e| |]; cbn [bind ends] in *.
  - specialize (V raw eq_refl). subst v. destruct (w_opaque raw) as [v [V X]]. exists v. split; [exact V|]. intros b. unfold wr_vector. rewrite E1. cbn [add held app]. apply X.
  - exists []. split; [discriminate|]. intros b. unfold wr_vector. rewrite E1, add_nil. split; [reflexivity|]. intros N. destruct (N (fits_nil b)).
  - exists []. split; [discriminate|]. intros b. unfold wr_vector. rewrite E1, add_nil. split; [reflexivity|]. intros N. destruct (N (fits_nil b)).
  - exists []. split; [discriminate|]. intros b. unfold wr_vector. rewrite E1, add_nil. split; [reflexivity|]. intros N. destruct (N (fits_nil b)).
Qed.
Lemma w_optflag : writes_to wr_optflag se_optflag.
Proof. intros p. apply wr_put. Qed.
Lemma w_option {A} (w : A -> writing) s : writes_to w s -> writes_to (wr_option w) (se_option s).
Proof. intros H o. destruct o; cbn [wr_option se_option]; [apply wr_seq; [apply w_optflag|apply H]|apply w_optflag]. Qed.
#[global] Hint Resolve w_u8 w_u16 w_u32 w_u64 w_opaque w_vector w_option : buf.
Ltac wstep :=
  first [ apply wr_done | apply wr_fail | apply wr_put
        | apply wr_seq
        | match goal with |- wr (match ?x with _ => _ end) _ => destruct x end
        | match goal with |- wr (?w ?a) (?s ?a) => apply (wr_of w s); auto 6 with buf end ].

Lemma w_secret_key  : writes_to wr_secret_key se_secret_key.
Proof. unfold wr_secret_key, se_secret_key. auto 6 with buf. Qed.
#[global] Hint Resolve w_secret_key : buf.
Lemma w_identity  : writes_to wr_identity se_identity.
Proof. unfold wr_identity, se_identity. auto 6 with buf. Qed.
#[global] Hint Resolve w_identity : buf.
Lemma w_certificate  : writes_to wr_certificate se_certificate.
Proof. unfold wr_certificate, se_certificate. auto 6 with buf. Qed.
#[global] Hint Resolve w_certificate : buf.
Lemma w_credential  : writes_to wr_credential se_credential.
Proof. intros x. match goal with |- ?G => change (wr (wr_credential x) (se_credential x)) end. unfold wr_credential, se_credential. repeat wstep. Qed.
#[global] Hint Resolve w_credential : buf.
Lemma w_signature_scheme  : writes_to wr_signature_scheme se_signature_scheme.
Proof. intros x. match goal with |- ?G => change (wr (wr_signature_scheme x) (se_signature_scheme x)) end. unfold wr_signature_scheme, se_signature_scheme. repeat wstep. Qed.
#[global] Hint Resolve w_signature_scheme : buf.
Lemma w_signature_key_pair  : writes_to wr_signature_key_pair se_signature_key_pair.
Proof. intros x. match goal with |- ?G => change (wr (wr_signature_key_pair x) (se_signature_key_pair x)) end. unfold wr_signature_key_pair, se_signature_key_pair. repeat wstep. Qed.
#[global] Hint Resolve w_signature_key_pair : buf.
Lemma w_hpke_key_pair  : writes_to wr_hpke_key_pair se_hpke_key_pair.
Proof. intros x. match goal with |- ?G => change (wr (wr_hpke_key_pair x) (se_hpke_key_pair x)) end. unfold wr_hpke_key_pair, se_hpke_key_pair. repeat wstep. Qed.
#[global] Hint Resolve w_hpke_key_pair : buf.
Lemma w_content_type  : writes_to wr_content_type se_content_type.
Proof. intros x. match goal with |- ?G => change (wr (wr_content_type x) (se_content_type x)) end. unfold wr_content_type, se_content_type. repeat wstep. Qed.
#[global] Hint Resolve w_content_type : buf.
Lemma w_sender_type  : writes_to wr_sender_type se_sender_type.
Proof. intros x. match goal with |- ?G => change (wr (wr_sender_type x) (se_sender_type x)) end. unfold wr_sender_type, se_sender_type. repeat wstep. Qed.
#[global] Hint Resolve w_sender_type : buf.
Lemma w_sender  : writes_to wr_sender se_sender.
Proof. intros x. match goal with |- ?G => change (wr (wr_sender x) (se_sender x)) end. unfold wr_sender, se_sender. repeat wstep. Qed.
#[global] Hint Resolve w_sender : buf.
Lemma w_wire_format  : writes_to wr_wire_format se_wire_format.
Proof. intros x. match goal with |- ?G => change (wr (wr_wire_format x) (se_wire_format x)) end. unfold wr_wire_format, se_wire_format. repeat wstep. Qed.
#[global] Hint Resolve w_wire_format : buf.
Lemma w_extension  : writes_to wr_extension se_extension.
Proof. intros x. match goal with |- ?G => change (wr (wr_extension x) (se_extension x)) end. unfold wr_extension, se_extension. repeat wstep. Qed.
#[global] Hint Resolve w_extension : buf.
Lemma w_extensions  : writes_to wr_extensions se_extensions.
Proof. unfold wr_extensions, se_extensions. auto 6 with buf. Qed.
#[global] Hint Resolve w_extensions : buf.
Lemma w_application_id  : writes_to wr_application_id se_application_id.
Proof. unfold wr_application_id, se_application_id. auto 6 with buf. Qed.
#[global] Hint Resolve w_application_id : buf.
Lemma w_unknown_extension  : writes_to wr_unknown_extension se_unknown_extension.
Proof. unfold wr_unknown_extension, se_unknown_extension. auto 6 with buf. Qed.
#[global] Hint Resolve w_unknown_extension : buf.
Lemma w_external_pub  : writes_to wr_external_pub se_external_pub.
Proof. unfold wr_external_pub, se_external_pub. auto 6 with buf. Qed.
#[global] Hint Resolve w_external_pub : buf.
Lemma w_external_senders  : writes_to wr_external_senders se_external_senders.
Proof. intros x. match goal with |- ?G => change (wr (wr_external_senders x) (se_external_senders x)) end. unfold wr_external_senders, se_external_senders. repeat wstep. Qed.
#[global] Hint Resolve w_external_senders : buf.
Lemma w_proposal_type  : writes_to wr_proposal_type se_proposal_type.
Proof. intros x. match goal with |- ?G => change (wr (wr_proposal_type x) (se_proposal_type x)) end. unfold wr_proposal_type, se_proposal_type. repeat wstep. Qed.
#[global] Hint Resolve w_proposal_type : buf.
Lemma w_u16_as {A} (g : A -> N) : writes_to (wr_u16_as g) (se_u16_as g).
Proof. intros x. match goal with |- ?G => change (wr ((wr_u16_as g) x) ((se_u16_as g) x)) end. unfold wr_u16_as, se_u16_as. repeat wstep. Qed.
#[global] Hint Resolve w_u16_as : buf.
Lemma w_required_capabilities  : writes_to wr_required_capabilities se_required_capabilities.
Proof. intros x. match goal with |- ?G => change (wr (wr_required_capabilities x) (se_required_capabilities x)) end. unfold wr_required_capabilities, se_required_capabilities. repeat wstep. Qed.
#[global] Hint Resolve w_required_capabilities : buf.
Lemma w_lifetime  : writes_to wr_lifetime se_lifetime.
Proof. intros x. match goal with |- ?G => change (wr (wr_lifetime x) (se_lifetime x)) end. unfold wr_lifetime, se_lifetime. repeat wstep. Qed.
#[global] Hint Resolve w_lifetime : buf.
Lemma w_leaf_node_source  : writes_to wr_leaf_node_source se_leaf_node_source.
Proof. intros x. match goal with |- ?G => change (wr (wr_leaf_node_source x) (se_leaf_node_source x)) end. unfold wr_leaf_node_source, se_leaf_node_source. repeat wstep. Qed.
#[global] Hint Resolve w_leaf_node_source : buf.
Lemma w_capabilities  : writes_to wr_capabilities se_capabilities.
Proof. intros x. match goal with |- ?G => change (wr (wr_capabilities x) (se_capabilities x)) end. unfold wr_capabilities, se_capabilities. repeat wstep. Qed.
#[global] Hint Resolve w_capabilities : buf.
Lemma w_leaf_payload  : writes_to wr_leaf_payload se_leaf_payload.
Proof. intros x. match goal with |- ?G => change (wr (wr_leaf_payload x) (se_leaf_payload x)) end. unfold wr_leaf_payload, se_leaf_payload. repeat wstep. Qed.
#[global] Hint Resolve w_leaf_payload : buf.
Lemma w_leaf_node  : writes_to wr_leaf_node se_leaf_node.
Proof. intros x. match goal with |- ?G => change (wr (wr_leaf_node x) (se_leaf_node x)) end. unfold wr_leaf_node, se_leaf_node. repeat wstep. Qed.
#[global] Hint Resolve w_leaf_node : buf.
Lemma w_leaf_node_tbs t : writes_to (fun p => wr_leaf_node_tbs p t) (fun p => se_leaf_node_tbs p t).
Proof. intros x. match goal with |- ?G => change (wr ((fun p => wr_leaf_node_tbs p t) x) ((fun p => se_leaf_node_tbs p t) x)) end. unfold wr_leaf_node_tbs, se_leaf_node_tbs. repeat wstep. Qed.
#[global] Hint Resolve w_leaf_node_tbs : buf.
Lemma w_parent_node  : writes_to wr_parent_node se_parent_node.
Proof. intros x. match goal with |- ?G => change (wr (wr_parent_node x) (se_parent_node x)) end. unfold wr_parent_node, se_parent_node. repeat wstep. Qed.
#[global] Hint Resolve w_parent_node : buf.
Lemma w_hpke_ciphertext  : writes_to wr_hpke_ciphertext se_hpke_ciphertext.
Proof. intros x. match goal with |- ?G => change (wr (wr_hpke_ciphertext x) (se_hpke_ciphertext x)) end. unfold wr_hpke_ciphertext, se_hpke_ciphertext. repeat wstep. Qed.
#[global] Hint Resolve w_hpke_ciphertext : buf.
Lemma w_update_path_node  : writes_to wr_update_path_node se_update_path_node.
Proof. intros x. match goal with |- ?G => change (wr (wr_update_path_node x) (se_update_path_node x)) end. unfold wr_update_path_node, se_update_path_node. repeat wstep. Qed.
#[global] Hint Resolve w_update_path_node : buf.
Lemma w_update_path  : writes_to wr_update_path se_update_path.
Proof. intros x. match goal with |- ?G => change (wr (wr_update_path x) (se_update_path x)) end. unfold wr_update_path, se_update_path. repeat wstep. Qed.
#[global] Hint Resolve w_update_path : buf.
Lemma w_node_type  : writes_to wr_node_type se_node_type.
Proof. intros x. match goal with |- ?G => change (wr (wr_node_type x) (se_node_type x)) end. unfold wr_node_type, se_node_type. repeat wstep. Qed.
#[global] Hint Resolve w_node_type : buf.
Lemma w_node  : writes_to wr_node se_node.
Proof. intros x. match goal with |- ?G => change (wr (wr_node x) (se_node x)) end. unfold wr_node, se_node. repeat wstep. Qed.
#[global] Hint Resolve w_node : buf.
Lemma w_ratchet_tree  : writes_to wr_ratchet_tree se_ratchet_tree.
Proof. intros x. match goal with |- ?G => change (wr (wr_ratchet_tree x) (se_ratchet_tree x)) end. unfold wr_ratchet_tree, se_ratchet_tree. repeat wstep. Qed.
#[global] Hint Resolve w_ratchet_tree : buf.
Lemma w_ratchet_tree_extension  : writes_to wr_ratchet_tree_extension se_ratchet_tree_extension.
Proof. unfold wr_ratchet_tree_extension, se_ratchet_tree_extension. auto 6 with buf. Qed.
#[global] Hint Resolve w_ratchet_tree_extension : buf.
Lemma w_key_package_ref  : writes_to wr_key_package_ref se_key_package_ref.
Proof. unfold wr_key_package_ref, se_key_package_ref. auto 6 with buf. Qed.
#[global] Hint Resolve w_key_package_ref : buf.
Lemma w_key_package_tbs  : writes_to wr_key_package_tbs se_key_package_tbs.
Proof. intros x. match goal with |- ?G => change (wr (wr_key_package_tbs x) (se_key_package_tbs x)) end. unfold wr_key_package_tbs, se_key_package_tbs. repeat wstep. Qed.
#[global] Hint Resolve w_key_package_tbs : buf.
Lemma w_key_package  : writes_to wr_key_package se_key_package.
Proof. intros x. match goal with |- ?G => change (wr (wr_key_package x) (se_key_package x)) end. unfold wr_key_package, se_key_package. repeat wstep. Qed.
#[global] Hint Resolve w_key_package : buf.
Lemma w_group_context  : writes_to wr_group_context se_group_context.
Proof. intros x. match goal with |- ?G => change (wr (wr_group_context x) (se_group_context x)) end. unfold wr_group_context, se_group_context. repeat wstep. Qed.
#[global] Hint Resolve w_group_context : buf.
Lemma w_psk_type  : writes_to wr_psk_type se_psk_type.
Proof. intros x. match goal with |- ?G => change (wr (wr_psk_type x) (se_psk_type x)) end. unfold wr_psk_type, se_psk_type. repeat wstep. Qed.
#[global] Hint Resolve w_psk_type : buf.
Lemma w_psk_usage  : writes_to wr_psk_usage se_psk_usage.
Proof. intros x. match goal with |- ?G => change (wr (wr_psk_usage x) (se_psk_usage x)) end. unfold wr_psk_usage, se_psk_usage. repeat wstep. Qed.
#[global] Hint Resolve w_psk_usage : buf.
Lemma w_resumption  : writes_to wr_resumption se_resumption.
Proof. intros x. match goal with |- ?G => change (wr (wr_resumption x) (se_resumption x)) end. unfold wr_resumption, se_resumption. repeat wstep. Qed.
#[global] Hint Resolve w_resumption : buf.
Lemma w_psk  : writes_to wr_psk se_psk.
Proof. intros x. match goal with |- ?G => change (wr (wr_psk x) (se_psk x)) end. unfold wr_psk, se_psk. repeat wstep. Qed.
#[global] Hint Resolve w_psk : buf.
Lemma w_psk_id  : writes_to wr_psk_id se_psk_id.
Proof. intros x. match goal with |- ?G => change (wr (wr_psk_id x) (se_psk_id x)) end. unfold wr_psk_id, se_psk_id. repeat wstep. Qed.
#[global] Hint Resolve w_psk_id : buf.
Lemma w_psk_label  : writes_to wr_psk_label se_psk_label.
Proof. intros x. match goal with |- ?G => change (wr (wr_psk_label x) (se_psk_label x)) end. unfold wr_psk_label, se_psk_label. repeat wstep. Qed.
#[global] Hint Resolve w_psk_label : buf.
Lemma w_add_proposal  : writes_to wr_add_proposal se_add_proposal.
Proof. intros x. match goal with |- ?G => change (wr (wr_add_proposal x) (se_add_proposal x)) end. unfold wr_add_proposal, se_add_proposal. repeat wstep. Qed.
#[global] Hint Resolve w_add_proposal : buf.
Lemma w_update_proposal  : writes_to wr_update_proposal se_update_proposal.
Proof. intros x. match goal with |- ?G => change (wr (wr_update_proposal x) (se_update_proposal x)) end. unfold wr_update_proposal, se_update_proposal. repeat wstep. Qed.
#[global] Hint Resolve w_update_proposal : buf.
Lemma w_remove_proposal  : writes_to wr_remove_proposal se_remove_proposal.
Proof. intros x. match goal with |- ?G => change (wr (wr_remove_proposal x) (se_remove_proposal x)) end. unfold wr_remove_proposal, se_remove_proposal. repeat wstep. Qed.
#[global] Hint Resolve w_remove_proposal : buf.
Lemma w_psk_proposal  : writes_to wr_psk_proposal se_psk_proposal.
Proof. intros x. match goal with |- ?G => change (wr (wr_psk_proposal x) (se_psk_proposal x)) end. unfold wr_psk_proposal, se_psk_proposal. repeat wstep. Qed.
#[global] Hint Resolve w_psk_proposal : buf.
Lemma w_reinit_proposal  : writes_to wr_reinit_proposal se_reinit_proposal.
Proof. intros x. match goal with |- ?G => change (wr (wr_reinit_proposal x) (se_reinit_proposal x)) end. unfold wr_reinit_proposal, se_reinit_proposal. repeat wstep. Qed.
#[global] Hint Resolve w_reinit_proposal : buf.
Lemma w_external_init_proposal  : writes_to wr_external_init_proposal se_external_init_proposal.
Proof. intros x. match goal with |- ?G => change (wr (wr_external_init_proposal x) (se_external_init_proposal x)) end. unfold wr_external_init_proposal, se_external_init_proposal. repeat wstep. Qed.
#[global] Hint Resolve w_external_init_proposal : buf.
Lemma w_gce_proposal  : writes_to wr_gce_proposal se_gce_proposal.
Proof. intros x. match goal with |- ?G => change (wr (wr_gce_proposal x) (se_gce_proposal x)) end. unfold wr_gce_proposal, se_gce_proposal. repeat wstep. Qed.
#[global] Hint Resolve w_gce_proposal : buf.
Lemma w_proposal  : writes_to wr_proposal se_proposal.
Proof. intros x. match goal with |- ?G => change (wr (wr_proposal x) (se_proposal x)) end. unfold wr_proposal, se_proposal. repeat wstep. Qed.
#[global] Hint Resolve w_proposal : buf.
Lemma w_proposal_or_ref  : writes_to wr_proposal_or_ref se_proposal_or_ref.
Proof. intros x. match goal with |- ?G => change (wr (wr_proposal_or_ref x) (se_proposal_or_ref x)) end. unfold wr_proposal_or_ref, se_proposal_or_ref. repeat wstep. Qed.
#[global] Hint Resolve w_proposal_or_ref : buf.
Lemma w_commit  : writes_to wr_commit se_commit.
Proof. intros x. match goal with |- ?G => change (wr (wr_commit x) (se_commit x)) end. unfold wr_commit, se_commit. repeat wstep. Qed.
#[global] Hint Resolve w_commit : buf.
Lemma w_content_body  : writes_to wr_content_body se_content_body.
Proof. intros x. match goal with |- ?G => change (wr (wr_content_body x) (se_content_body x)) end. unfold wr_content_body, se_content_body. repeat wstep. Qed.
#[global] Hint Resolve w_content_body : buf.
Lemma w_content  : writes_to wr_content se_content.
Proof. intros x. match goal with |- ?G => change (wr (wr_content x) (se_content x)) end. unfold wr_content, se_content. repeat wstep. Qed.
#[global] Hint Resolve w_content : buf.
Lemma w_framed_content  : writes_to wr_framed_content se_framed_content.
Proof. intros x. match goal with |- ?G => change (wr (wr_framed_content x) (se_framed_content x)) end. unfold wr_framed_content, se_framed_content. repeat wstep. Qed.
#[global] Hint Resolve w_framed_content : buf.
Lemma w_auth_data ct : writes_to (wr_auth_data ct) (se_auth_data ct).
Proof. intros x. match goal with |- ?G => change (wr ((wr_auth_data ct) x) ((se_auth_data ct) x)) end. unfold wr_auth_data, se_auth_data. repeat wstep. Qed.
#[global] Hint Resolve w_auth_data : buf.
Lemma w_auth_content  : writes_to wr_auth_content se_auth_content.
Proof. intros x. match goal with |- ?G => change (wr (wr_auth_content x) (se_auth_content x)) end. unfold wr_auth_content, se_auth_content. repeat wstep. Qed.
#[global] Hint Resolve w_auth_content : buf.
Lemma w_framed_content_tbs  : writes_to wr_framed_content_tbs se_framed_content_tbs.
Proof. intros x. match goal with |- ?G => change (wr (wr_framed_content_tbs x) (se_framed_content_tbs x)) end. unfold wr_framed_content_tbs, se_framed_content_tbs. repeat wstep. Qed.
#[global] Hint Resolve w_framed_content_tbs : buf.
Lemma w_auth_content_tbm  : writes_to wr_auth_content_tbm se_auth_content_tbm.
Proof. intros x. match goal with |- ?G => change (wr (wr_auth_content_tbm x) (se_auth_content_tbm x)) end. unfold wr_auth_content_tbm, se_auth_content_tbm. repeat wstep. Qed.
#[global] Hint Resolve w_auth_content_tbm : buf.
Lemma w_sender_data  : writes_to wr_sender_data se_sender_data.
Proof. intros x. match goal with |- ?G => change (wr (wr_sender_data x) (se_sender_data x)) end. unfold wr_sender_data, se_sender_data. repeat wstep. Qed.
#[global] Hint Resolve w_sender_data : buf.
Lemma w_sender_data_aad  : writes_to wr_sender_data_aad se_sender_data_aad.
Proof. intros x. match goal with |- ?G => change (wr (wr_sender_data_aad x) (se_sender_data_aad x)) end. unfold wr_sender_data_aad, se_sender_data_aad. repeat wstep. Qed.
#[global] Hint Resolve w_sender_data_aad : buf.
Lemma w_public_message  : writes_to wr_public_message se_public_message.
Proof. intros x. match goal with |- ?G => change (wr (wr_public_message x) (se_public_message x)) end. unfold wr_public_message, se_public_message. repeat wstep. Qed.
#[global] Hint Resolve w_public_message : buf.
Lemma w_private_message  : writes_to wr_private_message se_private_message.
Proof. intros x. match goal with |- ?G => change (wr (wr_private_message x) (se_private_message x)) end. unfold wr_private_message, se_private_message. repeat wstep. Qed.
#[global] Hint Resolve w_private_message : buf.
Lemma w_private_content  : writes_to wr_private_content se_private_content.
Proof. intros x. match goal with |- ?G => change (wr (wr_private_content x) (se_private_content x)) end. unfold wr_private_content, se_private_content. repeat wstep. Qed.
#[global] Hint Resolve w_private_content : buf.
Lemma w_private_content_aad  : writes_to wr_private_content_aad se_private_content_aad.
Proof. intros x. match goal with |- ?G => change (wr (wr_private_content_aad x) (se_private_content_aad x)) end. unfold wr_private_content_aad, se_private_content_aad. repeat wstep. Qed.
#[global] Hint Resolve w_private_content_aad : buf.
Lemma w_group_info_base  : writes_to wr_group_info_base se_group_info_base.
Proof. intros x. match goal with |- ?G => change (wr (wr_group_info_base x) (se_group_info_base x)) end. unfold wr_group_info_base, se_group_info_base. repeat wstep. Qed.
#[global] Hint Resolve w_group_info_base : buf.
Lemma w_group_info  : writes_to wr_group_info se_group_info.
Proof. intros x. match goal with |- ?G => change (wr (wr_group_info x) (se_group_info x)) end. unfold wr_group_info, se_group_info. repeat wstep. Qed.
#[global] Hint Resolve w_group_info : buf.
Lemma w_group_secrets  : writes_to wr_group_secrets se_group_secrets.
Proof. intros x. match goal with |- ?G => change (wr (wr_group_secrets x) (se_group_secrets x)) end. unfold wr_group_secrets, se_group_secrets. repeat wstep. Qed.
#[global] Hint Resolve w_group_secrets : buf.
Lemma w_egs  : writes_to wr_egs se_egs.
Proof. intros x. match goal with |- ?G => change (wr (wr_egs x) (se_egs x)) end. unfold wr_egs, se_egs. repeat wstep. Qed.
#[global] Hint Resolve w_egs : buf.
Lemma w_welcome  : writes_to wr_welcome se_welcome.
Proof. intros x. match goal with |- ?G => change (wr (wr_welcome x) (se_welcome x)) end. unfold wr_welcome, se_welcome. repeat wstep. Qed.
#[global] Hint Resolve w_welcome : buf.
Lemma w_wire_message  : writes_to wr_wire_message se_wire_message.
Proof. intros x. match goal with |- ?G => change (wr (wr_wire_message x) (se_wire_message x)) end. unfold wr_wire_message, se_wire_message. repeat wstep. Qed.
#[global] Hint Resolve w_wire_message : buf.
Lemma w_mls_message  : writes_to wr_mls_message se_mls_message.
Proof. intros x. match goal with |- ?G => change (wr (wr_mls_message x) (se_mls_message x)) end. unfold wr_mls_message, se_mls_message. repeat wstep. Qed.
#[global] Hint Resolve w_mls_message : buf.
Lemma w_confirmed_input  : writes_to wr_confirmed_input se_confirmed_input.
Proof. intros x. match goal with |- ?G => change (wr (wr_confirmed_input x) (se_confirmed_input x)) end. unfold wr_confirmed_input, se_confirmed_input. repeat wstep. Qed.
#[global] Hint Resolve w_confirmed_input : buf.

(** * What a failed call leaves *)

Lemma left_short {A} (r : bytes -> reading A) d bs : reads_from r d -> (length (snd (r bs)) <= length bs)%nat.
Proof. intros H. destruct (H bs) as [[p E] _]. rewrite E at 2. rewrite app_length. lia. Qed.
Lemma read_u16_two bs : (2 <= length bs)%nat -> exists v, r_read_u16 bs = (Ok v, skipn 2 bs).
Proof.
  intros H. unfold r_read_u16, r_need, need, r_get_u16, r_get_be, get_be. assert (E : Nat.ltb (length bs) 2 = false) by (apply Nat.ltb_ge; exact H).
  rewrite E. cbn [rbind]. rewrite E. eexists. reflexivity.
Qed.
Lemma c116_taken bs : (2 <= length bs)%nat -> (length (snd (rd_mls_message bs)) + 2 <= length bs)%nat.
Proof.
  intros H. unfold rd_mls_message. destruct (read_u16_two bs H) as [v ->]. cbn [rbind].
  assert (L : length (skipn 2 bs) = (length bs - 2)%nat) by apply skipn_length.
  destruct (negb _); [cbn [snd]; lia|].
  pose proof (left_short _ _ (skipn 2 bs) r_wire_message) as K.
  destruct (rd_wire_message (skipn 2 bs)) as [[a|e| |] rest]; cbn [rbind snd] in *; lia.
Qed.
Lemma c116_refuted_read bs e : (2 <= length bs)%nat -> de_mls_message bs = Err e -> fst (rd_mls_message bs) = Err e /\ snd (rd_mls_message bs) <> bs.
Proof.
  intros H E. destruct (r_mls_message bs) as [_ M]. rewrite E in M. split; [exact M|]. intros C. pose proof (c116_taken bs H) as K. rewrite C in K. lia.
Qed.
Lemma opaque_long v : 2 ^ 30 <= N.of_nat (length v) -> exists e, forall b, wr_opaque v b = (Err e, b).
Proof.
  intros H. unfold wr_opaque. destruct (_ <=? _); [eexists; reflexivity|]. exists VarintExceeds30Bits. intros b. unfold w_then, wr_varint.
  change (N.shiftl 1 6) with 64. change (N.shiftl 1 14) with 16384. change (N.shiftl 1 30) with (2 ^ 30).
  assert (2 ^ 30 = 1073741824) as P by reflexivity. rewrite P in *.
  assert (E1 : N.of_nat (length v) <? 64 = false) by (apply N.ltb_ge; lia). assert (E2 : N.of_nat (length v) <? 16384 = false) by (apply N.ltb_ge; lia).
  assert (E3 : N.of_nat (length v) <? 1073741824 = false) by (apply N.ltb_ge; lia). rewrite E1, E2, E3. reflexivity.
Qed.
Lemma c116_refuted_write k x b : se_key_package_tbs (kp_payload k) = Ok x -> 2 ^ 30 <= N.of_nat (length (kp_signature k)) -> fits x b ->
  exists e, wr_key_package k b = (Err e, add x b).
Proof.
  intros E L F. destruct (w_key_package_tbs (kp_payload k)) as [v [V X]]. specialize (V x E). subst v. destruct (X b) as [X1 _]. specialize (X1 F).
  destruct (opaque_long _ L) as [e O]. exists e. unfold wr_key_package, w_then. rewrite X1, E. cbn [ends]. apply O.
Qed.
Lemma c116_room m x h r : se_mls_message m = Ok x -> r < N.of_nat (length x) -> fst (wr_mls_message m (MkOut h (Some r))) = Panic.
Proof.
  intros E L. destruct (w_mls_message m) as [v [V X]]. specialize (V x E). subst v. destruct (X (MkOut h (Some r))) as [_ X2].
  destruct X2 as [P _]; [|exact P]. unfold fits. cbn [room]. lia.
Qed.
Lemma c116_exchange m p h more : wf_mls_message m -> se_mls_message m = Ok p ->
  wr_mls_message m (MkOut h None) = (Ok tt, MkOut (h ++ p) None) /\ rd_mls_message (p ++ more) = (Ok m, more).
Proof.
  intros W E. split.
  - destruct (w_mls_message m) as [v [V X]]. specialize (V p E). subst v. destruct (X (MkOut h None)) as [X1 _]. rewrite (X1 I), E. reflexivity.
  - destruct (r_mls_message (p ++ more)) as [_ R]. rewrite (codec_rt codec_mls_message m p more W E) in R. exact R.
Qed.
Lemma c116_refuted_cut m p q : wf_mls_message m -> se_mls_message m = Ok p -> cut_of p q -> (2 <= length q)%nat ->
  ~ cut_in_lifetime (before_lifetime m) (length q) ->
  fst (rd_mls_message q) = Err BufferTooSmall /\ (length (snd (rd_mls_message q)) + 2 <= length q)%nat.
Proof.
  intros W E C L N. destruct (c105_cut m p q W E C) as [_ K]. specialize (K N). split; [|exact (c116_taken q L)].
  destruct (r_mls_message q) as [_ R]. rewrite K in R. exact R.
Qed.
Lemma c116_reads :
  reads_from rd_secret_key de_secret_key /\
  reads_from rd_identity de_identity /\
  reads_from rd_certificate de_certificate /\
  reads_from rd_credential de_credential /\
  reads_from rd_signature_scheme de_signature_scheme /\
  reads_from rd_signature_key_pair de_signature_key_pair /\
  reads_from rd_hpke_key_pair de_hpke_key_pair /\
  reads_from rd_content_type de_content_type /\
  reads_from rd_sender_type de_sender_type /\
  reads_from rd_sender de_sender /\
  reads_from rd_wire_format de_wire_format /\
  reads_from rd_extension de_extension /\
  reads_from rd_extensions de_extensions /\
  reads_from rd_application_id de_application_id /\
  reads_from rd_unknown_extension de_unknown_extension /\
  reads_from rd_external_pub de_external_pub /\
  reads_from rd_external_senders de_external_senders /\
  reads_from rd_proposal_type de_proposal_type /\
  reads_from rd_required_capabilities de_required_capabilities /\
  reads_from rd_lifetime de_lifetime /\
  reads_from rd_leaf_node_source de_leaf_node_source /\
  reads_from rd_capabilities de_capabilities /\
  reads_from rd_leaf_payload de_leaf_payload /\
  reads_from rd_leaf_node de_leaf_node /\
  reads_from rd_parent_node de_parent_node /\
  reads_from rd_hpke_ciphertext de_hpke_ciphertext /\
  reads_from rd_update_path_node de_update_path_node /\
  reads_from rd_update_path de_update_path /\
  reads_from rd_node_type de_node_type /\
  reads_from rd_node de_node /\
  reads_from rd_ratchet_tree de_ratchet_tree /\
  reads_from rd_ratchet_tree_extension de_ratchet_tree_extension /\
  reads_from rd_key_package_ref de_key_package_ref /\
  reads_from rd_key_package_tbs de_key_package_tbs /\
  reads_from rd_key_package de_key_package /\
  reads_from rd_group_context de_group_context /\
  reads_from rd_psk_type de_psk_type /\
  reads_from rd_psk_usage de_psk_usage /\
  reads_from rd_resumption de_resumption /\
  reads_from rd_psk de_psk /\
  reads_from rd_psk_id de_psk_id /\
  reads_from rd_psk_label de_psk_label /\
  reads_from rd_add_proposal de_add_proposal /\
  reads_from rd_update_proposal de_update_proposal /\
  reads_from rd_remove_proposal de_remove_proposal /\
  reads_from rd_psk_proposal de_psk_proposal /\
  reads_from rd_reinit_proposal de_reinit_proposal /\
  reads_from rd_external_init_proposal de_external_init_proposal /\
  reads_from rd_gce_proposal de_gce_proposal /\
  reads_from rd_proposal de_proposal /\
  reads_from rd_proposal_or_ref de_proposal_or_ref /\
  reads_from rd_commit de_commit /\
  reads_from rd_content de_content /\
  reads_from rd_framed_content de_framed_content /\
  (forall ct, reads_from (rd_auth_data ct) (de_auth_data ct)) /\
  reads_from rd_auth_content de_auth_content /\
  reads_from rd_framed_content_tbs de_framed_content_tbs /\
  reads_from rd_auth_content_tbm de_auth_content_tbm /\
  reads_from rd_sender_data de_sender_data /\
  reads_from rd_public_message de_public_message /\
  reads_from rd_private_message de_private_message /\
  reads_from rd_private_content_aad de_private_content_aad /\
  reads_from rd_group_info de_group_info /\
  reads_from rd_group_secrets de_group_secrets /\
  reads_from rd_egs de_egs /\
  reads_from rd_welcome de_welcome /\
  reads_from rd_wire_message de_wire_message /\
  reads_from rd_mls_message de_mls_message /\
  reads_from rd_confirmed_input de_confirmed_input.
Proof. repeat match goal with |- _ /\ _ => split end; auto with buf. Qed.
Lemma c116_writes :
  writes_to wr_secret_key se_secret_key /\
  writes_to wr_identity se_identity /\
  writes_to wr_certificate se_certificate /\
  writes_to wr_credential se_credential /\
  writes_to wr_signature_scheme se_signature_scheme /\
  writes_to wr_signature_key_pair se_signature_key_pair /\
  writes_to wr_hpke_key_pair se_hpke_key_pair /\
  writes_to wr_content_type se_content_type /\
  writes_to wr_sender_type se_sender_type /\
  writes_to wr_sender se_sender /\
  writes_to wr_wire_format se_wire_format /\
  writes_to wr_extension se_extension /\
  writes_to wr_extensions se_extensions /\
  writes_to wr_application_id se_application_id /\
  writes_to wr_unknown_extension se_unknown_extension /\
  writes_to wr_external_pub se_external_pub /\
  writes_to wr_external_senders se_external_senders /\
  writes_to wr_proposal_type se_proposal_type /\
  writes_to wr_required_capabilities se_required_capabilities /\
  writes_to wr_lifetime se_lifetime /\
  writes_to wr_leaf_node_source se_leaf_node_source /\
  writes_to wr_capabilities se_capabilities /\
  writes_to wr_leaf_payload se_leaf_payload /\
  writes_to wr_leaf_node se_leaf_node /\
  (forall t, writes_to (fun p => wr_leaf_node_tbs p t) (fun p => se_leaf_node_tbs p t)) /\
  writes_to wr_parent_node se_parent_node /\
  writes_to wr_hpke_ciphertext se_hpke_ciphertext /\
  writes_to wr_update_path_node se_update_path_node /\
  writes_to wr_update_path se_update_path /\
  writes_to wr_node_type se_node_type /\
  writes_to wr_node se_node /\
  writes_to wr_ratchet_tree se_ratchet_tree /\
  writes_to wr_ratchet_tree_extension se_ratchet_tree_extension /\
  writes_to wr_key_package_ref se_key_package_ref /\
  writes_to wr_key_package_tbs se_key_package_tbs /\
  writes_to wr_key_package se_key_package /\
  writes_to wr_group_context se_group_context /\
  writes_to wr_psk_type se_psk_type /\
  writes_to wr_psk_usage se_psk_usage /\
  writes_to wr_resumption se_resumption /\
  writes_to wr_psk se_psk /\
  writes_to wr_psk_id se_psk_id /\
  writes_to wr_psk_label se_psk_label /\
  writes_to wr_add_proposal se_add_proposal /\
  writes_to wr_update_proposal se_update_proposal /\
  writes_to wr_remove_proposal se_remove_proposal /\
  writes_to wr_psk_proposal se_psk_proposal /\
  writes_to wr_reinit_proposal se_reinit_proposal /\
  writes_to wr_external_init_proposal se_external_init_proposal /\
  writes_to wr_gce_proposal se_gce_proposal /\
  writes_to wr_proposal se_proposal /\
  writes_to wr_proposal_or_ref se_proposal_or_ref /\
  writes_to wr_commit se_commit /\
  writes_to wr_content se_content /\
  writes_to wr_framed_content se_framed_content /\
  (forall ct, writes_to (wr_auth_data ct) (se_auth_data ct)) /\
  writes_to wr_auth_content se_auth_content /\
  writes_to wr_framed_content_tbs se_framed_content_tbs /\
  writes_to wr_auth_content_tbm se_auth_content_tbm /\
  writes_to wr_sender_data se_sender_data /\
  writes_to wr_sender_data_aad se_sender_data_aad /\
  writes_to wr_public_message se_public_message /\
  writes_to wr_private_message se_private_message /\
  writes_to wr_private_content se_private_content /\
  writes_to wr_private_content_aad se_private_content_aad /\
  writes_to wr_group_info se_group_info /\
  writes_to wr_group_secrets se_group_secrets /\
  writes_to wr_egs se_egs /\
  writes_to wr_welcome se_welcome /\
  writes_to wr_wire_message se_wire_message /\
  writes_to wr_mls_message se_mls_message /\
  writes_to wr_confirmed_input se_confirmed_input.
Proof. repeat match goal with |- _ /\ _ => split end; auto with buf. Qed.
Lemma vector_left {A} (f : bytes -> reading A) bs v rest : de_opaque bs = Ok (v, rest) -> snd (rd_vector f bs) = rest.
Proof.
  intros H. pose proof (reads_varint bs) as [_ V]. unfold de_opaque in H. unfold rd_vector. destruct (de_varint bs) as [[n r]| | |]; cbn [bind] in H; try discriminate H.
  rewrite V. cbn [rbind]. destruct (_ <? n); [discriminate H|]. pose proof (reads_copy n r) as [_ C]. rewrite H in C. rewrite C. reflexivity.
Qed.
Lemma c116_in_step bs v rest : de_opaque bs = Ok (v, rest) ->
  snd (rd_extensions bs) = rest /\ snd (rd_ratchet_tree bs) = rest /\ (forall A (f : bytes -> reading A), snd (rd_vector f bs) = rest).
Proof.
  intros H. split; [apply (vector_left _ _ v), H|]. split; [|intros A f; apply (vector_left _ _ v), H].
  unfold rd_ratchet_tree. pose proof (vector_left (rd_option rd_node) bs v rest H) as L. destruct (rd_vector (rd_option rd_node) bs) as [[l|e| |] r]; cbn [rbind snd] in *; try exact L.
  destruct (pad_blank (length l + 1) l); cbn [rbind snd]; exact L.
Qed.
Lemma c116_none bs : (length bs < 2)%nat -> rd_mls_message bs = (Err BufferTooSmall, bs).
Proof.
  intros H. unfold rd_mls_message, r_read_u16, r_need, need. assert (E : Nat.ltb (length bs) 2 = true) by (apply Nat.ltb_lt; exact H). rewrite E. reflexivity.
Qed.
