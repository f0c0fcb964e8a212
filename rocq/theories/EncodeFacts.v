(** Proofs for C114. *)
From Verif Require Import SpecEncode TreeCodec SpecJoin JoinFacts.
From Coq Require Import Lia.
Import Coq.Strings.Byte.
Local Open Scope N_scope.

Definition tallies (m : counted bytes) (r : res bytes) (K : N) : Prop :=
  fst m = r /\ forall bs, r = Ok bs -> N.of_nat (length bs) <= snd m <= K * N.of_nat (length bs).
Definition some (r : res bytes) : Prop := forall bs, r = Ok bs -> 1 <= N.of_nat (length bs).
Definition makes1 {A} (c : A -> counted bytes) (f : A -> res bytes) (K : N) : Prop := forall a, tallies (c a) (f a) K /\ some (f a).

Lemma makes1_makes {A} (c : A -> counted bytes) f K : makes1 c f K -> makes c f K.
Proof. intros H a. apply H. Qed.
Lemma t_of {A} (c : A -> counted bytes) f K a : makes1 c f K -> tallies (c a) (f a) K.
Proof. intros H. apply H. Qed.
Lemma s_of {A} (c : A -> counted bytes) f K a : makes1 c f K -> some (f a).
Proof. intros H. apply (H a). Qed.
Lemma t_mono m r K K' : tallies m r K -> K <= K' -> tallies m r K'.
Proof. intros [E H] L. split; [exact E|]. intros bs Hb. specialize (H bs Hb). split; [lia|]. nia. Qed.
Lemma t_seq x y a b K : tallies x a K -> tallies y b K -> tallies (x +-+ y) (a +++ b) K.
Proof.
  intros [E H] [E' H']. unfold c_then, cbind, seqw, bind, ret. rewrite E.
  destruct a as [u|?| |]; cbn [fst snd]; try (split; [reflexivity|discriminate]). rewrite E'.
  destruct b as [w|?| |]; cbn [fst snd]; try (split; [reflexivity|discriminate]). split; [reflexivity|].
  intros bs [= <-]. specialize (H u eq_refl). specialize (H' w eq_refl). rewrite app_length, Nat2N.inj_add. cbn [snd]. rewrite N.mul_add_distr_l. lia.
Qed.
Lemma s_seq a b : some a -> some (a +++ b).
Proof.
  intros H bs. unfold seqw, bind. destruct a as [u| | |]; try discriminate. destruct b as [w| | |]; try discriminate. intros [= <-].
  specialize (H u eq_refl). rewrite app_length. lia.
Qed.
Lemma t_put v : tallies (c_put v) (Ok v) 1.
Proof. split; [reflexivity|]. intros bs [= <-]. cbn [c_put snd]. lia. Qed.
Lemma be_len k n : length (be k n) = k.
Proof. revert n. induction k; intros; cbn [be]; rewrite ?app_length; cbn [length]; try rewrite IHk; lia. Qed.
Lemma t_ret : tallies (ret []) (Ok []) 1.
Proof. split; [reflexivity|]. intros bs [= <-]. cbn. lia. Qed.
Lemma t_fail e K : tallies (fail e) (Err e) K.
Proof. split; [reflexivity|discriminate]. Qed.
Lemma s_fail e : some (Err e).
Proof. discriminate. Qed.
Lemma s_be k n : (k <> 0)%nat -> some (Ok (be k n)).
Proof. intros H bs [= <-]. rewrite be_len. lia. Qed.

Lemma m_put_u8 : makes1 c_put_u8 put_u8 1.
Proof. intros n. split; [apply t_put|apply s_be; discriminate]. Qed.
Lemma m_put_u16 : makes1 c_put_u16 put_u16 1.
Proof. intros n. split; [apply t_put|apply s_be; discriminate]. Qed.
Lemma m_put_u32 : makes1 c_put_u32 put_u32 1.
Proof. intros n. split; [apply t_put|apply s_be; discriminate]. Qed.
Lemma m_put_u64 : makes1 c_put_u64 put_u64 1.
Proof. intros n. split; [apply t_put|apply s_be; discriminate]. Qed.
Lemma m_varint : makes1 ce_varint se_varint 1.
Proof.
  intros n. unfold ce_varint, se_varint.
  destruct (n <? N.shiftl 1 6); [apply m_put_u8|]. destruct (n <? N.shiftl 1 14); [apply m_put_u16|]. destruct (n <? N.shiftl 1 30); [apply m_put_u32|].
  split; [apply t_fail|apply s_fail].
Qed.
Lemma m_opaque : makes1 ce_opaque se_opaque 1.
Proof.
  intros v. unfold ce_opaque, se_opaque. destruct (_ <=? _); [split; [apply t_fail|apply s_fail]|].
  split; [apply t_seq; [apply m_varint|apply t_put]|]. apply s_seq. apply m_varint.
Qed.
Lemma t_elems {A} (c : A -> counted bytes) f K l : makes1 c f K -> tallies (ce_elems c l) (se_elems f l) (K + 1).
Proof.
  intros H. induction l as [|a l IH]; cbn [ce_elems se_elems].
  - eapply t_mono; [apply t_ret|lia].
  - destruct (H a) as [T S].
    assert (Q : tallies (c a +-+ ce_elems c l) (f a +++ se_elems f l) (K + 1)) by (apply t_seq; [eapply t_mono; [exact T|lia]|exact IH]).
    destruct T as [E B], IH as [E' B'], Q as [E'' B'']. split; [exact E''|]. intros bs Hb. cbn [costing snd].
    unfold c_then, cbind, ret. rewrite E, E'. unfold seqw, bind in Hb.
    destruct (f a) as [u| | |] eqn:Fa; try discriminate Hb. destruct (se_elems f l) as [w| | |] eqn:Fl; try discriminate Hb.
    injection Hb as <-. cbn [fst snd]. specialize (B u eq_refl). specialize (B' w eq_refl). specialize (S u eq_refl). rewrite app_length, Nat2N.inj_add. nia.
Qed.
Lemma m_vector {A} (c : A -> counted bytes) f K : makes1 c f K -> makes1 (ce_vector c) (se_vector f) (K + 2).
Proof.
  intros H l. pose proof (t_elems c f K l H) as [E B]. unfold ce_vector, se_vector, costing, cbind, bind. rewrite E.
  destruct (se_elems f l) as [raw| | |]; cbn [fst snd]; try (split; [split; [reflexivity|discriminate]|discriminate]).
  destruct (m_opaque raw) as [[Eo Bo] So]. split; [|exact So]. split; [exact Eo|]. intros bs Hb. specialize (B raw eq_refl). specialize (Bo bs Hb). specialize (So bs Hb). cbn [snd].
  assert (L : N.of_nat (length raw) + 1 <= N.of_nat (length bs)); [|nia].
  revert Hb. unfold se_opaque. destruct (_ <=? _); [discriminate|]. unfold seqw, bind.
  destruct (m_varint (N.of_nat (length raw))) as [_ Sv]. destruct (se_varint _) as [h| | |]; try discriminate. specialize (Sv h eq_refl). intros [= <-]. rewrite app_length. lia.
Qed.
Lemma m_option {A} (c : A -> counted bytes) f K : 1 <= K -> makes1 c f K -> makes1 (ce_option c) (se_option f) K.
Proof.
  intros L H [a|]; cbn [ce_option se_option]; unfold ce_optflag, se_optflag.
  - split; [apply t_seq; [eapply t_mono; [apply m_put_u8|exact L]|apply H]|apply s_seq, m_put_u8].
  - split; [eapply t_mono; [apply m_put_u8|exact L]|apply m_put_u8].
Qed.
Lemma m_option' {A} (c : A -> counted bytes) f K : makes1 c f K -> makes1 (ce_option c) (se_option f) (N.max 1 K).
Proof. intros H. apply m_option; [lia|]. intros a. split; [eapply t_mono; [apply H|lia]|apply (H a)]. Qed.

Create HintDb tally.
#[global] Hint Resolve m_put_u8 m_put_u16 m_put_u32 m_put_u64 m_opaque m_vector m_option' : tally.
#[global] Hint Resolve t_ret t_put : tally.
Ltac tl :=
  repeat match goal with
  | |- tallies (_ +-+ _) _ _ => apply t_seq
  | |- tallies (fail _) _ _ => apply t_fail
  | |- tallies (ret _) _ _ => eapply t_mono; [apply t_ret|lia]
  | |- tallies (c_put _) _ _ => eapply t_mono; [apply t_put|lia]
  | |- tallies (match ?x with _ => _ end) _ _ => destruct x
  | |- tallies (_ _) (_ _) _ => eapply t_mono; [eapply t_of; solve [eauto with tally nocore]|cbn; lia]
  end.
Ltac sl :=
  repeat match goal with
  | |- some (_ +++ _) => apply s_seq
  | |- some (Err _) => apply s_fail
  | |- some (match ?x with _ => _ end) => destruct x
  | |- some (_ _) => eapply s_of; solve [eauto with tally nocore]
  end.
Ltac mk c f := intros a; unfold c, f; split; [tl|sl].

Lemma m_secret_key : makes1 ce_secret_key se_secret_key 1.
Proof. mk ce_secret_key se_secret_key. Qed.
#[global] Hint Resolve m_secret_key : tally.
Lemma m_identity : makes1 ce_identity se_identity 1.
Proof. mk ce_identity se_identity. Qed.
#[global] Hint Resolve m_identity : tally.
Lemma m_certificate : makes1 ce_certificate se_certificate 1.
Proof. mk ce_certificate se_certificate. Qed.
#[global] Hint Resolve m_certificate : tally.
Lemma m_credential : makes1 ce_credential se_credential 3.
Proof. mk ce_credential se_credential. Qed.
#[global] Hint Resolve m_credential : tally.
Lemma m_signature_scheme : makes1 ce_signature_scheme se_signature_scheme 1.
Proof. mk ce_signature_scheme se_signature_scheme. Qed.
#[global] Hint Resolve m_signature_scheme : tally.
Lemma m_signature_key_pair : makes1 ce_signature_key_pair se_signature_key_pair 1.
Proof. mk ce_signature_key_pair se_signature_key_pair. Qed.
#[global] Hint Resolve m_signature_key_pair : tally.
Lemma m_hpke_key_pair : makes1 ce_hpke_key_pair se_hpke_key_pair 1.
Proof. mk ce_hpke_key_pair se_hpke_key_pair. Qed.
#[global] Hint Resolve m_hpke_key_pair : tally.
Lemma m_content_type : makes1 ce_content_type se_content_type 1.
Proof. mk ce_content_type se_content_type. Qed.
#[global] Hint Resolve m_content_type : tally.
Lemma m_sender_type : makes1 ce_sender_type se_sender_type 1.
Proof. mk ce_sender_type se_sender_type. Qed.
#[global] Hint Resolve m_sender_type : tally.
Lemma m_sender : makes1 ce_sender se_sender 1.
Proof. mk ce_sender se_sender. Qed.
#[global] Hint Resolve m_sender : tally.
Lemma m_wire_format : makes1 ce_wire_format se_wire_format 1.
Proof. mk ce_wire_format se_wire_format. Qed.
#[global] Hint Resolve m_wire_format : tally.
Lemma m_extension : makes1 ce_extension se_extension 1.
Proof. mk ce_extension se_extension. Qed.
#[global] Hint Resolve m_extension : tally.
Lemma m_extensions : makes1 ce_extensions se_extensions 3.
Proof. mk ce_extensions se_extensions. Qed.
#[global] Hint Resolve m_extensions : tally.
Lemma m_application_id : makes1 ce_application_id se_application_id 1.
Proof. mk ce_application_id se_application_id. Qed.
#[global] Hint Resolve m_application_id : tally.
Lemma m_unknown_extension : makes1 ce_unknown_extension se_unknown_extension 1.
Proof. mk ce_unknown_extension se_unknown_extension. Qed.
#[global] Hint Resolve m_unknown_extension : tally.
Lemma m_external_pub : makes1 ce_external_pub se_external_pub 1.
Proof. mk ce_external_pub se_external_pub. Qed.
#[global] Hint Resolve m_external_pub : tally.
Lemma m_external_senders : makes1 ce_external_senders se_external_senders 3.
Proof. mk ce_external_senders se_external_senders. Qed.
#[global] Hint Resolve m_external_senders : tally.
Lemma m_proposal_type : makes1 ce_proposal_type se_proposal_type 1.
Proof. mk ce_proposal_type se_proposal_type. Qed.
#[global] Hint Resolve m_proposal_type : tally.
Lemma m_u16_as {A} (g : A -> N) : makes1 (ce_u16_as g) (se_u16_as g) 1.
Proof. intros a. unfold ce_u16_as, se_u16_as. apply m_put_u16. Qed.
#[global] Hint Resolve m_u16_as : tally.
Lemma m_required_capabilities : makes1 ce_required_capabilities se_required_capabilities 3.
Proof. mk ce_required_capabilities se_required_capabilities. Qed.
#[global] Hint Resolve m_required_capabilities : tally.
Lemma m_lifetime : makes1 ce_lifetime se_lifetime 1.
Proof. mk ce_lifetime se_lifetime. Qed.
#[global] Hint Resolve m_lifetime : tally.
Lemma m_leaf_node_source : makes1 ce_leaf_node_source se_leaf_node_source 1.
Proof. mk ce_leaf_node_source se_leaf_node_source. Qed.
#[global] Hint Resolve m_leaf_node_source : tally.
Lemma m_capabilities : makes1 ce_capabilities se_capabilities 3.
Proof. mk ce_capabilities se_capabilities. Qed.
#[global] Hint Resolve m_capabilities : tally.
Lemma m_leaf_payload : makes1 ce_leaf_payload se_leaf_payload 3.
Proof. mk ce_leaf_payload se_leaf_payload. Qed.
#[global] Hint Resolve m_leaf_payload : tally.
Lemma m_leaf_node : makes1 ce_leaf_node se_leaf_node 3.
Proof. mk ce_leaf_node se_leaf_node. Qed.
#[global] Hint Resolve m_leaf_node : tally.
Lemma m_leaf_node_tbs t : makes1 (fun p => ce_leaf_node_tbs p t) (fun p => se_leaf_node_tbs p t) 3.
Proof. mk ce_leaf_node_tbs se_leaf_node_tbs. Qed.
Lemma m_parent_node : makes1 ce_parent_node se_parent_node 3.
Proof. mk ce_parent_node se_parent_node. Qed.
#[global] Hint Resolve m_parent_node : tally.
Lemma m_hpke_ciphertext : makes1 ce_hpke_ciphertext se_hpke_ciphertext 1.
Proof. mk ce_hpke_ciphertext se_hpke_ciphertext. Qed.
#[global] Hint Resolve m_hpke_ciphertext : tally.
Lemma m_update_path_node : makes1 ce_update_path_node se_update_path_node 3.
Proof. mk ce_update_path_node se_update_path_node. Qed.
#[global] Hint Resolve m_update_path_node : tally.
Lemma m_update_path : makes1 ce_update_path se_update_path 5.
Proof. mk ce_update_path se_update_path. Qed.
#[global] Hint Resolve m_update_path : tally.
Lemma m_node_type : makes1 ce_node_type se_node_type 1.
Proof. mk ce_node_type se_node_type. Qed.
#[global] Hint Resolve m_node_type : tally.
Lemma m_node : makes1 ce_node se_node 3.
Proof. mk ce_node se_node. Qed.
#[global] Hint Resolve m_node : tally.
Lemma m_key_package_ref : makes1 ce_key_package_ref se_key_package_ref 1.
Proof. mk ce_key_package_ref se_key_package_ref. Qed.
#[global] Hint Resolve m_key_package_ref : tally.
Lemma m_key_package_tbs : makes1 ce_key_package_tbs se_key_package_tbs 3.
Proof. mk ce_key_package_tbs se_key_package_tbs. Qed.
#[global] Hint Resolve m_key_package_tbs : tally.
Lemma m_key_package : makes1 ce_key_package se_key_package 3.
Proof. mk ce_key_package se_key_package. Qed.
#[global] Hint Resolve m_key_package : tally.
Lemma m_group_context : makes1 ce_group_context se_group_context 3.
Proof. mk ce_group_context se_group_context. Qed.
#[global] Hint Resolve m_group_context : tally.
Lemma m_psk_type : makes1 ce_psk_type se_psk_type 1.
Proof. mk ce_psk_type se_psk_type. Qed.
#[global] Hint Resolve m_psk_type : tally.
Lemma m_psk_usage : makes1 ce_psk_usage se_psk_usage 1.
Proof. mk ce_psk_usage se_psk_usage. Qed.
#[global] Hint Resolve m_psk_usage : tally.
Lemma m_resumption : makes1 ce_resumption se_resumption 1.
Proof. mk ce_resumption se_resumption. Qed.
#[global] Hint Resolve m_resumption : tally.
Lemma m_psk : makes1 ce_psk se_psk 1.
Proof. mk ce_psk se_psk. Qed.
#[global] Hint Resolve m_psk : tally.
Lemma m_psk_id : makes1 ce_psk_id se_psk_id 1.
Proof. mk ce_psk_id se_psk_id. Qed.
#[global] Hint Resolve m_psk_id : tally.
Lemma m_psk_label : makes1 ce_psk_label se_psk_label 1.
Proof. mk ce_psk_label se_psk_label. Qed.
#[global] Hint Resolve m_psk_label : tally.
Lemma m_add_proposal : makes1 ce_add_proposal se_add_proposal 3.
Proof. mk ce_add_proposal se_add_proposal. Qed.
#[global] Hint Resolve m_add_proposal : tally.
Lemma m_update_proposal : makes1 ce_update_proposal se_update_proposal 3.
Proof. mk ce_update_proposal se_update_proposal. Qed.
#[global] Hint Resolve m_update_proposal : tally.
Lemma m_remove_proposal : makes1 ce_remove_proposal se_remove_proposal 1.
Proof. mk ce_remove_proposal se_remove_proposal. Qed.
#[global] Hint Resolve m_remove_proposal : tally.
Lemma m_psk_proposal : makes1 ce_psk_proposal se_psk_proposal 1.
Proof. mk ce_psk_proposal se_psk_proposal. Qed.
#[global] Hint Resolve m_psk_proposal : tally.
Lemma m_reinit_proposal : makes1 ce_reinit_proposal se_reinit_proposal 3.
Proof. mk ce_reinit_proposal se_reinit_proposal. Qed.
#[global] Hint Resolve m_reinit_proposal : tally.
Lemma m_external_init_proposal : makes1 ce_external_init_proposal se_external_init_proposal 1.
Proof. mk ce_external_init_proposal se_external_init_proposal. Qed.
#[global] Hint Resolve m_external_init_proposal : tally.
Lemma m_gce_proposal : makes1 ce_gce_proposal se_gce_proposal 3.
Proof. mk ce_gce_proposal se_gce_proposal. Qed.
#[global] Hint Resolve m_gce_proposal : tally.
Lemma m_proposal : makes1 ce_proposal se_proposal 3.
Proof. mk ce_proposal se_proposal. Qed.
#[global] Hint Resolve m_proposal : tally.
Lemma m_proposal_or_ref : makes1 ce_proposal_or_ref se_proposal_or_ref 3.
Proof. mk ce_proposal_or_ref se_proposal_or_ref. Qed.
#[global] Hint Resolve m_proposal_or_ref : tally.
Lemma m_commit : makes1 ce_commit se_commit 5.
Proof. mk ce_commit se_commit. Qed.
#[global] Hint Resolve m_commit : tally.
Lemma m_content_body : makes1 ce_content_body se_content_body 5.
Proof. mk ce_content_body se_content_body. Qed.
#[global] Hint Resolve m_content_body : tally.
Lemma m_content : makes1 ce_content se_content 5.
Proof. mk ce_content se_content. Qed.
#[global] Hint Resolve m_content : tally.
Lemma m_framed_content : makes1 ce_framed_content se_framed_content 5.
Proof. mk ce_framed_content se_framed_content. Qed.
#[global] Hint Resolve m_framed_content : tally.
Lemma m_auth_data ct : makes1 (ce_auth_data ct) (se_auth_data ct) 1.
Proof. mk ce_auth_data se_auth_data. Qed.
#[global] Hint Resolve m_auth_data : tally.
Lemma m_auth_content : makes1 ce_auth_content se_auth_content 5.
Proof. mk ce_auth_content se_auth_content. Qed.
#[global] Hint Resolve m_auth_content : tally.
Lemma m_framed_content_tbs : makes1 ce_framed_content_tbs se_framed_content_tbs 5.
Proof. mk ce_framed_content_tbs se_framed_content_tbs. Qed.
#[global] Hint Resolve m_framed_content_tbs : tally.
Lemma m_auth_content_tbm : makes1 ce_auth_content_tbm se_auth_content_tbm 5.
Proof. mk ce_auth_content_tbm se_auth_content_tbm. Qed.
#[global] Hint Resolve m_auth_content_tbm : tally.
Lemma m_sender_data : makes1 ce_sender_data se_sender_data 1.
Proof. mk ce_sender_data se_sender_data. Qed.
#[global] Hint Resolve m_sender_data : tally.
Lemma m_sender_data_aad : makes1 ce_sender_data_aad se_sender_data_aad 1.
Proof. mk ce_sender_data_aad se_sender_data_aad. Qed.
#[global] Hint Resolve m_sender_data_aad : tally.
Lemma m_public_message : makes1 ce_public_message se_public_message 5.
Proof. mk ce_public_message se_public_message. Qed.
#[global] Hint Resolve m_public_message : tally.
Lemma m_private_message : makes1 ce_private_message se_private_message 1.
Proof. mk ce_private_message se_private_message. Qed.
#[global] Hint Resolve m_private_message : tally.
Lemma m_private_content : makes1 ce_private_content se_private_content 5.
Proof. mk ce_private_content se_private_content. Qed.
#[global] Hint Resolve m_private_content : tally.
Lemma m_private_content_aad : makes1 ce_private_content_aad se_private_content_aad 1.
Proof. mk ce_private_content_aad se_private_content_aad. Qed.
#[global] Hint Resolve m_private_content_aad : tally.
Lemma m_group_info_base : makes1 ce_group_info_base se_group_info_base 3.
Proof. mk ce_group_info_base se_group_info_base. Qed.
#[global] Hint Resolve m_group_info_base : tally.
Lemma m_group_info : makes1 ce_group_info se_group_info 3.
Proof. mk ce_group_info se_group_info. Qed.
#[global] Hint Resolve m_group_info : tally.
Lemma m_group_secrets : makes1 ce_group_secrets se_group_secrets 3.
Proof. mk ce_group_secrets se_group_secrets. Qed.
#[global] Hint Resolve m_group_secrets : tally.
Lemma m_egs : makes1 ce_egs se_egs 1.
Proof. mk ce_egs se_egs. Qed.
#[global] Hint Resolve m_egs : tally.
Lemma m_welcome : makes1 ce_welcome se_welcome 3.
Proof. mk ce_welcome se_welcome. Qed.
#[global] Hint Resolve m_welcome : tally.
Lemma m_wire_message : makes1 ce_wire_message se_wire_message 5.
Proof. mk ce_wire_message se_wire_message. Qed.
#[global] Hint Resolve m_wire_message : tally.
Lemma m_mls_message : makes1 ce_mls_message se_mls_message 5.
Proof. mk ce_mls_message se_mls_message. Qed.
#[global] Hint Resolve m_mls_message : tally.
Lemma m_confirmed_input : makes1 ce_confirmed_input se_confirmed_input 5.
Proof. mk ce_confirmed_input se_confirmed_input. Qed.
#[global] Hint Resolve m_confirmed_input : tally.

Lemma elems_len {A} (c : A -> counted bytes) f K l raw : makes1 c f K -> se_elems f l = Ok raw -> N.of_nat (length l) <= N.of_nat (length raw).
Proof.
  intros H. revert raw. induction l as [|a l IH]; intros raw; cbn [se_elems length]; [intros _; lia|]. unfold seqw, bind. destruct (H a) as [_ S]. destruct (f a) as [u| | |]; try discriminate.
  destruct (se_elems f l) as [w| | |]; try discriminate. intros [= <-]. specialize (S u eq_refl). specialize (IH w eq_refl). rewrite app_length. cbn [length]. lia.
Qed.
Lemma vector_len {A} (c : A -> counted bytes) f K l bs : makes1 c f K -> se_vector f l = Ok bs -> N.of_nat (length l) + 1 <= N.of_nat (length bs).
Proof.
  intros H. unfold se_vector. unfold bind at 1. destruct (se_elems f l) as [raw| | |] eqn:E; try discriminate. pose proof (elems_len c f K l raw H E) as L.
  unfold se_opaque. destruct (_ <=? _); [discriminate|]. unfold seqw, bind.
  destruct (m_varint (N.of_nat (length raw))) as [_ Sv]. destruct (se_varint _) as [h| | |]; try discriminate. specialize (Sv h eq_refl). intros [= <-]. rewrite app_length. lia.
Qed.
Lemma m_maybe_node : makes1 (ce_option ce_node) (se_option se_node) 3.
Proof. exact (m_option' _ _ _ m_node). Qed.
Lemma m_tree t : fst (ce_ratchet_tree t) = se_ratchet_tree t /\ forall bs, se_ratchet_tree t = Ok bs ->
  N.of_nat (length bs) <= steps (ce_ratchet_tree t) <= 6 * N.of_nat (length bs) + (N.of_nat (length t) - N.of_nat (length (trim_blank t))).
Proof.
  unfold ce_ratchet_tree, se_ratchet_tree. destruct (m_vector _ _ _ m_maybe_node (trim_blank t)) as [[E B] S]. split; [exact E|]. intros bs Hb. specialize (B bs Hb). specialize (S bs Hb).
  unfold steps. cbn [costing snd]. lia.
Qed.
Lemma trim_long t x : tget t x <> None -> x < N.of_nat (length (trim_blank t)).
Proof.
  intros H. destruct (trim_blank_spec t) as [m E]. destruct (N.lt_ge_cases x (N.of_nat (length (trim_blank t)))) as [L|L]; [exact L|]. exfalso. apply H.
  rewrite E, tget_app_blank. unfold tget, tlen. apply N.ltb_ge in L. rewrite L. reflexivity.
Qed.
Lemma m_reachable P cs t bs : reachable P cs t -> se_ratchet_tree t = Ok bs -> steps (ce_ratchet_tree t) <= 7 * N.of_nat (length bs).
Proof.
  intros R Hb. destruct (reachable_tight P cs t R) as (d & G & m & M & Hm). destruct (m_tree t) as [_ B]. specialize (B bs Hb).
  pose proof (vector_len _ _ _ _ _ m_maybe_node Hb) as L. pose proof (trim_long t (2 * m) M) as X.
  assert (T : N.of_nat (length t) <= 2 ^ (d + 1)).
  { destruct (g_size _ _ G) as [F|F]; red in F; unfold tlen in F; lia. }
  rewrite N.add_1_r, N.pow_succ_r' in T. destruct Hm as [->|Hm]; [change (2 ^ 0) with 1 in T|]; lia.
Qed.
Lemma makes_values :
  makes ce_secret_key se_secret_key 1 /\
  makes ce_identity se_identity 1 /\
  makes ce_certificate se_certificate 1 /\
  makes ce_credential se_credential 3 /\
  makes ce_signature_scheme se_signature_scheme 1 /\
  makes ce_signature_key_pair se_signature_key_pair 1 /\
  makes ce_hpke_key_pair se_hpke_key_pair 1 /\
  makes ce_extension se_extension 1 /\
  makes ce_extensions se_extensions 3 /\
  makes ce_application_id se_application_id 1 /\
  makes ce_unknown_extension se_unknown_extension 1 /\
  makes ce_external_pub se_external_pub 1 /\
  makes ce_external_senders se_external_senders 3 /\
  makes ce_proposal_type se_proposal_type 1 /\
  makes ce_required_capabilities se_required_capabilities 3 /\
  makes ce_lifetime se_lifetime 1 /\
  makes ce_leaf_node_source se_leaf_node_source 1 /\
  makes ce_capabilities se_capabilities 3.
Proof. split; [exact (makes1_makes _ _ _ m_secret_key)|]. split; [exact (makes1_makes _ _ _ m_identity)|]. split; [exact (makes1_makes _ _ _ m_certificate)|]. split; [exact (makes1_makes _ _ _ m_credential)|]. split; [exact (makes1_makes _ _ _ m_signature_scheme)|]. split; [exact (makes1_makes _ _ _ m_signature_key_pair)|]. split; [exact (makes1_makes _ _ _ m_hpke_key_pair)|]. split; [exact (makes1_makes _ _ _ m_extension)|]. split; [exact (makes1_makes _ _ _ m_extensions)|]. split; [exact (makes1_makes _ _ _ m_application_id)|]. split; [exact (makes1_makes _ _ _ m_unknown_extension)|]. split; [exact (makes1_makes _ _ _ m_external_pub)|]. split; [exact (makes1_makes _ _ _ m_external_senders)|]. split; [exact (makes1_makes _ _ _ m_proposal_type)|]. split; [exact (makes1_makes _ _ _ m_required_capabilities)|]. split; [exact (makes1_makes _ _ _ m_lifetime)|]. split; [exact (makes1_makes _ _ _ m_leaf_node_source)|]. exact (makes1_makes _ _ _ m_capabilities). Qed.
Lemma makes_tree :
  makes ce_leaf_payload se_leaf_payload 3 /\
  makes ce_leaf_node se_leaf_node 3 /\
  makes ce_parent_node se_parent_node 3 /\
  makes ce_hpke_ciphertext se_hpke_ciphertext 1 /\
  makes ce_update_path_node se_update_path_node 3 /\
  makes ce_update_path se_update_path 5 /\
  makes ce_node_type se_node_type 1 /\
  makes ce_node se_node 3.
Proof. split; [exact (makes1_makes _ _ _ m_leaf_payload)|]. split; [exact (makes1_makes _ _ _ m_leaf_node)|]. split; [exact (makes1_makes _ _ _ m_parent_node)|]. split; [exact (makes1_makes _ _ _ m_hpke_ciphertext)|]. split; [exact (makes1_makes _ _ _ m_update_path_node)|]. split; [exact (makes1_makes _ _ _ m_update_path)|]. split; [exact (makes1_makes _ _ _ m_node_type)|]. exact (makes1_makes _ _ _ m_node). Qed.
Lemma makes_joining :
  makes ce_key_package_ref se_key_package_ref 1 /\
  makes ce_key_package_tbs se_key_package_tbs 3 /\
  makes ce_key_package se_key_package 3 /\
  makes ce_group_context se_group_context 3 /\
  makes ce_psk_type se_psk_type 1 /\
  makes ce_psk_usage se_psk_usage 1 /\
  makes ce_resumption se_resumption 1 /\
  makes ce_psk se_psk 1 /\
  makes ce_psk_id se_psk_id 1 /\
  makes ce_psk_label se_psk_label 1 /\
  makes ce_group_info se_group_info 3 /\
  makes ce_group_secrets se_group_secrets 3 /\
  makes ce_egs se_egs 1 /\
  makes ce_welcome se_welcome 3.
Proof. split; [exact (makes1_makes _ _ _ m_key_package_ref)|]. split; [exact (makes1_makes _ _ _ m_key_package_tbs)|]. split; [exact (makes1_makes _ _ _ m_key_package)|]. split; [exact (makes1_makes _ _ _ m_group_context)|]. split; [exact (makes1_makes _ _ _ m_psk_type)|]. split; [exact (makes1_makes _ _ _ m_psk_usage)|]. split; [exact (makes1_makes _ _ _ m_resumption)|]. split; [exact (makes1_makes _ _ _ m_psk)|]. split; [exact (makes1_makes _ _ _ m_psk_id)|]. split; [exact (makes1_makes _ _ _ m_psk_label)|]. split; [exact (makes1_makes _ _ _ m_group_info)|]. split; [exact (makes1_makes _ _ _ m_group_secrets)|]. split; [exact (makes1_makes _ _ _ m_egs)|]. exact (makes1_makes _ _ _ m_welcome). Qed.
Lemma makes_messages :
  makes ce_add_proposal se_add_proposal 3 /\
  makes ce_update_proposal se_update_proposal 3 /\
  makes ce_remove_proposal se_remove_proposal 1 /\
  makes ce_psk_proposal se_psk_proposal 1 /\
  makes ce_reinit_proposal se_reinit_proposal 3 /\
  makes ce_external_init_proposal se_external_init_proposal 1 /\
  makes ce_gce_proposal se_gce_proposal 3 /\
  makes ce_proposal se_proposal 3 /\
  makes ce_proposal_or_ref se_proposal_or_ref 3 /\
  makes ce_commit se_commit 5 /\
  makes ce_content_type se_content_type 1 /\
  makes ce_sender_type se_sender_type 1 /\
  makes ce_sender se_sender 1 /\
  makes ce_wire_format se_wire_format 1 /\
  makes ce_content se_content 5 /\
  makes ce_framed_content se_framed_content 5 /\
  makes ce_auth_content se_auth_content 5 /\
  makes ce_framed_content_tbs se_framed_content_tbs 5 /\
  makes ce_auth_content_tbm se_auth_content_tbm 5 /\
  makes ce_sender_data se_sender_data 1 /\
  makes ce_public_message se_public_message 5 /\
  makes ce_private_message se_private_message 1 /\
  makes ce_private_content_aad se_private_content_aad 1 /\
  makes ce_wire_message se_wire_message 5 /\
  makes ce_mls_message se_mls_message 5 /\
  makes ce_confirmed_input se_confirmed_input 5.
Proof. split; [exact (makes1_makes _ _ _ m_add_proposal)|]. split; [exact (makes1_makes _ _ _ m_update_proposal)|]. split; [exact (makes1_makes _ _ _ m_remove_proposal)|]. split; [exact (makes1_makes _ _ _ m_psk_proposal)|]. split; [exact (makes1_makes _ _ _ m_reinit_proposal)|]. split; [exact (makes1_makes _ _ _ m_external_init_proposal)|]. split; [exact (makes1_makes _ _ _ m_gce_proposal)|]. split; [exact (makes1_makes _ _ _ m_proposal)|]. split; [exact (makes1_makes _ _ _ m_proposal_or_ref)|]. split; [exact (makes1_makes _ _ _ m_commit)|]. split; [exact (makes1_makes _ _ _ m_content_type)|]. split; [exact (makes1_makes _ _ _ m_sender_type)|]. split; [exact (makes1_makes _ _ _ m_sender)|]. split; [exact (makes1_makes _ _ _ m_wire_format)|]. split; [exact (makes1_makes _ _ _ m_content)|]. split; [exact (makes1_makes _ _ _ m_framed_content)|]. split; [exact (makes1_makes _ _ _ m_auth_content)|]. split; [exact (makes1_makes _ _ _ m_framed_content_tbs)|]. split; [exact (makes1_makes _ _ _ m_auth_content_tbm)|]. split; [exact (makes1_makes _ _ _ m_sender_data)|]. split; [exact (makes1_makes _ _ _ m_public_message)|]. split; [exact (makes1_makes _ _ _ m_private_message)|]. split; [exact (makes1_makes _ _ _ m_private_content_aad)|]. split; [exact (makes1_makes _ _ _ m_wire_message)|]. split; [exact (makes1_makes _ _ _ m_mls_message)|]. exact (makes1_makes _ _ _ m_confirmed_input). Qed.
Lemma makes_inputs :
  makes ce_content_body se_content_body 5 /\
  makes ce_sender_data_aad se_sender_data_aad 1 /\
  makes ce_private_content se_private_content 5 /\
  makes ce_group_info_base se_group_info_base 3 /\
  (forall t, makes (fun p => ce_leaf_node_tbs p t) (fun p => se_leaf_node_tbs p t) 3) /\
  (forall ct, makes (ce_auth_data ct) (se_auth_data ct) 1).
Proof. split; [exact (makes1_makes _ _ _ m_content_body)|]. split; [exact (makes1_makes _ _ _ m_sender_data_aad)|]. split; [exact (makes1_makes _ _ _ m_private_content)|]. split; [exact (makes1_makes _ _ _ m_group_info_base)|]. split; [intros t; exact (makes1_makes _ _ _ (m_leaf_node_tbs t))|intros ct; exact (makes1_makes _ _ _ (m_auth_data ct))]. Qed.

Lemma makes_combined A (c : A -> counted bytes) f K : makes c f K -> (forall a bs, f a = Ok bs -> bs <> []) ->
  makes (ce_vector c) (se_vector f) (K + 2) /\ (1 <= K -> makes (ce_option c) (se_option f) K).
Proof.
  intros H N. assert (M : makes1 c f K).
  { intros a. split; [exact (H a)|]. intros bs Hb. specialize (N a bs Hb). destruct bs; [contradiction|]. cbn [length]. lia. }
  split; [exact (makes1_makes _ _ _ (m_vector c f K M))|]. intros L. exact (makes1_makes _ _ _ (m_option c f K L M)).
Qed.
Lemma empty_made n h : se_varint (N.of_nat n) = Ok h -> ce_vector ce_certificate (repeat [] n) = (Ok (h ++ repeat x00 n), 3 * N.of_nat n + N.of_nat (length h) + 1).
Proof.
  intros H. assert (E : ce_elems ce_certificate (repeat [] n) = (Ok (repeat x00 n), 2 * N.of_nat n)).
  { clear H h. induction n as [|n IH]; [reflexivity|]. cbn [repeat ce_elems]. rewrite IH. unfold costing, c_then, cbind, ret. cbn [ce_certificate]. 
    change (ce_certificate []) with (@pair (res bytes) N (Ok [x00]) 1). cbn [fst snd app]. f_equal. lia. }
  unfold ce_vector, costing, cbind. rewrite E. cbn [fst snd]. unfold ce_opaque. rewrite repeat_length.
  assert (L : 2 ^ 32 - 1 <=? N.of_nat n = false).
  { apply N.leb_gt. revert H. unfold se_varint. change (N.shiftl 1 6) with 64. change (N.shiftl 1 14) with 16384. change (N.shiftl 1 30) with 1073741824.
    destruct (N.ltb_spec (N.of_nat n) 64); [lia|]. destruct (N.ltb_spec (N.of_nat n) 16384); [lia|]. destruct (N.ltb_spec (N.of_nat n) 1073741824); [lia|]. discriminate. }
  rewrite L. unfold c_then, cbind. assert (V : ce_varint (N.of_nat n) = (Ok h, N.of_nat (length h))).
  { revert H. unfold ce_varint, se_varint. repeat match goal with |- context [if ?b then _ else _] => destruct b end; intros [= <-]; unfold c_put_u8, c_put_u16, c_put_u32, c_put; reflexivity. }
  rewrite V. cbn [fst snd c_put ret]. rewrite repeat_length. f_equal. lia.
Qed.
