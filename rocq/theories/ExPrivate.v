(** Concrete private messages for the examples and refutations of PropPrivate.v. *)
From Verif Require Import TreePaths AuthFacts TrafficFacts SecretFacts MessageFacts Examples PrivateFacts.
From Verif Require Export SpecPrivate ExProvider.
Import Coq.Strings.Byte.
Local Open Scope N_scope.

Definition px_guard : bytes := [x01; x02; x03; x04].
Definition px_content (leaf : N) : framed_content := ex_framed (SMember leaf) (CApplication [x07; x08]).
Definition px_st : secret_tree := match new_secret_tree toy Suite1 4 (str "enc") with Ok t => t | _ => [] end.
(** Leaf 2 of 4. *)
Definition px_path : list bool := [true; false].
Definition px_root : ratchet_secret := match derive_ratchet_root toy Suite1 px_st 4 (ratchet_label_of CTApplication) with Ok r => r | _ => MkRatchet [] 0 end.
(** The message of the sender who names leaf [leaf] and generation [g], and encrypts with the ratchet of leaf 2 in generation 0. *)
Definition px_message (leaf g : N) : private_message :=
  match new_private_message toy Suite1 (str "k") px_root (str "sds") (px_content leaf) (new_sender_data leaf g px_guard) ex_gc with Ok m => m | _ => MkPrivate [] 0 CTApplication [] [] [] end.
Definition px_bytes (leaf g : N) : bytes := match se_mls_message (MkMLSMessage MLS10 (WMPrivate (px_message leaf g))) with Ok b => b | _ => [] end.
(** The same content in another group. *)
Definition px_elsewhere : framed_content := MkFramed (str "other") 9 (SMember 2) [x01] (CApplication [x07; x08]).
Definition px_elsewhere_message : private_message :=
  match new_private_message toy Suite1 (str "k") px_root (str "sds") px_elsewhere (new_sender_data 2 0 px_guard) ex_gc with Ok m => m | _ => MkPrivate [] 0 CTApplication [] [] [] end.
Definition px_elsewhere_bytes : bytes := match se_mls_message (MkMLSMessage MLS10 (WMPrivate px_elsewhere_message)) with Ok b => b | _ => [] end.

(** A signature key that was used for this message only. *)
Definition px_log : list said := [SaidContent WFPrivateMessage (px_content 2) ex_gc].
Definition px_provider : provider := log_provider px_log.
Lemma px_log_only cs pk : only_said px_provider cs pk px_log.
Proof.
  split.
  - intros s [<-|[]]. split; [|reflexivity]. split; [|split; [exact ex_gc_wf|eexists; vm_compute; reflexivity]]. split; [reflexivity|split; [reflexivity|exact I]].
  - intros a m sig A V. apply Ok_inj in A. subst a. unfold log_sig in V. cbn [s_verify] in V. destruct (existsb _ px_log) eqn:E; [|discriminate].
    apply existsb_exists in E as (s & I & E). exists s. split; [exact I|]. apply TreePaths.bytes_eqb_eq in E. exact E.
Qed.
Lemma px_content_wf leaf : leaf < 4294967296 -> wf_framed_content (px_content leaf).
Proof. intros L. split; [reflexivity|split; [exact L|exact I]]. Qed.

(** What the receiver of [px_message 2 0] reads, and the same encrypted anew by somebody else in generation 3. *)
Definition px_read : private_content := match receive_private toy Suite1 ex_gc (str "k") (str "enc") (str "sds") 4 2 (px_bytes 2 0) with Ok c => c | _ => MkPrivateContent (CApplication []) (MkAuth [] []) end.
Definition px_guard' : bytes := [x09; x09; x09; x09].
Definition px_key3 : bytes := match message_key toy_hpke (str "enc") px_path CTApplication 3 with Ok b => b | _ => [] end.
Definition px_nonce3 : bytes := match message_nonce toy_hpke (str "enc") px_path CTApplication 3 with Ok b => b | _ => [] end.
Definition px_aad : bytes := match se_private_content_aad (MkPrivateAAD (str "group") 5 CTApplication [x01]) with Ok b => b | _ => [] end.
Definition px_plain : bytes := match se_private_content px_read with Ok b => b | _ => [] end.
Definition px_ct : bytes := match a_seal toy_hpke px_key3 (xor_prefix px_nonce3 px_guard') px_plain px_aad with Ok b => b | _ => [] end.
Definition px_esd : bytes := match encrypt_sender_data toy Suite1 (str "sds") (MkSenderData 2 3 px_guard') (px_content 2) px_ct with Ok b => b | _ => [] end.
Definition px_anew : private_message := MkPrivate (str "group") 5 CTApplication [x01] px_esd px_ct.
Definition px_anew_bytes : bytes := match se_mls_message (MkMLSMessage MLS10 (WMPrivate px_anew)) with Ok b => b | _ => [] end.
Lemma px_reencrypt : reencrypt toy Suite1 toy_hpke (str "enc") (str "sds") px_path 2 3 px_guard' (px_message 2 0) px_read px_anew.
Proof.
  exists px_key3, px_nonce3, (xor_prefix px_nonce3 px_guard'), px_aad, px_plain, px_ct, px_esd.
  split; [vm_compute; reflexivity|]. split; [vm_compute; reflexivity|]. split; [apply guarded_iff; split; [vm_compute; repeat constructor|reflexivity]|].
  split; [vm_compute; reflexivity|]. split; [vm_compute; reflexivity|]. split; [vm_compute; reflexivity|]. split; [vm_compute; reflexivity|]. vm_compute. reflexivity.
Qed.

Lemma c97_twice : exists P cs ctx pk sds r m pc r', open_private P cs ctx pk sds r m = Ok pc /\ derive_next P cs r = Ok r' /\ open_private P cs ctx pk sds r' m = Panic.
Proof.
  assert (D : exists r', derive_next toy Suite1 px_root = Ok r' /\ rt_generation r' = 1 /\ usable toy_hpke (rt_secret r')).
  { eexists. split; [vm_compute; reflexivity|]. split; [reflexivity|discriminate]. }
  assert (S : exists sd, decrypt_sender_data toy Suite1 (px_message 2 0) (str "sds") = Ok sd /\ sd_generation sd = 0) by (eexists; split; vm_compute; reflexivity).
  destruct D as (r' & D & G & U). destruct S as (sd & S & G').
  exists toy, Suite1, ex_gc, (str "k"), (str "sds"), px_root, (px_message 2 0), px_read, r'. split; [vm_compute; reflexivity|]. split; [exact D|].
  apply (c97_panics toy Suite1 toy_hpke _ _ _ r' _ sd toy_working U S); rewrite G; [rewrite G'|]; reflexivity.
Qed.
Lemma c97_sender : exists P cs ctx pk encryption sds n leaf b m sd pc, private_of b = Ok m /\ decrypt_sender_data P cs m sds = Ok sd /\ sd_leaf_index sd <> leaf /\
  receive_private P cs ctx pk encryption sds n leaf b = Ok pc.
Proof.
  exists toy, Suite1, ex_gc, (str "k"), (str "enc"), (str "sds"), 4, 2, (px_bytes 3 0), (px_message 3 0). eexists. eexists. split; [vm_compute; reflexivity|].
  split; [vm_compute; reflexivity|]. split; [discriminate|]. vm_compute. reflexivity.
Qed.
Lemma c97_group : exists P cs ctx pk encryption sds n leaf b m pc, private_of b = Ok m /\ pv_group_id m <> gc_group_id ctx /\ pv_epoch m <> gc_epoch ctx /\
  receive_private P cs ctx pk encryption sds n leaf b = Ok pc.
Proof.
  exists toy, Suite1, ex_gc, (str "k"), (str "enc"), (str "sds"), 4, 2, px_elsewhere_bytes, px_elsewhere_message. eexists. split; [vm_compute; reflexivity|].
  split; [intros H; vm_compute in H; discriminate H|]. split; [intros H; vm_compute in H; discriminate H|]. vm_compute. reflexivity.
Qed.
Lemma c97_short : exists P cs sds b m sd, length b = 172%nat /\ private_of b = Ok m /\ decrypt_sender_data P cs m sds = Ok sd /\ sd_generation sd = 4294967295.
Proof.
  exists toy, Suite1, (str "sds"), (px_bytes 2 4294967295), (px_message 2 4294967295). eexists. split; [vm_compute; reflexivity|]. split; [vm_compute; reflexivity|]. split; vm_compute; reflexivity.
Qed.
