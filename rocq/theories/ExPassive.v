(** A group of two, one of whom joins from a welcome: the example of C91. *)
From Coq Require Import Strings.Byte.
From Verif Require Import PassiveFacts PropWelcome Verified LeafFacts MessageFacts KeyFacts ReplicaFacts.
From Verif Require Import WireWF SpecWelcome ExKeys SpecPassive SpecAgree.
Local Open Scope N_scope.
Import Coq.Strings.Byte.
Definition pj_kp : key_package := ex_package x31.
Definition pj_tree : tree := ok_or [] (tree_add [Some (Leaf (ex_signed x01 LSUpdate (str "group") 0))] (kp_leaf (kp_payload pj_kp))).
(** The commit that adds the new member; its tag is not hashed. *)
Definition pj_commit (tag : bytes) : auth_content :=
  MkAuthContent WFPublicMessage (MkFramed (str "group") 0 (SMember 0) [] (CCommit (MkCommit [PorProposal (PAdd (MkAdd pj_kp))] None))) (MkAuth [x0e] tag).
Definition pj_ctx : group_context :=
  MkGroupContext MLS10 Suite1 (str "group") 1 (ok_or [] (root_tree_hash toy Suite1 pj_tree)) (ok_or [] (confirmed_hash toy Suite1 (confirmed_of (pj_commit [])) [])) [].
Definition pj_joiner : bytes := ok_or [] (extract_joiner_secret toy pj_ctx (str "init") (str "commit")).
Definition pj_ids : list psk_id := [MkPskId (PExternal (str "psk")) [x01; x02]; MkPskId (PExternal (str "other")) [x03]].
Definition pj_known : list (bytes * bytes) := [(str "other", [x09]); (str "psk", [x07; x08]); (str "psk", [x00])].
Definition pj_psks : list bytes := [[x07; x08]; [x09]].
Definition pj_psk : bytes := ok_or [] (extract_psk_secret toy Suite1 pj_ids pj_psks).
Definition pj_key : bytes := ok_or [] (let* es := extract_epoch_secret toy pj_ctx pj_joiner pj_psk in derive_secret toy Suite1 es (str "confirm")).
Definition pj_info : group_info :=
  let g := MkGroupInfo pj_ctx [MkExtension (ExtUnknown 0x0a0a) [x01]; MkExtension ExtRatchetTree (ok_or [] (se_ratchet_tree pj_tree))] (h_mac toy_hash pj_key (gc_confirmed pj_ctx)) 0 [] in
  MkGroupInfo (gi_context g) (gi_extensions g) (gi_confirmation_tag g) 0 ([x01; x21] ++ labelled (str "GroupInfoTBS") (ok_or [] (se_group_info_base g)))%list.
Definition pj_gs : group_secrets := MkGroupSecrets pj_joiner None pj_ids.
Definition pj_wkeys : bytes * bytes := ok_or ([], []) (welcome_key_nonce toy Suite1 pj_joiner pj_psk).
Definition pj_egi : bytes := ok_or [] (a_seal toy_hpke (fst pj_wkeys) (snd pj_wkeys) (ok_or [] (se_group_info pj_info)) []).
Definition pj_sealed : bytes * bytes := ok_or ([], []) (encrypt_with_label toy Suite1 [x0a] (kp_init_key (kp_payload pj_kp)) (str "Welcome") pj_egi (ok_or [] (se_group_secrets pj_gs))).
Definition pj_welcome : welcome := MkWelcome Suite1 [MkEGS (str "alice") (MkHpkeCiphertext [] []); MkEGS (ex_ref x31) (MkHpkeCiphertext (fst pj_sealed) (snd pj_sealed))] pj_egi.
Definition pj_kpb : bytes := ok_or [] (se_mls_message (MkMLSMessage MLS10 (WMKeyPackage pj_kp))).
Definition pj_wb : bytes := ok_or [] (se_mls_message (MkMLSMessage MLS10 (WMWelcome pj_welcome))).
Lemma pj_kp_wf : wf_key_package pj_kp.
Proof. assert (D : de_mls_message pj_kpb = Ok (MkMLSMessage MLS10 (WMKeyPackage pj_kp), [])) by (vm_compute; reflexivity). apply message_wf in D as (_ & D). exact D. Qed.
Lemma pj_welcome_wf : wf_welcome pj_welcome.
Proof. assert (D : de_mls_message pj_wb = Ok (MkMLSMessage MLS10 (WMWelcome pj_welcome), [])) by (vm_compute; reflexivity). apply message_wf in D as (_ & D). exact D. Qed.
Lemma pj_info_wf : wf_group_info pj_info.
Proof. assert (D : de_group_info (ok_or [] (se_group_info pj_info)) = Ok (pj_info, [])) by (vm_compute; reflexivity). apply (CodecLib.codec_can WireCodecs.codec_group_info) in D as (D & _). exact D. Qed.
Lemma pj_gs_wf : wf_group_secrets pj_gs.
Proof. assert (D : de_group_secrets (ok_or [] (se_group_secrets pj_gs)) = Ok (pj_gs, [])) by (vm_compute; reflexivity). apply (CodecLib.codec_can WireCodecs.codec_group_secrets) in D as (D & _). exact D. Qed.
Lemma pj_tree_wf : wf_tree pj_tree.
Proof. assert (D : de_ratchet_tree (ok_or [] (se_ratchet_tree pj_tree)) = Ok (pj_tree, [])) by (vm_compute; reflexivity). apply TreeCodec.tree_decode in D as (D & _). exact D. Qed.

Lemma pj_invited : invited toy toy_hpke toy_hash pj_tree pj_info pj_joiner pj_psk pj_ids pj_psks pj_kp (tl (kp_init_key (kp_payload pj_kp))) pj_known pj_kpb pj_wb None.
Proof.
  split.
  - exists (ex_signed x01 LSUpdate (str "group") 0). split; [|vm_compute; discriminate]. eapply th_cons; [apply th_nil|]; eapply ts_add; [exists 0; left; reflexivity|vm_compute; reflexivity].
  - exact pj_tree_wf.
  - vm_compute. reflexivity.
  - exists 1. vm_compute. reflexivity.
  - exists (ok_or [] (se_ratchet_tree pj_tree)). split; [vm_compute; reflexivity|]. exists [MkExtension (ExtUnknown 0x0a0a) [x01]], []. split; [reflexivity|]. intros e [<-|[]]. discriminate.
  - split; [exact pj_kp_wf|]. split; vm_compute; reflexivity.
  - apply (toy_hpke_pair Suite1 (tl (kp_init_key (kp_payload pj_kp)))).
  - vm_compute. reflexivity.
  - constructor; [|constructor; [|constructor]].
    + exists (str "psk"). split; [reflexivity|]. exists [(str "other", [x09])], [(str "psk", [x00])]. split; [reflexivity|]. intros y [<-|[]]. discriminate.
    + exists (str "other"). split; [reflexivity|]. exists [], [(str "psk", [x07; x08]); (str "psk", [x00])]. split; [reflexivity|]. intros y [].
  - exact pj_info_wf.
  - exists (ex_signed x01 LSUpdate (str "group") 0), [x01; x21], toy_sig. eexists. split; [reflexivity|]. split; [apply toy_keys|]. split; [reflexivity|]. split; [|].
    + eexists. split; [vm_compute; reflexivity|]. split; [reflexivity|reflexivity].
    + vm_compute. reflexivity.
  - exists pj_key. split; [|reflexivity]. eexists. split; [apply (epoch_iff toy pj_ctx toy_hpke); [reflexivity|vm_compute; reflexivity]|vm_compute; reflexivity].
  - exists pj_welcome. split; [exact pj_welcome_wf|]. split; [reflexivity|]. split; [vm_compute; reflexivity|]. split.
    + exists (fst pj_wkeys), (snd pj_wkeys), (ok_or [] (se_group_info pj_info)). split; [|split; [vm_compute; reflexivity|vm_compute; reflexivity]].
      eexists. split; [|split; vm_compute; reflexivity]. eexists. split; [reflexivity|]. vm_compute. reflexivity.
    + exists (ex_ref x31), (MkEGS (ex_ref x31) (MkHpkeCiphertext (fst pj_sealed) (snd pj_sealed))), None, pj_gs, (ok_or [] (se_group_secrets pj_gs)), [x0a], (fst pj_sealed), (snd pj_sealed).
      split; [vm_compute; reflexivity|]. split.
      * exists [MkEGS (str "alice") (MkHpkeCiphertext [] [])], []. split; [reflexivity|]. split; [reflexivity|]. intros y [<-|[]]. vm_compute. discriminate.
      * split; [reflexivity|]. split; [exact pj_gs_wf|]. split; [vm_compute; reflexivity|]. split; [vm_compute; reflexivity|reflexivity].
Qed.

(** The same epoch as the member sees it who was there before. *)
Definition pj_tag : bytes := gi_confirmation_tag pj_info.
Definition pj_view : view := MkView pj_tree pj_ctx pj_ids pj_psks (str "init") (str "commit") [] [] (pj_commit pj_tag).
Definition pj_epoch : bytes := ok_or [] (extract_epoch_secret toy pj_ctx pj_joiner pj_psk).
Lemma pj_typed : well_typed pj_view.
Proof.
  split; cbn [v_tree v_context v_psk_ids v_psks v_history v_commit pj_view].
  - exact (reachable_good toy Suite1 pj_tree (iv_reachable _ _ _ _ _ _ _ _ _ _ _ _ _ _ _ pj_invited)).
  - intros x nd E. unfold tget in E. destruct (x <? tlen pj_tree) eqn:L; [|discriminate]. apply N.ltb_lt in L. pose proof pj_tree_wf as W. unfold wf_tree in W. rewrite Forall_forall in W. refine (W (Some nd) _). rewrite <- E. apply nth_In. unfold tlen in L. lia.
  - apply pj_info_wf.
  - apply pj_gs_wf.
  - reflexivity.
  - constructor.
  - assert (D : de_mls_message (ok_or [] (se_mls_message (MkMLSMessage MLS10 (WMPublic (MkPublic (ac_content (pj_commit [])) (MkAuth [] []) (Some [])))))) = Ok (MkMLSMessage MLS10 (WMPublic (MkPublic (ac_content (pj_commit [])) (MkAuth [] []) (Some []))), [])) by (vm_compute; reflexivity).
    apply message_wf in D as (_ & D). cbn in D. split; [apply D|eexists; reflexivity].
Qed.
Lemma pj_computed : computed toy pj_view pj_joiner pj_psk pj_epoch pj_key.
Proof. split; try (vm_compute; reflexivity). exists []. split; vm_compute; reflexivity. Qed.
Lemma pj_confirmed : verify_auth_confirmation_tag toy Suite1 (ac_auth (pj_commit pj_tag)) pj_key (gc_confirmed pj_ctx) = Ok tt.
Proof. vm_compute. reflexivity. Qed.
