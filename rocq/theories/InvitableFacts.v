(** Everybody whose leaf is in the tree can be invited. *)
From Verif Require Import Examples ExProvider TreeFacts ExKeys.
From Verif Require Import SpecInvitable CodecLib SecretFacts DigestFacts MessageFacts KeyFacts SendableFacts StuckFacts BuildableFacts HeardFacts PassiveFacts.
From Coq Require Import ZifyBool ZifyNat ZifyN.
Local Open Scope N_scope.
Local Open Scope list_scope.

(** The entry of the welcome for a guest. *)
Definition entry (P : provider) (cs : cipher_suite) (egi joiner : bytes) (ids : list psk_id) (g : guest) (e : encrypted_group_secrets) : Prop :=
  generate_ref P (gt_package g) = Ok (egs_new_member e) /\ exists raw ent kem ct, se_group_secrets (MkGroupSecrets joiner (gt_path g) ids) = Ok raw /\
    encrypt_with_label P cs ent (kp_init_key (kp_payload (gt_package g))) (str "Welcome") egi raw = Ok (kem, ct) /\ egs_secrets e = MkHpkeCiphertext kem ct.

Lemma ref_made P cs k h t g : hosts P cs k h -> welcome_guest P cs t g -> exists ref, generate_ref P (gt_package g) = Ok ref /\ N.of_nat (length ref) < 65536.
Proof.
  intros HO [_ CS (raw & R & LR) _ _ _]. destruct (ho_hashes _ _ _ _ HO) as (H & S). unfold generate_ref, ref_hash. rewrite R, CS. cbn [bind].
  assert (RF : exists x, se_opaque (str "MLS 1.0 KeyPackage Reference") = Ok x) by (eexists; vm_compute; reflexivity). destruct RF as (x & RF). rewrite RF, (se_opaque_vec raw) by (unfold fits30; lia).
  rewrite (sq (eq_refl (Ok x)) (eq_refl (Ok (vec raw)))). cbn [bind]. rewrite H. cbn [bind]. eexists. split; [reflexivity|apply S].
Qed.

Lemma entry_made P cs k h t egi joiner ids n g : hosts P cs k h -> welcome_guest P cs t g -> fits30 egi -> n < 536870912 -> within n (se_group_secrets (MkGroupSecrets joiner (gt_path g) ids)) ->
  exists e, entry P cs egi joiner ids g e /\ within (n + 300000) (se_egs e).
Proof.
  intros HO WG FE LN (raw & R & LR). destruct (ref_made _ _ _ _ _ _ HO WG) as (ref & RF & LF).
  destruct (wg_reached _ _ _ _ WG (labelled (str "Welcome") egi) raw) as (ent & kem & ct & E & LK & LC); [lia|].
  exists (MkEGS ref (MkHpkeCiphertext kem ct)). split.
  - split; [exact RF|]. exists raw, ent, kem, ct. split; [exact R|]. split; [|reflexivity]. unfold encrypt_with_label. rewrite (label_data_eq (str "Welcome") egi eq_refl FE). cbn [bind].
    assert (HS : hpke_suite_ok cs = true) by (destruct (ho_suite _ _ _ _ HO) as [<-|[<-|[<-|[]]]]; reflexivity). rewrite HS. exact E.
  - unfold se_egs, se_key_package_ref, se_hpke_ciphertext. cbn [egs_new_member egs_secrets hc_kem_output hc_ciphertext]. eapply within_le; [|apply within_seq; [apply (within_opaque 65536); lia|apply within_seq; [apply (within_opaque 65536); lia|apply (within_opaque (n + 65536)); lia]]]. lia.
Qed.

Lemma entries_made P cs k h t egi joiner ids n : hosts P cs k h -> fits30 egi -> n < 536870912 -> forall gs, Forall (fun g => welcome_guest P cs t g /\ within n (se_group_secrets (MkGroupSecrets joiner (gt_path g) ids))) gs ->
  exists es, Forall2 (entry P cs egi joiner ids) gs es /\ within (N.of_nat (length gs) * (n + 300000)) (se_elems se_egs es).
Proof.
  intros HO FE LN. induction gs as [|g gs IH]; intros F.
  - exists []. split; [constructor|]. exists []. split; [reflexivity|cbn; lia].
  - inversion F as [|? ? (W & S) F']; subst. destruct (IH F') as (es & E2 & W2). destruct (entry_made _ _ _ _ _ _ joiner ids n g HO W FE LN S) as (e & E & WE).
    exists (e :: es). split; [constructor; assumption|]. cbn [se_elems]. eapply within_le; [|apply within_seq; [exact WE|exact W2]]. cbn [length]. lia.
Qed.

Lemma entry_found P cs egi joiner ids : forall gs es, Forall2 (entry P cs egi joiner ids) gs es -> NoDup (map (fun g => generate_ref P (gt_package g)) gs) ->
  forall g, In g gs -> exists e, first_entry es (egs_new_member e) e /\ entry P cs egi joiner ids g e.
Proof.
  induction 1 as [|g0 e0 gs es E _ IH]; intros ND g I; [destruct I|]. cbn [map] in ND. inversion ND as [|? ? N ND']; subst. destruct I as [->|I].
  - exists e0. split; [|exact E]. exists [], es. split; [reflexivity|]. split; [reflexivity|intros x []].
  - destruct (IH ND' g I) as (e & (pre & post & -> & _ & B) & Q). exists e. split; [|exact Q]. exists (e0 :: pre), post. split; [reflexivity|]. split; [reflexivity|].
    intros x [<-|X]; [|exact (B x X)]. intros Y. apply N. destruct E as (E & _), Q as (Q & _). rewrite E, Y, <- Q. apply (in_map (fun g => generate_ref P (gt_package g))), I.
Qed.

Lemma keys_made P cs k h joiner psk : hosts P cs k h -> exists key nonce, welcome_keys k joiner psk key nonce /\ N.of_nat (length key) = a_key_size k /\ N.of_nat (length nonce) = a_nonce_size k.
Proof.
  intros HO. pose proof (ho_seals _ _ _ _ HO) as S. destruct (c129_welcome P cs k (ho_schedules _ _ _ _ HO) joiner psk) as (ws & W & U). apply (welcome_iff P cs k joiner psk ws (sl_alg _ _ _ S)) in W.
  pose proof (sl_key _ _ _ S). pose proof (sl_nonce _ _ _ S).
  destruct (sl_expand _ _ _ S ws (kdf_label (str "key") [] (a_key_size k)) (a_key_size k) U) as (key & K & LK); [auto|].
  destruct (sl_expand _ _ _ S ws (kdf_label (str "nonce") [] (a_nonce_size k)) (a_nonce_size k) U) as (nonce & N & LN); [auto|].
  exists key, nonce. split; [|auto]. exists ws. split; [exact W|]. unfold expand_label. rewrite !N.mod_small by lia. auto.
Qed.

Lemma c132_all P cs k h t ctx joiner psk ids psks exts i sk known tree raw n gs : hosts P cs k h -> host P cs t ctx joiner psk ids psks exts i sk ->
  keeps known ids psks -> se_ratchet_tree t = Ok raw -> tree_given exts tree raw ->
  Forall (fun g => welcome_guest P cs t g /\ within n (se_group_secrets (MkGroupSecrets joiner (gt_path g) ids))) gs -> NoDup (map (fun g => generate_ref P (gt_package g)) gs) ->
  n < 536870912 -> N.of_nat (length gs) * (n + 300000) < 536870912 ->
  exists gi wb, gi_context gi = ctx /\ gi_extensions gi = exts /\ gi_signer gi = i /\
    forall g, In g gs -> exists kpb t' e, se_mls_message (MkMLSMessage MLS10 (WMKeyPackage (gt_package g))) = Ok kpb /\
      passive_join P cs known kpb (gt_private g) wb tree = Ok (MkJoined t' gi joiner psk e) /\
      copy_of t t' /\ (forall x, tget t' x = tget t x) /\ extract_epoch_secret P ctx joiner psk = Ok e.
Proof.
  intros HO [CS RE WT VI (WC & LC) (WE & LE) (PS & WI) (I32 & SG & (l & L & KP))] KN RT TG FG ND LN LG.
  pose proof (ho_seals _ _ _ _ HO) as S. pose proof (sl_alg _ _ _ S) as K. destruct (ho_hashes _ _ _ _ HO) as (H & HS).
  assert (KA : p_hpke P (gc_suite ctx) = Ok k) by (rewrite CS; exact K).
  (* the tag *)
  destruct (proj2 (c129_epoch P cs k (ho_schedules _ _ _ _ HO) ctx joiner psk CS)) as (es & ES).
  { destruct LC as (x & X & LX). exists x. split; [exact X|unfold fits30; lia]. }
  pose proof (epoch_usable P cs k (ho_schedules _ _ _ _ HO) ctx joiner psk es CS ES) as UE.
  destruct (c129_derived P cs k (ho_schedules _ _ _ _ HO) es (str "confirm") UE eq_refl) as (ck & CK & _).
  assert (CKE : expand_label k es (str "confirm") [] (nh k) = Ok ck) by (rewrite <- (CommitFacts.derive_eq P cs k es (str "confirm") K eq_refl); exact CK).
  assert (CN : confirmation_key k ctx joiner psk ck) by (exists es; split; [apply (epoch_iff P ctx k joiner psk es KA), ES|exact CKE]).
  set (tag := h_mac h ck (gc_confirmed ctx)).
  assert (LT : N.of_nat (length tag) < 65536) by (destruct (ho_tags _ _ _ _ HO) as (h' & H' & Q); assert (h' = h) as -> by congruence; apply Q).
  (* the signature *)
  assert (B : within 537000000 (se_group_info_base (MkGroupInfo ctx exts tag i []))).
  { unfold se_group_info_base. cbn [gi_context gi_extensions gi_confirmation_tag gi_signer]. eapply within_le; [|apply within_seq; [exact LC|apply within_seq; [exact LE|apply within_seq; [apply (within_opaque 65536); lia|apply within_u32]]]]. lia. }
  destruct B as (rb & RB & LB). destruct SG as (a & A & SA). destruct (SA (labelled (str "GroupInfoTBS") rb)) as (s & SS & LS).
  set (gi := MkGroupInfo ctx exts tag i s).
  assert (GS : group_info_signed gi (labelled (str "GroupInfoTBS") rb)).
  { exists rb. split; [|split; [unfold fits30; lia|reflexivity]]. unfold se_group_info_base in RB. cbn [gi_context gi_extensions gi_confirmation_tag gi_signer gi] in *.
    apply seq_ok in RB as (x1 & y1 & -> & RB & ->). apply seq_ok in RB as (x2 & y2 & -> & RB & ->). apply seq_ok in RB as (x3 & y3 & -> & RB & ->). apply Ok_inj in RB. subst y3. reflexivity. }
  assert (GI : within 538000000 (se_group_info gi)).
  { unfold se_group_info. change (se_group_info_base gi) with (se_group_info_base (MkGroupInfo ctx exts tag i [])). rewrite RB. cbn [gi_signature gi]. eapply within_le; [|apply within_seq; [exists rb; split; [reflexivity|exact LB]|apply (within_opaque 65536); lia]]. lia. }
  destruct GI as (rg & RG & LGI).
  (* the sealed group info *)
  destruct (keys_made P cs k h joiner psk HO) as (key & nonce & WK & LK & LNo). destruct (sl_seal _ _ _ S key nonce rg [] LK LNo) as (egi & EG & LEG); [lia|].
  destruct (entries_made P cs k h t egi joiner ids n HO) with (gs := gs) as (ents & F2 & WEN); [unfold fits30; lia|exact LN|exact FG|].
  set (w := MkWelcome cs ents egi).
  assert (WM : within 1100000000 (se_mls_message (MkMLSMessage MLS10 (WMWelcome w)))).
  { unfold se_mls_message, se_wire_message, se_welcome, se_vector. cbn [mm_version mm_wire w w_suite w_secrets w_group_info]. destruct WEN as (x & -> & LX). cbn [bind].
    eapply within_le; [|apply within_seq; [apply within_u16|apply within_seq; [apply within_u16|apply within_seq; [apply within_u16|apply within_seq; [apply (within_opaque 536870912); lia|apply (within_opaque 539000000); lia]]]]]. lia. }
  destruct WM as (wb & WB & _). exists gi, wb. split; [reflexivity|]. split; [reflexivity|]. split; [reflexivity|].
  intros g Ig. rewrite Forall_forall in FG. destruct (FG g Ig) as (WG & WS). pose proof WG as [W1 W2 W3 W4 W5 W6].
  assert (KB : within 536870920 (se_mls_message (MkMLSMessage MLS10 (WMKeyPackage (gt_package g))))).
  { unfold se_mls_message, se_wire_message. cbn [mm_version mm_wire]. eapply within_le; [|apply within_seq; [apply within_u16|apply within_seq; [apply within_u16|exact W3]]]. lia. }
  destruct KB as (kpb & KB & _). destruct (entry_found P cs egi joiner ids gs ents F2 ND g Ig) as (e & FE & (RF & raws & ent & kem & ct & RS & EN & EE)).
  destruct (c91_joins P k h t gi joiner psk ids psks (gt_package g) (gt_private g) known kpb wb tree) as (t' & ep & J & CP & TT & EP).
  - exact KA.
  - cbn [gi_context gi]. rewrite CS. exact H.
  - cbn [gi_context gi]. rewrite CS. exact (ho_opens _ _ _ _ HO).
  - constructor; cbn [gi_context gi gi_extensions gi_signer gi_signature gi_confirmation_tag]; try rewrite CS; try assumption.
    + exists raw. split; [exact RT|]. destruct tree; exact TG.
    + split; [exact W1|]. split; [exact W2|exact KB].
    + repeat split; try assumption; apply WC.
    + exists l, sk, a, (labelled (str "GroupInfoTBS") rb). auto.
    + exists ck. auto.
    + exists w. split; [destruct WC as (_ & X & _); rewrite CS in X; exact X|]. split; [reflexivity|]. split; [exact WB|]. split; [exists key, nonce, rg; auto|].
      exists (egs_new_member e), e, (gt_path g), (MkGroupSecrets joiner (gt_path g) ids), raws, ent, kem, ct. repeat split; try assumption.
  - exists kpb, t', ep. cbn [gi_context gi] in *. rewrite CS in J. auto.
Qed.

(** ** Three members, the second and third one invited *)
Definition ho_hash : hash_alg := MkHash 64 (fun x => firstn 64 x) (fun k m => firstn 16 (k ++ m)).
Definition hosting : provider :=
  MkProvider (p_supports modest) (p_supported modest) (fun _ => Ok ho_hash) (p_hpke modest) (p_sig modest)
    (fun _ pk info e p => Ok (e, pk ++ firstn 8 info ++ e ++ p))
    (fun _ sk info kem c => toy_strip ((x01 :: sk) ++ firstn 8 info ++ kem) c).
Definition ho_leaf (k : byte) : leaf_node :=
  let p := ln_payload (hd_leaf k) in
  MkLeafNode p (ok_or [] (let* tbs := se_leaf_node_tbs p TIKeyPackage in sign_with_label hosting Suite1 [k; x21] leaf_node_label tbs)).
Definition ho_tree : tree := [Some (Leaf (ho_leaf x01)); None; Some (Leaf (ho_leaf x02)); None; Some (Leaf (ho_leaf x03)); None; None].
Definition ho_ctx : group_context := MkGroupContext MLS10 Suite1 (str "group") 1 (ok_or [] (root_tree_hash hosting Suite1 ho_tree)) [x0b; x0c] [].
Definition ho_package (k : byte) : key_package := MkKeyPackage (MkKeyPackageTBS MLS10 Suite1 [x01; k; x42] (ho_leaf k) []) [x66].
Definition ho_guest (k : byte) (p : option bytes) : guest := MkGuest (ho_package k) [k; x42] p.
Definition ho_guests : list guest := [ho_guest x02 (Some (str "path")); ho_guest x03 None].
Definition ho_raw : bytes := ok_or [] (se_ratchet_tree ho_tree).
Definition ho_exts : extensions := [MkExtension ExtRatchetTree ho_raw].
Lemma hosting_hosts : hosts hosting Suite1 modest_hpke ho_hash.
Proof.
  constructor.
  - left. reflexivity.
  - destruct modest_seals. constructor; assumption.
  - exact (modest_aead Suite1).
  - destruct modest_schedules. constructor; assumption.
  - split; [reflexivity|]. intros b. cbn [h_digest ho_hash]. pose proof (firstn_le_length 64 b). lia.
  - exists ho_hash. split; [reflexivity|]. intros q m. cbn [h_mac ho_hash]. pose proof (firstn_le_length 16 (q ++ m)). lia.
Qed.
Lemma ho_leaf_wf k : wf_leaf_node (ho_leaf k).
Proof. unfold wf_leaf_node, wf_leaf_payload, wf_capabilities, wf_leaf_node_source, wf_lifetime, wf_extensions, wf_extension. ex_wf. Qed.
Lemma ho_welcome k p : In k [x02; x03] -> welcome_guest hosting Suite1 ho_tree (ho_guest k p).
Proof.
  intros K. constructor.
  - unfold wf_key_package, wf_key_package_tbs. cbn [gt_package ho_guest ho_package kp_payload kp_version kp_suite kp_leaf kp_extensions]. split; [u16_ex 1|]. split; [u16_ex 1|]. split; [apply ho_leaf_wf|constructor].
  - reflexivity.
  - destruct K as [<-|[<-|[]]]; (eexists; split; [vm_compute; reflexivity|vm_compute; discriminate]).
  - destruct K as [<-|[<-|[]]]; [exists 1|exists 2]; reflexivity.
  - intros info e q kem ct E. cbn [p_base_seal p_base_open hosting gt_package gt_private ho_guest ho_package kp_payload kp_init_key] in *. revert E. generalize (firstn 8 info). intros f E. apply Ok_inj in E. injection E as <- <-.
    change (x01 :: k :: x42 :: f ++ e ++ q) with ([x01; k; x42] ++ f ++ e ++ q). replace ([x01; k; x42] ++ f ++ e ++ q) with (([x01; k; x42] ++ f ++ e) ++ q) by (rewrite <- !app_assoc; reflexivity). apply toy_strip_app.
  - intros info q _. exists [x0a]. do 2 eexists. split; [reflexivity|]. cbn [gt_package ho_guest ho_package kp_payload kp_init_key]. rewrite !app_length. pose proof (firstn_le_length 8 info). cbn [length]. lia.
Qed.
Lemma ho_host : host hosting Suite1 ho_tree ho_ctx (str "joiner") (ok_or [] (extract_psk_secret hosting Suite1 [] [])) [] [] ho_exts 0 [x01; x21].
Proof.
  constructor.
  - reflexivity.
  - exists (ho_leaf x01). split; [|discriminate]. apply (TreeFacts.hist _ _ _ [Some (Leaf (ho_leaf x01)); None; Some (Leaf (ho_leaf x02))]); [apply (TreeFacts.hist _ _ _ [Some (Leaf (ho_leaf x01))]); [constructor|]|].
    + apply (ts_add _ _ _ (ho_leaf x02)); [exists 0; left; reflexivity|reflexivity].
    + apply (ts_add _ _ _ (ho_leaf x03)); [exists 1; left; reflexivity|reflexivity].
  - repeat (apply Forall_cons; [try exact I; apply ho_leaf_wf|]). apply Forall_nil.
  - vm_compute. reflexivity.
  - split; [repeat split; [exists 1; split; reflexivity|constructor]|]. eexists. split; [vm_compute; reflexivity|vm_compute; discriminate].
  - split; [apply Forall_cons; [u16_ex 2|constructor]|]. eexists. split; [vm_compute; reflexivity|vm_compute; discriminate].
  - split; [vm_compute; reflexivity|constructor].
  - split; [reflexivity|]. split; [exact (modest_signs _)|]. exists (ho_leaf x01). split; [reflexivity|exact (modest_keys Suite1 _)].
Qed.
Lemma c132_example : exists gi wb, gi_context gi = ho_ctx /\ forall g, In g ho_guests -> exists kpb t' e,
  se_mls_message (MkMLSMessage MLS10 (WMKeyPackage (gt_package g))) = Ok kpb /\
  passive_join hosting Suite1 [] kpb (gt_private g) wb None = Ok (MkJoined t' gi (str "joiner") (ok_or [] (extract_psk_secret hosting Suite1 [] [])) e) /\ copy_of ho_tree t'.
Proof.
  destruct (c132_all hosting Suite1 modest_hpke ho_hash ho_tree ho_ctx (str "joiner") (ok_or [] (extract_psk_secret hosting Suite1 [] [])) [] [] ho_exts 0 [x01; x21] [] None ho_raw 1000 ho_guests)
    as (gi & wb & GC & _ & _ & A).
  - exact hosting_hosts.
  - exact ho_host.
  - constructor.
  - vm_compute. reflexivity.
  - exists [], []. split; [reflexivity|intros e []].
  - apply Forall_cons; [|apply Forall_cons; [|constructor]].
    + split; [apply ho_welcome; left; reflexivity|]. eexists. split; [vm_compute; reflexivity|vm_compute; discriminate].
    + split; [apply ho_welcome; right; left; reflexivity|]. eexists. split; [vm_compute; reflexivity|vm_compute; discriminate].
  - constructor; [|constructor; [intros []|constructor]]. intros [X|[]]. vm_compute in X. discriminate X.
  - reflexivity.
  - reflexivity.
  - exists gi, wb. split; [exact GC|]. intros g I. destruct (A g I) as (kpb & t' & e & KB & J & CP & _). exists kpb, t', e. auto.
Qed.
