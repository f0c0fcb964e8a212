(** Proofs about welcomes and group info (SpecWelcome.v). *)
From Coq Require Import ZifyBool ZifyNat ZifyN.
From Verif Require Import CodecLib WireCodecs TreePaths SecretFacts KeyFacts MessageFacts KeyStoreFacts SpecWelcome.
Local Open Scope N_scope.

Lemma find_egs_some l r e : find_egs l r = Some e <-> first_entry l r e.
Proof.
  unfold first_entry. induction l as [|x l IH]; cbn; [split; [discriminate|intros ([|] & ? & ? & _); discriminate]|].
  destruct (beqb_spec (egs_new_member x) r) as [E|D].
  - split.
    + intros H. injection H as <-. exists [], l. split; [reflexivity|]. split; [exact E|intros y []].
    + intros (pre & post & H & M & N). destruct pre as [|y pre]; cbn in H; [congruence|]. injection H as <- H. exfalso. apply (N x); [cbn; auto|exact E].
  - rewrite IH. split.
    + intros (pre & post & -> & M & N). exists (x :: pre), post. split; [reflexivity|]. split; [exact M|]. intros y [<-|I]; auto.
    + intros (pre & post & H & M & N). destruct pre as [|y pre]; cbn in H; injection H as -> ->; [contradiction|].
      exists pre, post. split; [reflexivity|]. split; [exact M|]. intros z I. apply N. cbn. auto.
Qed.
Lemma find_egs_none l r : find_egs l r = None <-> forall x, In x l -> egs_new_member x <> r.
Proof.
  induction l as [|x l IH]; cbn; [split; [intros _ x []|reflexivity]|]. destruct (beqb_spec (egs_new_member x) r) as [E|D].
  - split; [discriminate|]. intros N. exfalso. exact (N x (or_introl eq_refl) E).
  - rewrite IH. split; [intros N y [<-|I]; auto|auto].
Qed.
Lemma c56_find w r e : find_secret w r = Some e <-> first_entry (w_secrets w) r e.
Proof. apply find_egs_some. Qed.
Lemma c56_absent w r : find_secret w r = None <-> forall x, In x (w_secrets w) -> egs_new_member x <> r.
Proof. apply find_egs_none. Qed.

Lemma welcome_label_fits : fits30 (mls_label (str "Welcome")). Proof. reflexivity. Qed.
Lemma c56_secrets_iff P w r sk gs : decrypt_group_secrets P w r sk = Ok gs <->
  In (w_suite w) [Suite1; Suite2; Suite3] /\ fits30 (w_group_info w) /\
  exists e raw rest, first_entry (w_secrets w) r e /\
    p_base_open P (w_suite w) sk (labelled (str "Welcome") (w_group_info w)) (hc_kem_output (egs_secrets e)) (hc_ciphertext (egs_secrets e)) = Ok raw /\
    de_group_secrets raw = Ok (gs, rest).
Proof.
  rewrite <- hpke_suite_iff. unfold decrypt_group_secrets, decrypt_with_label. split.
  - intros H. destruct (find_secret w r) as [e|] eqn:F; [|discriminate]. apply c56_find in F. apply bind_ok in H as (raw & D & H). apply bind_ok in D as (m & M & D).
    apply label_data_ok in M as (_ & F30 & ->). destruct (hpke_suite_ok (w_suite w)); [|discriminate]. apply de_exact_ok in H as [rest H].
    split; [reflexivity|]. split; [exact F30|]. exists e, raw, rest. auto.
  - intros (S & F30 & e & raw & rest & F & O & D). apply c56_find in F. rewrite F. rewrite (label_data_eq _ _ welcome_label_fits F30). cbn [bind]. rewrite S, O. cbn [bind].
    apply de_exact_ok. eauto.
Qed.
Lemma c56_secrets P w r sk pk ent gs raw e kem ct : hpke_pair_ok P (w_suite w) sk pk -> wf_group_secrets gs -> se_group_secrets gs = Ok raw ->
  encrypt_with_label P (w_suite w) ent pk (str "Welcome") (w_group_info w) raw = Ok (kem, ct) ->
  first_entry (w_secrets w) r e -> egs_secrets e = MkHpkeCiphertext kem ct ->
  decrypt_group_secrets P w r sk = Ok gs.
Proof.
  intros K W R E F ES. unfold encrypt_with_label in E. apply bind_ok in E as (m & M & E). apply label_data_ok in M as (_ & F30 & ->).
  destruct (hpke_suite_ok (w_suite w)) eqn:S; [|discriminate]. apply c56_secrets_iff. rewrite <- hpke_suite_iff. split; [exact S|]. split; [exact F30|].
  exists e, raw, []. split; [exact F|]. rewrite ES. cbn [hc_kem_output hc_ciphertext]. split; [exact (K _ _ _ _ _ E)|]. exact (se_de _ _ _ codec_group_secrets gs raw W R).
Qed.
Lemma welcome_keys_iff P cs k joiner psk key nonce : p_hpke P cs = Ok k ->
  (welcome_key_nonce P cs joiner psk = Ok (key, nonce) <-> welcome_keys k joiner psk key nonce).
Proof.
  intros K. unfold welcome_key_nonce, welcome_keys. rewrite K. split.
  - intros H. apply bind_ok in H as (ws & S & H). apply (welcome_iff P cs k) in S; [|exact K]. cbn [bind] in H. apply bind_ok in H as (n & N & H). apply bind_ok in H as (y & Y & H).
    apply Ok_inj in H. injection H as <- <-. exists ws. split; [exact S|]. rewrite (c38_expand P cs k) in N, Y by (first [exact K|reflexivity]). auto.
  - intros (ws & S & N & Y). apply (welcome_iff P cs k) in S; [|exact K]. rewrite S. cbn [bind].
    rewrite !(c38_expand P cs k) by (first [exact K|reflexivity]). rewrite N. cbn [bind]. rewrite Y. reflexivity.
Qed.
Lemma c56_info_iff P w k joiner psk gi : p_hpke P (w_suite w) = Ok k ->
  (decrypt_group_info P w joiner psk = Ok gi <->
   exists key nonce raw rest, welcome_keys k joiner psk key nonce /\ a_open k key nonce (w_group_info w) [] = Ok raw /\ de_group_info raw = Ok (gi, rest)).
Proof.
  intros K. unfold decrypt_group_info. split.
  - intros H. apply bind_ok in H as ([key nonce] & KN & H). apply (welcome_keys_iff P (w_suite w) k) in KN; [|exact K]. rewrite K in H. cbn [bind] in H.
    apply bind_ok in H as (raw & O & H). apply de_exact_ok in H as [rest H]. exists key, nonce, raw, rest. auto.
  - intros (key & nonce & raw & rest & KN & O & D). apply (welcome_keys_iff P (w_suite w) k) in KN; [|exact K]. rewrite KN. cbn [bind]. rewrite K. cbn [bind]. rewrite O. cbn [bind].
    apply de_exact_ok. eauto.
Qed.
Lemma c56_info P w k joiner psk gi key nonce raw : p_hpke P (w_suite w) = Ok k -> aead_ok P (w_suite w) -> welcome_keys k joiner psk key nonce ->
  wf_group_info gi -> se_group_info gi = Ok raw -> a_seal k key nonce raw [] = Ok (w_group_info w) -> decrypt_group_info P w joiner psk = Ok gi.
Proof.
  intros K A KN W R S. apply (c56_info_iff P w k); [exact K|]. exists key, nonce, raw, []. split; [exact KN|]. split; [exact (A _ _ _ _ _ _ K S)|].
  exact (se_de _ _ _ codec_group_info gi raw W R).
Qed.

(** ** C58 *)
Lemma base_eq g : se_group_info_base g =
  (let* c := se_group_context (gi_context g) in let* e := se_extensions (gi_extensions g) in
   let* t := se_opaque (gi_confirmation_tag g) in Ok (c ++ e ++ t ++ be 4 (gi_signer g))%list).
Proof.
  unfold se_group_info_base, seqw, put_u32. destruct (se_group_context (gi_context g)); cbn [bind]; auto.
  destruct (se_extensions (gi_extensions g)); cbn [bind]; auto. destruct (se_opaque (gi_confirmation_tag g)); cbn [bind]; auto.
Qed.
Lemma info_label_fits : fits30 (mls_label (str "GroupInfoTBS")). Proof. reflexivity. Qed.
Lemma c58_signature P g pk a : p_sig P (gc_suite (gi_context g)) = Ok a ->
  (group_info_verify_signature P g pk = Ok tt <-> exists m, group_info_signed g m /\ s_verify a pk m (gi_signature g) = Ok tt).
Proof.
  intros A. unfold group_info_verify_signature, verify_with_label, group_info_signed. rewrite base_eq. split.
  - intros H. apply bind_ok in H as (raw & R & H). apply bind_ok in H as (m & M & H). apply label_data_ok in M as (_ & F & ->). rewrite A in H. cbn [bind] in H.
    eexists. split; [exists raw; split; [exact R|]; split; [exact F|reflexivity]|exact H].
  - intros (m & (raw & R & F & ->) & V). rewrite R. cbn [bind]. rewrite (label_data_eq _ _ info_label_fits F). cbn [bind]. rewrite A. exact V.
Qed.
Lemma c58_covers g g' m : wf_group_info g -> wf_group_info g' -> group_info_signed g m -> group_info_signed g' m ->
  gi_context g = gi_context g' /\ gi_extensions g = gi_extensions g' /\ gi_confirmation_tag g = gi_confirmation_tag g' /\ gi_signer g = gi_signer g'.
Proof.
  intros W W' (raw & R & F & ->) (raw' & R' & F' & M). apply labelled_inj in M as [_ <-]; try assumption; try reflexivity.
  rewrite <- base_eq in R, R'. pose (strip := fun x => MkGroupInfo (gi_context x) (gi_extensions x) (gi_confirmation_tag x) (gi_signer x) []).
  assert (S : forall x, se_group_info_base x = Ok raw -> se_group_info (strip x) = Ok (raw ++ [x00])%list).
  { intros x H. unfold se_group_info, seqw. assert (B : se_group_info_base (strip x) = se_group_info_base x) by reflexivity. rewrite B, H. cbn [bind]. reflexivity. }
  pose proof (codec_inj codec_group_info (strip g) (strip g') _ W W' (S g R) (S g' R')) as E. unfold strip in E. injection E. auto.
Qed.
Lemma c58_tag P g k h joiner psk : p_hpke P (gc_suite (gi_context g)) = Ok k -> p_hash P (gc_suite (gi_context g)) = Ok h ->
  (group_info_verify_tag P g joiner psk = Ok tt <->
   exists key, confirmation_key k (gi_context g) joiner psk key /\ gi_confirmation_tag g = h_mac h key (gc_confirmed (gi_context g))).
Proof.
  intros K Hh. unfold group_info_verify_tag, confirmation_key, verify_mac, sign_mac, derive_secret. rewrite K, Hh. cbn [bind]. split.
  - intros H. apply bind_ok in H as (es & E & H). apply (epoch_iff P (gi_context g) k) in E; [|exact K]. apply bind_ok in H as (key & D & H).
    rewrite (c38_expand P (gc_suite (gi_context g)) k) in D by (first [exact K|reflexivity]). destruct (beqb_spec (gi_confirmation_tag g) (h_mac h key (gc_confirmed (gi_context g)))) as [T|]; [|discriminate].
    exists key. split; [exists es; auto|exact T].
  - intros (key & (es & E & D) & T). apply (epoch_iff P (gi_context g) k) in E; [|exact K]. rewrite E. cbn [bind]. rewrite (c38_expand P (gc_suite (gi_context g)) k) by (first [exact K|reflexivity]).
    unfold label_confirm. unfold nh in D. rewrite D. cbn [bind]. rewrite <- T, bytes_eqb_refl. reflexivity.
Qed.
Lemma c58_reject P g k h joiner psk : p_hpke P (gc_suite (gi_context g)) = Ok k -> p_hash P (gc_suite (gi_context g)) = Ok h ->
  forall key, confirmation_key k (gi_context g) joiner psk key -> gi_confirmation_tag g <> h_mac h key (gc_confirmed (gi_context g)) ->
  group_info_verify_tag P g joiner psk = Err VerifyConfirmationTagFailed.
Proof.
  intros K Hh key (es & E & D) N. unfold group_info_verify_tag, verify_mac, sign_mac, derive_secret. rewrite K, Hh. cbn [bind].
  apply (epoch_iff P (gi_context g) k) in E; [|exact K]. rewrite E. cbn [bind]. rewrite (c38_expand P (gc_suite (gi_context g)) k) by (first [exact K|reflexivity]).
  unfold label_confirm. unfold nh in D. rewrite D. cbn [bind]. destruct (beqb_spec (gi_confirmation_tag g) (h_mac h key (gc_confirmed (gi_context g)))); [contradiction|reflexivity].
Qed.

(** ** C63, C64 *)
Lemma find_stored_refs s : forall l l', map egs_new_member l = map egs_new_member l' -> find_stored s l = find_stored s l'.
Proof.
  induction l as [|e l IH]; intros [|e' l'] E; cbn in E; try discriminate; [reflexivity|]. injection E as E1 E2. cbn. rewrite E1, (IH l' E2). reflexivity.
Qed.
Lemma c63_ignores P s w w' : map egs_new_member (w_secrets w) = map egs_new_member (w_secrets w') -> from_welcome P s w = from_welcome P s w'.
Proof. intros E. unfold from_welcome. rewrite (find_stored_refs s _ _ E). reflexivity. Qed.
Lemma c63_default P s w s' g : from_welcome P s w = (s', Ok g) -> g = default_group.
Proof. intros H. apply c54_success in H as (k & kp & ref & _ & _ & _ & _ & _ & _ & E). exact E. Qed.
Lemma c64_new fill v cs cred skp id g : group_new fill v cs cred skp id = Ok g <->
  g_version g = v /\ g_suite g = cs /\ g_credential g = cred /\ g_signature_key g = skp_public skp /\
  match id with Some i => g_group_id g = i | None => fill 16 = Ok (g_group_id g) end.
Proof.
  unfold group_new. destruct g as [gv gs gc gk gi]. cbn [g_version g_suite g_credential g_signature_key g_group_id]. split.
  - intros H. destruct id as [i|]; cbn [bind] in H.
    + apply Ok_inj in H. injection H as -> -> -> -> ->. auto.
    + apply bind_ok in H as (x & X & H). apply Ok_inj in H. injection H as -> -> -> -> ->. auto.
  - intros (-> & -> & -> & -> & I). destruct id as [i|]; [subst; reflexivity|]. rewrite I. reflexivity.
Qed.
