(** Proofs about the key store, key packages and joining. *)
From Coq Require Import ZifyBool ZifyNat ZifyN.
From Verif Require Import CodecLib WireCodecs TreePaths SecretFacts SpecKeys ExProvider Examples MessageFacts.
Local Open Scope N_scope.

(** ** The store *)
Lemma beqb_true x y : bytes_eqb x y = true -> x = y.
Proof. apply bytes_eqb_eq. Qed.
Lemma beqb_spec x y : reflect (x = y) (bytes_eqb x y).
Proof. destruct (bytes_eqb x y) eqn:E; constructor; [apply bytes_eqb_eq, E|]. intros ->. rewrite bytes_eqb_refl in E. discriminate. Qed.
Lemma retrieve_delete s k k' : ks_retrieve (ks_delete s k) k' = if bytes_eqb k' k then None else ks_retrieve s k'.
Proof.
  induction s as [|[a v] s IH]; cbn; [destruct (bytes_eqb k' k); reflexivity|].
  destruct (beqb_spec k a) as [E|D]; cbn; rewrite IH.
  - subst a. destruct (beqb_spec k' k); reflexivity.
  - destruct (beqb_spec k' a) as [E'|D']; [|reflexivity]. subst a. destruct (beqb_spec k' k); [congruence|reflexivity].
Qed.
Lemma retrieve_store s k v k' : ks_retrieve (ks_store s k v) k' = if bytes_eqb k' k then Some v else ks_retrieve s k'.
Proof. unfold ks_store. cbn. rewrite retrieve_delete. destruct (bytes_eqb k' k); reflexivity. Qed.

Lemma c53_map ops k v : ks_retrieve (ks_run ops) k = Some v <->
  exists pre post, ops = (pre ++ OpStore k v :: post)%list /\ forall o, In o post -> op_key o <> k.
Proof.
  unfold ks_run. induction ops as [|o ops IH] using rev_ind; [split; [discriminate|intros ([|] & post & E & _); discriminate]|].
  rewrite fold_left_app. cbn [fold_left]. set (s := fold_left ks_apply ops []) in *.
  assert (L : (exists pre post, (ops ++ [o] = pre ++ OpStore k v :: post)%list /\ forall o', In o' post -> op_key o' <> k) <->
    o = OpStore k v \/ op_key o <> k /\ exists pre post, ops = (pre ++ OpStore k v :: post)%list /\ forall o', In o' post -> op_key o' <> k).
  { split.
    - intros (pre & post & E & N). destruct post as [|a post] using rev_ind.
      + apply app_inj_tail in E as [_ ->]. auto.
      + clear IHpost. right. rewrite app_comm_cons, app_assoc in E. apply app_inj_tail in E as [E ->]. split; [apply N, in_or_app; cbn; auto|].
        exists pre, post. split; [exact E|]. intros o' I. apply N, in_or_app. auto.
    - intros [->|(D & pre & post & -> & N)].
      + exists ops, []. split; [reflexivity|intros o' []].
      + exists pre, (post ++ [o])%list. rewrite <- app_assoc. split; [reflexivity|]. intros o' I. apply in_app_or in I as [I|[<-|[]]]; auto. }
  rewrite L, <- IH. destruct o as [a b|a]; cbn [ks_apply op_key].
  - rewrite retrieve_store. destruct (beqb_spec k a) as [->|D].
    + split; [intros E; injection E as ->; auto|]. intros [E|[E _]]; [injection E as ->; reflexivity|contradiction].
    + split; [intros E; right; split; [congruence|exact E]|]. intros [E|[_ E]]; [congruence|exact E].
  - rewrite retrieve_delete. destruct (beqb_spec k a) as [->|D].
    + split; [discriminate|]. intros [E|[E _]]; [discriminate|contradiction].
    + split; [intros E; right; split; [congruence|exact E]|]. intros [E|[_ E]]; [discriminate|exact E].
Qed.
Lemma c53_other s o k : op_key o <> k -> ks_retrieve (ks_apply s o) k = ks_retrieve s k.
Proof.
  intros D. destruct o as [a b|a]; cbn [op_key ks_apply] in D |- *; [rewrite retrieve_store|rewrite retrieve_delete]; destruct (beqb_spec k a); congruence.
Qed.

(** ** Key packages *)
Lemma version_eqb_eq a b : version_eqb a b = true <-> a = b.
Proof. destruct a, b; cbn; split; intros E; try discriminate; try reflexivity; [apply N.eqb_eq in E; congruence|injection E as ->; apply N.eqb_refl]. Qed.
Lemma suite_eqb_eq a b : suite_eqb a b = true <-> a = b.
Proof. destruct a, b; cbn; split; intros E; try discriminate; try reflexivity; [apply N.eqb_eq in E; congruence|injection E as ->; apply N.eqb_refl]. Qed.
Lemma scheme_eqb_eq a b : scheme_eqb a b = true <-> a = b.
Proof. destruct a, b; cbn; split; intros E; try discriminate; reflexivity. Qed.
Lemma kp_label_fits : fits30 (mls_label (str "KeyPackageTBS")).
Proof. reflexivity. Qed.
Lemma package_signed_iff P kp : key_package_verify_signature P kp = Ok tt <-> package_signed P kp.
Proof.
  unfold key_package_verify_signature, verify_with_label, package_signed. split.
  - intros H. apply bind_ok in H as (raw & R & H). apply bind_ok in H as (m & M & H). apply bind_ok in H as (s & S & H).
    apply label_data_ok in M as (_ & F & ->). exists raw, (labelled (str "KeyPackageTBS") raw), s. auto.
  - intros (raw & m & s & R & F & -> & S & V). rewrite R. cbn [bind]. unfold key_package_label. rewrite (label_data_eq _ _ kp_label_fits F). cbn [bind]. rewrite S. exact V.
Qed.
Lemma is_ok_true {A} (m : res A) : is_ok m = Ok true <-> exists a, m = Ok a.
Proof. destruct m; cbn; split; intros H; try discriminate; eauto; destruct H; discriminate. Qed.
Lemma c52_iff P kp ctx : key_package_verify P kp ctx = Ok tt <->
  kp_version (kp_payload kp) = gc_version ctx /\ kp_suite (kp_payload kp) = gc_suite ctx /\ is_package_leaf (kp_leaf (kp_payload kp)) /\
  package_signed P kp /\ lp_encryption_key (ln_payload (kp_leaf (kp_payload kp))) <> kp_init_key (kp_payload kp).
Proof.
  unfold key_package_verify, is_package_leaf. rewrite <- package_signed_iff. split.
  - intros H. destruct (version_eqb _ _) eqn:V; [|discriminate]. destruct (suite_eqb _ _) eqn:S; [|discriminate]. cbn [negb] in H.
    destruct (lp_source _) as [lt| |]; try discriminate. apply bind_ok in H as ([] & K & H); [|discriminate]. cbn [negb] in H.
    destruct (beqb_spec (lp_encryption_key (ln_payload (kp_leaf (kp_payload kp)))) (kp_init_key (kp_payload kp))) as [E|E]; [discriminate|].
    apply is_ok_true in K as [[] K]. split; [apply version_eqb_eq, V|]. split; [apply suite_eqb_eq, S|]. split; [eauto|]. auto.
  - intros (V & S & (lt & L) & K & D). apply version_eqb_eq in V. apply suite_eqb_eq in S. rewrite V, S, L, K. cbn [negb is_ok bind].
    destruct (beqb_spec (lp_encryption_key (ln_payload (kp_leaf (kp_payload kp)))) (kp_init_key (kp_payload kp))); [contradiction|reflexivity].
Qed.
Lemma generate_ref_ok P kp r : generate_ref P kp = Ok r <->
  exists h x, p_hash P (kp_suite (kp_payload kp)) = Ok h /\ ref_input kp x /\ r = h_digest h x.
Proof.
  unfold generate_ref, ref_hash, ref_input. split.
  - intros H. apply bind_ok in H as (raw & R & H). apply bind_ok in H as (x & X & H). apply bind_ok in H as (h & Hh & H). apply Ok_inj in H. subst r.
    exists h, x. split; [exact Hh|]. split; [|reflexivity]. exists raw. split; [exact R|].
    destruct (fits30_dec raw) as [F|F].
    + split; [exact F|]. rewrite (se_opaque_vec (str "MLS 1.0 KeyPackage Reference")) in X by reflexivity. rewrite (se_opaque_vec raw F) in X. unfold seqw in X. cbn [bind] in X. apply Ok_inj in X. symmetry. exact X.
    + exfalso. apply seqw_ok in X as (a & b & _ & B & _). destruct (se_opaque_long raw F) as [E|E]; rewrite B in E; discriminate.
  - intros (h & x & Hh & (raw & R & F & ->) & ->). rewrite R. cbn [bind]. rewrite (se_opaque_vec (str "MLS 1.0 KeyPackage Reference")) by reflexivity. rewrite (se_opaque_vec raw F). unfold seqw. cbn [bind]. rewrite Hh. reflexivity.
Qed.

Lemma c51_ref_binds P kp kp' r h : wf_key_package kp -> wf_key_package kp' -> kp_suite (kp_payload kp) = kp_suite (kp_payload kp') ->
  p_hash P (kp_suite (kp_payload kp)) = Ok h -> generate_ref P kp = Ok r -> generate_ref P kp' = Ok r ->
  kp = kp' \/ exists x x', ref_input kp x /\ ref_input kp' x' /\ x <> x' /\ h_digest h x = h_digest h x'.
Proof.
  intros W W' S Hh H H'. apply generate_ref_ok in H as (h1 & x & H1 & X & R). apply generate_ref_ok in H' as (h2 & x' & H2 & X' & R').
  rewrite <- S in H2. rewrite Hh in H1, H2. apply Ok_inj in H1, H2. subst h1 h2.
  destruct (list_eq_dec Byte.byte_eq_dec x x') as [E|D]; [left|right; exists x, x'; split; [exact X|]; split; [exact X'|]; split; [exact D|congruence]].
  destruct X as (raw & A & F & EX). destruct X' as (raw' & A' & F' & EX'). rewrite EX, EX' in E. apply vec_prefix in E as [_ E]; [|reflexivity|reflexivity].
  rewrite <- (app_nil_r (vec raw)), <- (app_nil_r (vec raw')) in E. apply vec_prefix in E as [<- _]; [|assumption|assumption].
  exact (codec_inj codec_key_package _ _ raw W W' A A').
Qed.

(** ** Building *)
Lemma new_leaf_ok P fill cs cred skp src caps exts ti l ekp : leaf_node_new P fill cs cred skp src caps exts ti = Ok (l, ekp) ->
  lp_signature_key (ln_payload l) = skp_public skp /\ lp_source (ln_payload l) = src /\ lp_encryption_key (ln_payload l) = hkp_public ekp /\
  lp_credential (ln_payload l) = cred /\ lp_capabilities (ln_payload l) = caps /\ lp_extensions (ln_payload l) = exts /\
  exists tbs m sa, se_leaf_node_tbs (ln_payload l) ti = Ok tbs /\ mls_prefix_label_data leaf_node_label tbs = Ok m /\ p_sig P cs = Ok sa /\ s_sign sa (skp_public skp) m = Ok (ln_signature l).
Proof.
  unfold leaf_node_new. intros H. apply bind_ok in H as (h & Hh & H). apply bind_ok in H as (ikm & Hi & H). apply bind_ok in H as (k & Hk & H).
  apply bind_ok in H as (e & He & H). apply bind_ok in H as (tbs & T & H). apply bind_ok in H as (sig & S & H). apply Ok_inj in H. injection H as <- <-.
  unfold sign_with_label in S. apply bind_ok in S as (m & M & S). apply bind_ok in S as (sa & A & S). cbn. repeat split. exists tbs, m, sa. auto.
Qed.
Lemma new_package_ok P f1 f2 v cs cred skp lt kexts caps lexts kp ekp ip : key_package_new P f1 f2 v cs cred skp lt kexts caps lexts = Ok (kp, ekp, ip) ->
  exists leaf init h k ikm, kp_payload kp = MkKeyPackageTBS v cs (hkp_public init) leaf kexts /\ ip = hkp_private init /\
    p_hash P cs = Ok h /\ p_hpke P cs = Ok k /\ f1 (h_size h) = Ok ikm /\ k_derive_key_pair k ikm = Ok init /\
    leaf_node_new P f2 cs cred skp (LSKeyPackage lt) caps lexts TIKeyPackage = Ok (leaf, ekp) /\
    exists sa raw, p_sig P cs = Ok sa /\ s_scheme sa = skp_scheme skp /\ se_key_package_tbs (kp_payload kp) = Ok raw /\ fits30 raw /\
      s_sign sa (skp_public skp) (labelled (str "KeyPackageTBS") raw) = Ok (kp_signature kp).
Proof.
  unfold key_package_new, key_package_from_keys. intros H. apply bind_ok in H as (sa & SA & H). destruct (scheme_eqb _ _) eqn:SE; [|discriminate]. cbn [negb] in H.
  apply bind_ok in H as (h & Hh & H). apply bind_ok in H as (ikm & Hi & H). apply bind_ok in H as (k & Hk & H). apply bind_ok in H as (init & Hin & H).
  apply bind_ok in H as ([kp' ekp'] & K & H). apply Ok_inj in H. injection H as -> -> <-.
  apply bind_ok in K as ([leaf e] & L & K). apply bind_ok in K as (raw & R & K). apply bind_ok in K as (sig & S & K). apply Ok_inj in K. injection K as <- ->.
  unfold sign_with_label in S. apply bind_ok in S as (m & M & S). apply bind_ok in S as (sa' & SA' & S). rewrite SA in SA'. apply Ok_inj in SA'. subst sa'.
  apply label_data_ok in M as (_ & F & ->). apply scheme_eqb_eq in SE. exists leaf, init, h, k, ikm. cbn [kp_payload kp_signature].
  split; [reflexivity|]. split; [reflexivity|]. split; [exact Hh|]. split; [exact Hk|]. split; [exact Hi|]. split; [exact Hin|]. split; [exact L|].
  exists sa, raw. auto 10.
Qed.
Lemma sbind_ok {A B} s (m : res A) (k : A -> key_store * res B) s' b : sbind s m k = (s', Ok b) -> exists a, m = Ok a /\ k a = (s', Ok b).
Proof. destruct m; cbn; intros H; try discriminate. eauto. Qed.
Lemma build_ok P f1 f2 s b v cs cred skp s' kp : key_package_build P f1 f2 s b v cs cred skp = (s', Ok kp) ->
  exists ekp ip ref raw rawe rawi,
    key_package_new P f1 f2 v cs cred skp (or_default (b_lifetime b) (MkLifetime 0 0)) (or_default (b_extensions b) [])
             (or_default (b_capabilities b) (MkCapabilities [] [] [] [] [])) (or_default (b_leaf_extensions b) []) = Ok (kp, ekp, ip) /\
    generate_ref P kp = Ok ref /\ se_key_package kp = Ok raw /\ se_hpke_key_pair ekp = Ok rawe /\ se_secret_key ip = Ok rawi /\
    s' = ks_store (ks_store (ks_store s ref raw) (hkp_public ekp) rawe) (kp_init_key (kp_payload kp)) rawi.
Proof.
  unfold key_package_build. intros H. apply sbind_ok in H as ([[kp' ekp] ip] & K & H). apply sbind_ok in H as (ref & R & H). apply sbind_ok in H as (raw & A & H).
  apply sbind_ok in H as (rawe & E & H). apply sbind_ok in H as (rawi & I & H). injection H as <- <-. exists ekp, ip, ref, raw, rawe, rawi. auto 10.
Qed.

Lemma built_fields P f1 f2 s b v cs cred skp s' kp : key_package_build P f1 f2 s b v cs cred skp = (s', Ok kp) ->
  let p := kp_payload kp in let l := ln_payload (kp_leaf p) in
  kp_version p = v /\ kp_suite p = cs /\ kp_extensions p = or_default (b_extensions b) [] /\
  lp_signature_key l = skp_public skp /\ lp_credential l = cred /\ lp_source l = LSKeyPackage (or_default (b_lifetime b) (MkLifetime 0 0)) /\
  lp_capabilities l = or_default (b_capabilities b) (MkCapabilities [] [] [] [] []) /\ lp_extensions l = or_default (b_leaf_extensions b) [].
Proof.
  intros H. apply build_ok in H as (ekp & ip & ref & raw & rawe & rawi & K & _). apply new_package_ok in K as (leaf & init & h & k & ikm & -> & _ & _ & _ & _ & _ & L & _).
  apply new_leaf_ok in L as (A & B & C & D & E & F & _). cbn. auto 10.
Qed.
Lemma c51_accepted P f1 f2 s b v cs cred skp s' kp ctx :
  key_pair_ok P cs (skp_public skp) (skp_public skp) ->
  key_package_build P f1 f2 s b v cs cred skp = (s', Ok kp) -> gc_version ctx = v -> gc_suite ctx = cs ->
  lp_encryption_key (ln_payload (kp_leaf (kp_payload kp))) <> kp_init_key (kp_payload kp) ->
  key_package_verify P kp ctx = Ok tt /\ package_leaf_signed P kp.
Proof.
  intros KP H V C D. pose proof (built_fields _ _ _ _ _ _ _ _ _ _ _ H) as (FV & FC & _ & FK & _ & FS & _).
  apply build_ok in H as (ekp & ip & ref & raw0 & rawe & rawi & K & _). apply new_package_ok in K as (leaf & init & h & k & ikm & EP & _ & _ & _ & _ & _ & L & sa & raw & SA & _ & R & F & S).
  split.
  - apply c52_iff. split; [congruence|]. split; [congruence|]. split; [eexists; exact FS|]. split; [|exact D].
    exists raw, (labelled (str "KeyPackageTBS") raw), sa. split; [exact R|]. split; [exact F|]. split; [reflexivity|]. rewrite FC. split; [exact SA|]. rewrite FK. exact (KP _ _ _ SA S).
  - apply new_leaf_ok in L as (LK & _ & _ & _ & _ & _ & tbs & m & sb & T & M & SB & SS). unfold package_leaf_signed, leaf_verify_signature. rewrite FC. rewrite EP. cbn [kp_leaf]. rewrite T.
    apply is_ok_true. exists tt. unfold verify_with_label. rewrite M. cbn [bind]. rewrite SB. cbn [bind]. rewrite LK. exact (KP _ _ _ SB SS).
Qed.
Lemma c51_rejected P f1 f2 s b v cs cred skp s' kp : public_key_cannot_sign P cs (skp_public skp) ->
  key_package_build P f1 f2 s b v cs cred skp = (s', Ok kp) ->
  (forall ctx, key_package_verify P kp ctx <> Ok tt) /\ ~ package_leaf_signed P kp.
Proof.
  intros N H. pose proof (built_fields _ _ _ _ _ _ _ _ _ _ _ H) as (FV & FC & _ & FK & _ & FS & _).
  apply build_ok in H as (ekp & ip & ref & raw0 & rawe & rawi & K & _). apply new_package_ok in K as (leaf & init & h & k & ikm & EP & _ & _ & _ & _ & _ & L & sa & raw & SA & _ & R & F & S).
  split.
  - intros ctx E. apply c52_iff in E as (_ & _ & _ & (raw' & m & sb & R' & _ & -> & SB & V) & _). rewrite FC in SB. rewrite FK in V.
    rewrite R in R'. apply Ok_inj in R'. subst raw'. rewrite SA in SB. apply Ok_inj in SB. subst sb. exact (N _ _ _ SA S V).
  - apply new_leaf_ok in L as (LK & _ & _ & _ & _ & _ & tbs & m & sb & T & M & SB & SS). unfold package_leaf_signed, leaf_verify_signature. rewrite FC. rewrite EP. cbn [kp_leaf]. rewrite T.
    rewrite is_ok_true. intros [[] E]. unfold verify_with_label in E. rewrite M in E. cbn [bind] in E. rewrite SB in E. cbn [bind] in E. rewrite LK in E. exact (N _ _ _ SB SS E).
Qed.
Lemma c51_stored P f1 f2 s b v cs cred skp s' kp : key_package_build P f1 f2 s b v cs cred skp = (s', Ok kp) ->
  exists ref raw, generate_ref P kp = Ok ref /\ se_key_package kp = Ok raw /\
  let enc := lp_encryption_key (ln_payload (kp_leaf (kp_payload kp))) in let init := kp_init_key (kp_payload kp) in
  (forall k, k <> ref -> k <> enc -> k <> init -> ks_retrieve s' k = ks_retrieve s k) /\
  (ref <> enc -> ref <> init -> ks_retrieve s' ref = Some raw) /\
  (exists sk rawi, ks_retrieve s' init = Some rawi /\ se_secret_key sk = Ok rawi /\
     exists k h ikm, p_hpke P cs = Ok k /\ p_hash P cs = Ok h /\ f1 (h_size h) = Ok ikm /\ k_derive_key_pair k ikm = Ok (MkHpkeKeyPair sk init)) /\
  (enc <> init -> exists sk rawe, ks_retrieve s' enc = Some rawe /\ se_hpke_key_pair (MkHpkeKeyPair sk enc) = Ok rawe).
Proof.
  intros H. apply build_ok in H as (ekp & ip & ref & raw & rawe & rawi & K & R & A & E & I & ->). exists ref, raw. split; [exact R|]. split; [exact A|].
  apply new_package_ok in K as (leaf & init & h & k & ikm & EP & EI & Hh & Hk & Hf & Hi & L & _).
  apply new_leaf_ok in L as (_ & _ & LE & _). rewrite EP. cbn [kp_leaf kp_init_key]. rewrite LE.
  split; [|split; [|split]].
  - intros x D1 D2 D3. rewrite !retrieve_store. destruct (beqb_spec x (hkp_public init)); [contradiction|]. destruct (beqb_spec x (hkp_public ekp)); [contradiction|]. destruct (beqb_spec x ref); [contradiction|reflexivity].
  - intros D1 D2. rewrite !retrieve_store. destruct (beqb_spec ref (hkp_public init)); [contradiction|]. destruct (beqb_spec ref (hkp_public ekp)); [contradiction|]. rewrite bytes_eqb_refl. reflexivity.
  - exists ip, rawi. split; [rewrite retrieve_store, bytes_eqb_refl; reflexivity|]. split; [exact I|]. exists k, h, ikm. subst ip. destruct init. auto.
  - intros D. exists (hkp_private ekp), rawe. split; [|destruct ekp; exact E]. rewrite !retrieve_store. destruct (beqb_spec (hkp_public ekp) (hkp_public init)); [contradiction|]. rewrite bytes_eqb_refl. reflexivity.
Qed.

(** ** Joining *)
Lemma find_stored_some s l v : find_stored s l = Some v <->
  exists pre e post, l = (pre ++ e :: post)%list /\ ks_retrieve s (egs_new_member e) = Some v /\ forall x, In x pre -> ks_retrieve s (egs_new_member x) = None.
Proof.
  induction l as [|e l IH]; cbn; [split; [discriminate|intros ([|] & ? & ? & ? & _); discriminate]|].
  destruct (ks_retrieve s (egs_new_member e)) as [u|] eqn:R.
  - split.
    + intros E. injection E as ->. exists [], e, l. split; [reflexivity|]. split; [exact R|intros x []].
    + intros ([|y pre] & e' & post & E & V & N); injection E as <- E; [congruence|]. rewrite (N e (or_introl eq_refl)) in R. discriminate.
  - rewrite IH. split.
    + intros (pre & e' & post & -> & V & N). exists (e :: pre), e', post. split; [reflexivity|]. split; [exact V|]. intros x [<-|I]; auto.
    + intros ([|y pre] & e' & post & E & V & N); injection E as <- E; [congruence|]. exists pre, e', post. split; [exact E|]. split; [exact V|]. intros x I. apply N. right. exact I.
Qed.
Lemma find_stored_none s l : find_stored s l = None <-> forall x, In x l -> ks_retrieve s (egs_new_member x) = None.
Proof.
  induction l as [|e l IH]; cbn; [split; [intros _ x []|reflexivity]|]. destruct (ks_retrieve s (egs_new_member e)) as [u|] eqn:R.
  - split; [discriminate|]. intros N. specialize (N e (or_introl eq_refl)). congruence.
  - rewrite IH. split; [intros N x [<-|I]; auto|auto].
Qed.
Lemma find_first s w v : find_stored s (w_secrets w) = Some v <-> exists k, first_known s w k /\ ks_retrieve s k = Some v.
Proof.
  rewrite find_stored_some. unfold first_known. split.
  - intros (pre & e & post & E & V & N). exists (egs_new_member e). split; [|exact V]. exists pre, e, post. split; [exact E|]. split; [reflexivity|]. split; [congruence|exact N].
  - intros (k & (pre & e & post & E & K & _ & N) & V). exists pre, e, post. subst k. auto.
Qed.
Lemma first_known_fun s w k k' : first_known s w k -> first_known s w k' -> k = k'.
Proof.
  intros (pre & e & post & E & K & D & N) (pre' & e' & post' & E' & K' & D' & N'). rewrite E in E'. clear E. revert pre' E' N'.
  induction pre as [|x pre IH]; intros [|x' pre'] E' N'; cbn in E'.
  - congruence.
  - injection E' as <- E'. specialize (N' e (or_introl eq_refl)). congruence.
  - injection E' as -> E'. specialize (N e' (or_introl eq_refl)). congruence.
  - injection E' as _ E'. apply (IH (fun y I => N y (or_intror I)) pre' E'). intros y I. apply N'. right. exact I.
Qed.
Lemma de_exact_ok {A} (f : bytes -> res (A * bytes)) b a : de_exact f b = Ok a <-> exists rest, f b = Ok (a, rest).
Proof.
  unfold de_exact. split.
  - intros H. apply bind_ok in H as ([x r] & F & H). apply Ok_inj in H. subst x. eauto.
  - intros [r F]. rewrite F. reflexivity.
Qed.
Lemma same_but_two s a b : same_but [a; b] s (ks_delete (ks_delete s a) b).
Proof.
  split; intros k I; rewrite !retrieve_delete; destruct (beqb_spec k b) as [E|E]; try reflexivity; destruct (beqb_spec k a) as [E'|E']; try reflexivity.
  - destruct I as [I|[I|[]]]; congruence.
  - exfalso. apply I. subst. cbn. auto.
  - exfalso. apply I. subst. cbn. auto.
  - exfalso. apply I. subst. cbn. auto.
Qed.
Lemma c54_success P s w s' g : from_welcome P s w = (s', Ok g) <->
  exists k kp ref, first_known s w k /\ holds s k kp /\ generate_ref P kp = Ok ref /\ kp_init_key (kp_payload kp) <> ref /\ has_init s kp /\
    s' = ks_delete (ks_delete s ref) (kp_init_key (kp_payload kp)) /\ g = default_group.
Proof.
  unfold from_welcome, holds, has_init. split.
  - intros H. apply sbind_ok in H as (raw & F & H). destruct (find_stored s (w_secrets w)) as [v|] eqn:FS; [|discriminate]. apply Ok_inj in F. subst v.
    apply find_first in FS as (k & FK & R). apply sbind_ok in H as (kp & D & H). apply de_exact_ok in D as [rest D]. apply sbind_ok in H as (ref & G & H).
    apply sbind_ok in H as (rawi & RI & H). apply sbind_ok in H as (sk & DS & H). injection H as <- <-. apply de_exact_ok in DS as [rest' DS].
    rewrite retrieve_delete in RI. destruct (beqb_spec (kp_init_key (kp_payload kp)) ref) as [E|E]; [discriminate|].
    destruct (ks_retrieve s (kp_init_key (kp_payload kp))) as [ri|] eqn:RR; [|discriminate]. apply Ok_inj in RI. subst ri.
    exists k, kp, ref. split; [exact FK|]. split; [eauto|]. split; [exact G|]. split; [exact E|]. split; [eauto|]. auto.
  - intros (k & kp & ref & FK & (raw & rest & R & D) & G & E & (rawi & sk & rest' & RI & DS) & -> & ->).
    assert (FS : find_stored s (w_secrets w) = Some raw) by (apply find_first; eauto). rewrite FS. cbn [ok_or_no_match sbind].
    rewrite (proj2 (de_exact_ok _ _ _) (ex_intro _ rest D)). cbn [sbind]. rewrite G. cbn [sbind]. rewrite retrieve_delete.
    destruct (beqb_spec (kp_init_key (kp_payload kp)) ref) as [E'|E']; [contradiction|]. rewrite RI. cbn [ok_or_no_match sbind].
    rewrite (proj2 (de_exact_ok _ _ _) (ex_intro _ rest' DS)). reflexivity.
Qed.
Lemma none_known_err P s w : none_known s w -> from_welcome P s w = (s, Err NoMatchingKeyPackage).
Proof. intros N. unfold from_welcome. apply find_stored_none in N. rewrite N. reflexivity. Qed.
Lemma first_known_In s w k : first_known s w k -> exists e, In e (w_secrets w) /\ egs_new_member e = k.
Proof. intros (pre & e & post & E & K & _). exists e. split; [rewrite E; apply in_or_app; cbn; auto|exact K]. Qed.
Lemma c54_consumed P s w s' g : well_keyed P s w -> from_welcome P s w = (s', Ok g) ->
  exists k kp, first_known s w k /\ holds s k kp /\ has_init s kp /\ same_but [k; kp_init_key (kp_payload kp)] s s'.
Proof.
  intros WK H. apply c54_success in H as (k & kp & ref & FK & HO & G & D & HI & -> & _).
  destruct (first_known_In _ _ _ FK) as (e & I & E). subst k. rewrite (WK e kp I HO) in G. apply Ok_inj in G. subst ref.
  exists (egs_new_member e), kp. split; [exact FK|]. split; [exact HO|]. split; [exact HI|]. apply same_but_two.
Qed.
Lemma c54_once P s w s' g k : well_keyed P s w -> first_known s w k -> (forall x, In x (w_secrets w) -> egs_new_member x <> k -> ks_retrieve s (egs_new_member x) = None) ->
  from_welcome P s w = (s', Ok g) -> from_welcome P s' w = (s', Err NoMatchingKeyPackage).
Proof.
  intros WK FK O H. apply c54_consumed in H as (k' & kp & FK' & _ & _ & [Gone Same]); [|exact WK]. rewrite <- (first_known_fun _ _ _ _ FK FK') in *. apply none_known_err. intros x I.
  destruct (beqb_spec (egs_new_member x) k) as [E|E]; [rewrite E; apply Gone; cbn; auto|].
  destruct (beqb_spec (egs_new_member x) (kp_init_key (kp_payload kp))) as [E'|E']; [rewrite E'; apply Gone; cbn; auto|].
  rewrite Same; [apply O; assumption|]. intros [Y|[Y|[]]]; congruence.
Qed.

Lemma se_de {A} wf ser de (C : @codec A wf ser de) a p : wf a -> ser a = Ok p -> de p = Ok (a, []).
Proof. intros W H. rewrite <- (app_nil_r p). exact (codec_rt C a p [] W H). Qed.
Lemma c54_built P f1 f2 s b v cs cred skp s' kp ref w : key_package_build P f1 f2 s b v cs cred skp = (s', Ok kp) -> wf_key_package kp -> generate_ref P kp = Ok ref ->
  ref <> lp_encryption_key (ln_payload (kp_leaf (kp_payload kp))) -> ref <> kp_init_key (kp_payload kp) -> first_known s' w ref ->
  exists s'', from_welcome P s' w = (s'', Ok default_group) /\ same_but [ref; kp_init_key (kp_payload kp)] s' s''.
Proof.
  intros H W G D1 D2 FK. apply c51_stored in H as (ref' & raw & G' & R & _ & SR & (sk & rawi & SI & RI & _) & _). rewrite G in G'. apply Ok_inj in G'. subst ref'.
  eexists. split; [|apply same_but_two]. apply c54_success. exists ref, kp, ref. split; [exact FK|]. split.
  - exists raw, []. split; [apply SR; assumption|]. exact (se_de _ _ _ codec_key_package kp raw W R).
  - split; [exact G|]. split; [congruence|]. split; [|split; reflexivity]. exists rawi, sk, []. split; [exact SI|]. exact (se_de _ _ _ codec_opaque sk rawi I RI).
Qed.

Lemma c55_failure P s w s' r : from_welcome P s w = (s', r) -> (forall g, r <> Ok g) ->
  s' = s \/ exists k kp ref, first_known s w k /\ holds s k kp /\ generate_ref P kp = Ok ref /\ s' = ks_delete s ref /\ (ref = kp_init_key (kp_payload kp) \/ ~ has_init s kp).
Proof.
  unfold from_welcome. intros H N. destruct (find_stored s (w_secrets w)) as [raw|] eqn:FS; cbn [ok_or_no_match sbind] in H; [|left; congruence].
  apply find_first in FS as (k & FK & R).
  destruct (de_exact de_key_package raw) as [kp|e| |] eqn:D; cbn [sbind] in H; try (left; congruence). apply de_exact_ok in D as [rest D].
  destruct (generate_ref P kp) as [ref|e| |] eqn:G; cbn [sbind] in H; try (left; congruence). right. exists k, kp, ref.
  split; [exact FK|]. split; [exists raw, rest; auto|]. split; [exact G|].
  rewrite retrieve_delete in H. destruct (beqb_spec (kp_init_key (kp_payload kp)) ref) as [E|E]; [cbn in H; split; [congruence|auto]|].
  destruct (ks_retrieve s (kp_init_key (kp_payload kp))) as [ri|] eqn:RI; cbn [ok_or_no_match sbind] in H.
  2:{ split; [congruence|]. right. intros (x & sk & r' & X & _). congruence. }
  destruct (de_exact de_secret_key ri) as [sk|e| |] eqn:DS; cbn [sbind] in H.
  { injection H as _ <-. exfalso. exact (N _ eq_refl). }
  all: split; [congruence|]; right; intros (x & sk & r' & X & DX); rewrite RI in X; injection X as <-;
       rewrite (proj2 (de_exact_ok _ _ _) (ex_intro _ r' DX)) in DS; discriminate.
Qed.

(** ** Threads *)
Lemma run_done P n s r : run_alone P n s (TDone r) = (s, TDone r).
Proof. induction n; cbn; auto. Qed.
Lemma thread_refines P s w : let (s', r) := from_welcome P s w in run_alone P (length (w_secrets w) + 4) s (TSearch (w_secrets w)) = (s', TDone r).
Proof.
  unfold from_welcome. generalize (w_secrets w). induction l as [|e l IH].
  - reflexivity.
  - cbn [length Nat.add run_alone thread_step find_stored]. destruct (ks_retrieve s (egs_new_member e)) as [raw|] eqn:R.
    + clear IH. cbn [ok_or_no_match sbind]. unfold found. destruct (de_exact de_key_package raw) as [kp|x| |]; cbn [sbind bind]; try apply run_done.
      destruct (generate_ref P kp) as [ref|x| |]; cbn [sbind bind]; try apply run_done.
      rewrite Nat.add_comm. cbn [Nat.add run_alone thread_step].
      destruct (ks_retrieve (ks_delete s ref) (kp_init_key (kp_payload kp))) as [ri|]; cbn [ok_or_no_match sbind]; [|apply run_done].
      destruct (de_exact de_secret_key ri) as [sk|x| |]; cbn [sbind]; apply run_done.
    + exact IH.
Qed.

Definition shrinks (s s' : key_store) : Prop := forall k, ks_retrieve s' k = ks_retrieve s k \/ ks_retrieve s' k = None.
Definition tinv (P : provider) (s0 s : key_store) (w : welcome) (t : thread) : Prop :=
  match t with
  | TSearch l => incl l (w_secrets w)
  | TDeletePackage kp ref => names P s0 w kp ref
  | TInit kp => exists ref, names P s0 w kp ref /\ ks_retrieve s ref = None
  | TDeleteInit kp => exists ref, names P s0 w kp ref /\ ks_retrieve s ref = None /\ has_init s0 kp
  | TDone (Ok g) => exists kp ref, names P s0 w kp ref /\ ks_retrieve s ref = None /\ has_init s0 kp /\ ks_retrieve s (kp_init_key (kp_payload kp)) = None
  | TDone _ => True
  end.
Definition touched_by (P : provider) (s0 : key_store) (w : welcome) (k : bytes) : Prop :=
  exists kp ref, names P s0 w kp ref /\ (k = ref \/ k = kp_init_key (kp_payload kp)).
Lemma tinv_shrink P s0 s s' w t : shrinks s s' -> tinv P s0 s w t -> tinv P s0 s' w t.
Proof.
  intros S. assert (G : forall k, ks_retrieve s k = None -> ks_retrieve s' k = None) by (intros k E; destruct (S k); congruence).
  destruct t as [l|kp ref|kp|kp|[g|e| |]]; cbn; auto.
  - intros (ref & N & E). eauto.
  - intros (ref & N & E & H). exists ref. auto.
  - intros (kp & ref & N & E & H & E'). exists kp, ref. auto.
Qed.
Lemma shrinks_delete s k : shrinks s (ks_delete s k).
Proof. intros x. rewrite retrieve_delete. destruct (bytes_eqb x k); auto. Qed.
Lemma thread_inv P s0 s w t s' t' : shrinks s0 s -> tinv P s0 s w t -> thread_step P s t = (s', t') ->
  shrinks s s' /\ tinv P s0 s' w t' /\ forall k, ks_retrieve s' k = ks_retrieve s k \/ touched_by P s0 w k.
Proof.
  intros S I H.
  assert (SAME : shrinks s s /\ forall k, ks_retrieve s k = ks_retrieve s k \/ touched_by P s0 w k) by (split; [intros k|intros k]; auto).
  destruct t as [[|e l]|kp ref|kp|kp|r]; cbn [thread_step] in H.
  - injection H as <- <-. split; [apply SAME|]. split; [exact Logic.I|apply SAME].
  - destruct (ks_retrieve s (egs_new_member e)) as [v|] eqn:R; injection H as <- <-; (split; [apply SAME|]; split; [|apply SAME]).
    + unfold found. destruct (de_exact de_key_package v) as [kp|x| |] eqn:D; cbn [bind]; try exact Logic.I.
      destruct (generate_ref P kp) as [ref|x| |] eqn:G; cbn [bind]; try exact Logic.I. split; [|exact G]. exists e. split; [apply I; cbn; auto|].
      apply de_exact_ok in D as [rest D]. exists v, rest. split; [|exact D]. destruct (S (egs_new_member e)); congruence.
    + intros x X. apply I. right. exact X.
  - injection H as <- <-. split; [apply shrinks_delete|]. split.
    + exists ref. split; [exact I|]. rewrite retrieve_delete, bytes_eqb_refl. reflexivity.
    + intros k. rewrite retrieve_delete. destruct (beqb_spec k ref) as [->|]; [right; exists kp, ref; auto|auto].
  - destruct I as (ref & N & E). destruct (ks_retrieve s (kp_init_key (kp_payload kp))) as [v|] eqn:R.
    + destruct (de_exact de_secret_key v) as [sk|x| |] eqn:D; injection H as <- <-; (split; [apply SAME|]; split; [|apply SAME]); try exact Logic.I.
      exists ref. split; [exact N|]. split; [exact E|]. apply de_exact_ok in D as [rest D]. exists v, sk, rest. split; [|exact D]. destruct (S (kp_init_key (kp_payload kp))); congruence.
    + injection H as <- <-. split; [apply SAME|]. split; [exact Logic.I|apply SAME].
  - destruct I as (ref & N & E & HI). injection H as <- <-. split; [apply shrinks_delete|]. split.
    + exists kp, ref. split; [exact N|]. split; [rewrite retrieve_delete; destruct (bytes_eqb ref _); auto|]. split; [exact HI|]. rewrite retrieve_delete, bytes_eqb_refl. reflexivity.
    + intros k. rewrite retrieve_delete. destruct (beqb_spec k (kp_init_key (kp_payload kp))) as [->|]; [right; exists kp, ref; auto|auto].
  - injection H as <- <-. split; [apply SAME|]. split; [exact I|apply SAME].
Qed.
Lemma set_nth_get {A} (l : list A) i x j : (i < length l)%nat -> nth_error (set_nth l i x) j = if (j =? i)%nat then Some x else nth_error l j.
Proof.
  intros L. unfold set_nth. assert (LF : length (firstn i l) = i) by (rewrite firstn_length; lia). destruct (Nat.eqb_spec j i) as [->|D].
  - rewrite nth_error_app2 by lia. rewrite LF, Nat.sub_diag. reflexivity.
  - destruct (Nat.lt_ge_cases j i) as [G|G].
    + rewrite nth_error_app1 by lia. rewrite <- (firstn_skipn i l) at 2. rewrite nth_error_app1 by lia. reflexivity.
    + rewrite nth_error_app2 by lia. rewrite LF. replace (j - i)%nat with (S (j - S i)) by lia. cbn [nth_error].
      rewrite <- (firstn_skipn (S i) l) at 2. assert (LF' : length (firstn (S i) l) = S i) by (rewrite firstn_length; lia). rewrite nth_error_app2 by lia. rewrite LF'. reflexivity.
Qed.
Definition sinv (P : provider) (s0 : key_store) (ws : list welcome) (y : system) : Prop :=
  shrinks s0 (fst y) /\ (forall i t, nth_error (snd y) i = Some t -> exists w, nth_error ws i = Some w /\ tinv P s0 (fst y) w t) /\
  forall k, ks_retrieve (fst y) k = ks_retrieve s0 k \/ exists w, In w ws /\ touched_by P s0 w k.
Lemma sys_inv P s0 ws : forall sched y, sinv P s0 ws y -> sinv P s0 ws (sys_run P y sched).
Proof.
  induction sched as [|i sched IH]; intros y I; [exact I|]. cbn. apply IH. clear IH. destruct y as [s ts]. destruct I as (S & T & K). cbn [fst snd] in *. unfold sys_step. cbn [fst snd].
  destruct (nth_error ts i) as [t|] eqn:E; [|split; [exact S|split; [exact T|exact K]]].
  destruct (T i t E) as (w & W & TI). destruct (thread_step P s t) as [s' t'] eqn:H. apply (thread_inv P s0 s w) in H as (S' & TI' & K'); [|exact S|exact TI].
  assert (L : (i < length ts)%nat) by (apply nth_error_Some; congruence).
  split; [|split]; cbn [fst snd].
  - intros k. destruct (S' k), (S k); auto; [left; congruence|right; congruence].
  - intros j u U. rewrite set_nth_get in U by exact L. destruct (Nat.eqb_spec j i) as [->|D].
    + injection U as <-. eauto.
    + destruct (T j u U) as (w' & W' & TJ). exists w'. split; [exact W'|]. exact (tinv_shrink _ _ _ _ _ _ S' TJ).
  - intros k. destruct (K' k) as [E'|E']; [rewrite E'; apply K|]. right. exists w. split; [exact (nth_error_In _ _ W)|exact E'].
Qed.
Lemma sinv_start P s ws : sinv P s ws (s, joins ws).
Proof.
  split; [intros k; auto|]. split; [|auto]. cbn [fst snd]. unfold joins. intros i t H. rewrite nth_error_map in H. destruct (nth_error ws i) as [w|]; [|discriminate].
  cbn in H. injection H as <-. exists w. split; [reflexivity|]. intros x; auto.
Qed.
Lemma c55_schedule P s ws sched s' ts i g : sys_run P (s, joins ws) sched = (s', ts) -> nth_error ts i = Some (TDone (Ok g)) ->
  exists w kp ref, nth_error ws i = Some w /\ names P s w kp ref /\ has_init s kp /\ ks_retrieve s' ref = None /\ ks_retrieve s' (kp_init_key (kp_payload kp)) = None.
Proof.
  intros R H. pose proof (sys_inv P s ws sched _ (sinv_start P s ws)) as (_ & T & _). rewrite R in T. cbn [fst snd] in T.
  destruct (T _ _ H) as (w & W & kp & ref & N & E & HI & E'). exists w, kp, ref. auto.
Qed.
Lemma c55_others P s ws sched s' ts k : sys_run P (s, joins ws) sched = (s', ts) ->
  (forall w kp ref, In w ws -> names P s w kp ref -> k <> ref /\ k <> kp_init_key (kp_payload kp)) -> ks_retrieve s' k = ks_retrieve s k.
Proof.
  intros R N. pose proof (sys_inv P s ws sched _ (sinv_start P s ws)) as (_ & _ & K). rewrite R in K. cbn [fst] in K.
  destruct (K k) as [E|(w & W & kp & ref & NM & E)]; [exact E|]. exfalso. destruct (N w kp ref W NM) as [A B]. destruct E; contradiction.
Qed.
