(** Properties C51 to C55: key packages, the key store and joining from a welcome (SpecKeys.v). *)
From Verif Require Import MessageFacts KeyStoreFacts.
From Verif Require Import WireWF SpecMessages SpecKeys ExKeys.
Local Open Scope N_scope.

(* ------------------------------------------------------------------------------------------- *)
(** * C51 *)

(** The property holds of key pairs whose verification key can sign for itself... *)
Theorem C51_accepted_partial : forall P f1 f2 s b v cs cred skp s' kp ctx,
  key_pair_ok P cs (skp_public skp) (skp_public skp) ->
  key_package_build P f1 f2 s b v cs cred skp = (s', Ok kp) -> gc_version ctx = v -> gc_suite ctx = cs ->
  lp_encryption_key (ln_payload (kp_leaf (kp_payload kp))) <> kp_init_key (kp_payload kp) ->
  key_package_verify P kp ctx = Ok tt /\ package_leaf_signed P kp.
Proof. exact c51_accepted. Qed.
Print Assumptions C51_accepted_partial.
(** ... and of no other: where signing with the verification key is useless, as it is for any real scheme, no package
    the builder returns is ever accepted. *)
Theorem C51_rejected : forall P f1 f2 s b v cs cred skp s' kp, public_key_cannot_sign P cs (skp_public skp) ->
  key_package_build P f1 f2 s b v cs cred skp = (s', Ok kp) ->
  (forall ctx, key_package_verify P kp ctx <> Ok tt) /\ ~ package_leaf_signed P kp.
Proof. exact c51_rejected. Qed.
Print Assumptions C51_rejected.

Lemma asym_pair_ok : key_pair_ok asym Suite1 (skp_private ex_skp) (skp_public ex_skp).
Proof. intros a m s S H. injection S as <-. injection H as <-. cbn. rewrite !bytes_eqb_refl. reflexivity. Qed.
Lemma asym_cannot : public_key_cannot_sign asym Suite1 (skp_public ex_skp).
Proof.
  intros a m s S H V. injection S as <-. injection H as <-. cbn [asym_sig s_verify] in V.
  destruct (beqb_spec (x01 :: skp_public ex_skp ++ m)%list (skp_public ex_skp ++ m)%list) as [E|E]; [|discriminate].
  apply (f_equal (@length byte)) in E. cbn in E. lia.
Qed.
Lemma asym_built : exists s kp, ex_built asym x31 [] = (s, Ok kp).
Proof. vm_compute. eauto. Qed.
(** A correct key pair whose built package is rejected by every group. *)
Theorem C51_refuted : exists P f1 f2 s b v cs cred skp s' kp,
  key_pair_ok P cs (skp_private skp) (skp_public skp) /\
  key_package_build P f1 f2 s b v cs cred skp = (s', Ok kp) /\
  (forall ctx, key_package_verify P kp ctx <> Ok tt) /\ ~ package_leaf_signed P kp.
Proof.
  destruct asym_built as (s & kp & H).
  exists asym, (ex_fill x31), (ex_fill x77), [], ex_builder, MLS10, Suite1, (CredBasic (str "bob")), ex_skp, s, kp.
  split; [exact asym_pair_ok|]. split; [exact H|]. exact (c51_rejected _ _ _ _ _ _ _ _ _ _ _ asym_cannot H).
Qed.
Print Assumptions C51_refuted.

(** What the builder puts into the package. *)
Theorem C51_fields : forall P f1 f2 s b v cs cred skp s' kp, key_package_build P f1 f2 s b v cs cred skp = (s', Ok kp) ->
  let p := kp_payload kp in let l := ln_payload (kp_leaf p) in
  kp_version p = v /\ kp_suite p = cs /\ kp_extensions p = or_default (b_extensions b) [] /\
  lp_signature_key l = skp_public skp /\ lp_credential l = cred /\ lp_source l = LSKeyPackage (or_default (b_lifetime b) (MkLifetime 0 0)) /\
  lp_capabilities l = or_default (b_capabilities b) (MkCapabilities [] [] [] [] []) /\ lp_extensions l = or_default (b_leaf_extensions b) [].
Proof. exact built_fields. Qed.
Print Assumptions C51_fields.

(** What it puts into the store: the package under its reference and the private keys under the public ones. *)
Theorem C51_stored : forall P f1 f2 s b v cs cred skp s' kp, key_package_build P f1 f2 s b v cs cred skp = (s', Ok kp) ->
  exists ref raw, generate_ref P kp = Ok ref /\ se_key_package kp = Ok raw /\
  let enc := lp_encryption_key (ln_payload (kp_leaf (kp_payload kp))) in let init := kp_init_key (kp_payload kp) in
  (forall k, k <> ref -> k <> enc -> k <> init -> ks_retrieve s' k = ks_retrieve s k) /\
  (ref <> enc -> ref <> init -> ks_retrieve s' ref = Some raw) /\
  (exists sk rawi, ks_retrieve s' init = Some rawi /\ se_secret_key sk = Ok rawi /\
     exists k h ikm, p_hpke P cs = Ok k /\ p_hash P cs = Ok h /\ f1 (h_size h) = Ok ikm /\ k_derive_key_pair k ikm = Ok (MkHpkeKeyPair sk init)) /\
  (enc <> init -> exists sk rawe, ks_retrieve s' enc = Some rawe /\ se_hpke_key_pair (MkHpkeKeyPair sk enc) = Ok rawe).
Proof. exact c51_stored. Qed.
Print Assumptions C51_stored.

(** The reference is the digest of the package under its label, and binds it. *)
Theorem C51_reference : forall P kp r, generate_ref P kp = Ok r <->
  exists h x, p_hash P (kp_suite (kp_payload kp)) = Ok h /\ ref_input kp x /\ r = h_digest h x.
Proof. exact generate_ref_ok. Qed.
Print Assumptions C51_reference.
Theorem C51_reference_binds : forall P kp kp' r h, wf_key_package kp -> wf_key_package kp' -> kp_suite (kp_payload kp) = kp_suite (kp_payload kp') ->
  p_hash P (kp_suite (kp_payload kp)) = Ok h -> generate_ref P kp = Ok r -> generate_ref P kp' = Ok r ->
  kp = kp' \/ exists x x', ref_input kp x /\ ref_input kp' x' /\ x <> x' /\ h_digest h x = h_digest h x'.
Proof. exact c51_ref_binds. Qed.
Print Assumptions C51_reference_binds.

Lemma toy_self_signs : key_pair_ok toy Suite1 (skp_public ex_skp) (skp_public ex_skp).
Proof. intros a m s S H. injection S as <-. injection H as <-. cbn [toy_sig s_verify]. rewrite bytes_eqb_refl. reflexivity. Qed.
Example C51_example : exists s kp, ex_built toy x31 [] = (s, Ok kp) /\ key_package_verify toy kp ex_ctx1 = Ok tt /\ package_leaf_signed toy kp /\ length s = 3%nat.
Proof.
  destruct (ex_built toy x31 []) as [s r] eqn:E. assert (R : exists kp, r = Ok kp) by (apply (f_equal snd) in E; cbn [snd] in E; subst r; vm_compute; eauto).
  destruct R as [kp ->]. exists s, kp. split; [reflexivity|]. assert (D : lp_encryption_key (ln_payload (kp_leaf (kp_payload kp))) <> kp_init_key (kp_payload kp)).
  { intros H. assert (K : kp = ex_package x31) by (unfold ex_package; rewrite E; reflexivity). rewrite K in H. vm_compute in H. discriminate. }
  destruct (C51_accepted_partial _ _ _ _ _ _ _ _ _ _ _ ex_ctx1 toy_self_signs E eq_refl eq_refl D) as [A B].
  split; [exact A|]. split; [exact B|]. apply (f_equal fst) in E. cbn [fst] in E. subst s. vm_compute. reflexivity.
Qed.
Example C51_reference_example : generate_ref toy (ex_kp x01) <> generate_ref toy (ex_kp x02) /\ exists r, generate_ref toy (ex_kp x01) = Ok r.
Proof. split; [vm_compute; discriminate|vm_compute; eauto]. Qed.

(* ------------------------------------------------------------------------------------------- *)
(** * C52 *)

(** When a package is accepted; the leaf's own signature is not among the conditions. *)
Theorem C52_accepts_partial : forall P kp ctx, key_package_verify P kp ctx = Ok tt <->
  kp_version (kp_payload kp) = gc_version ctx /\ kp_suite (kp_payload kp) = gc_suite ctx /\ is_package_leaf (kp_leaf (kp_payload kp)) /\
  package_signed P kp /\ lp_encryption_key (ln_payload (kp_leaf (kp_payload kp))) <> kp_init_key (kp_payload kp).
Proof. exact c52_iff. Qed.
Print Assumptions C52_accepts_partial.

(** A package with a good signature of its own and a leaf whose signature is garbage. *)
Definition ex_bad_leaf : key_package :=
  let p := MkKeyPackageTBS MLS10 Suite1 [x31; x55] (ex_leaf x31) [] in
  MkKeyPackage p ([x31; x21] ++ labelled (str "KeyPackageTBS") (ok_or [] (se_key_package_tbs p)))%list.
Theorem C52_refuted : exists P kp ctx, key_package_verify P kp ctx = Ok tt /\ ~ package_leaf_signed P kp.
Proof.
  exists toy, ex_bad_leaf, ex_ctx1. split; [vm_compute; reflexivity|]. intros H. vm_compute in H. discriminate.
Qed.
Print Assumptions C52_refuted.
Example C52_example : key_package_verify toy (ex_package x31) ex_ctx1 = Ok tt /\
  key_package_verify toy (ex_package x31) ex_gc = Err CipherSuiteNotMatchGroupContext /\
  key_package_verify toy (ex_kp x31) ex_ctx1 = Err InvalidKeyPackageSignature.
Proof. split; [vm_compute; reflexivity|]. split; [vm_compute; reflexivity|vm_compute; reflexivity]. Qed.

(* ------------------------------------------------------------------------------------------- *)
(** * C53 *)

Theorem C53_map : forall ops k v, ks_retrieve (ks_run ops) k = Some v <->
  exists pre post, ops = (pre ++ OpStore k v :: post)%list /\ forall o, In o post -> op_key o <> k.
Proof. exact c53_map. Qed.
Print Assumptions C53_map.
Theorem C53_others : forall s o k, op_key o <> k -> ks_retrieve (ks_apply s o) k = ks_retrieve s k.
Proof. exact c53_other. Qed.
Print Assumptions C53_others.
Example C53_example : let s := ks_run [OpStore [x01] [x0a]; OpStore [x02] [x0b]; OpStore [x01] [x0c]; OpDelete [x02]] in
  ks_retrieve s [x01] = Some [x0c] /\ ks_retrieve s [x02] = None.
Proof. split; reflexivity. Qed.

(* ------------------------------------------------------------------------------------------- *)
(** * C54 *)

(** When joining succeeds, and the store it leaves. *)
Theorem C54_success : forall P s w s' g, from_welcome P s w = (s', Ok g) <->
  exists k kp ref, first_known s w k /\ holds s k kp /\ generate_ref P kp = Ok ref /\ kp_init_key (kp_payload kp) <> ref /\ has_init s kp /\
    s' = ks_delete (ks_delete s ref) (kp_init_key (kp_payload kp)) /\ g = MkGroup MLS10 Suite1 (CredBasic []) [] [].
Proof. exact c54_success. Qed.
Print Assumptions C54_success.

(** In a store that keeps packages under their references, exactly the matching package and its init key are gone. *)
Theorem C54_consumed : forall P s w s' g, well_keyed P s w -> from_welcome P s w = (s', Ok g) ->
  exists k kp, first_known s w k /\ holds s k kp /\ has_init s kp /\ same_but [k; kp_init_key (kp_payload kp)] s s'.
Proof. exact c54_consumed. Qed.
Print Assumptions C54_consumed.

(** So a welcome that names a single package of the store cannot be used again. *)
Theorem C54_once : forall P s w s' g k, well_keyed P s w -> first_known s w k ->
  (forall x, In x (w_secrets w) -> egs_new_member x <> k -> ks_retrieve s (egs_new_member x) = None) ->
  from_welcome P s w = (s', Ok g) -> from_welcome P s' w = (s', Err NoMatchingKeyPackage).
Proof. exact c54_once. Qed.
Print Assumptions C54_once.

(** A package that has just been built can be used. *)
Theorem C54_built : forall P f1 f2 s b v cs cred skp s' kp ref w,
  key_package_build P f1 f2 s b v cs cred skp = (s', Ok kp) -> wf_key_package kp -> generate_ref P kp = Ok ref ->
  ref <> lp_encryption_key (ln_payload (kp_leaf (kp_payload kp))) -> ref <> kp_init_key (kp_payload kp) -> first_known s' w ref ->
  exists s'', from_welcome P s' w = (s'', Ok (MkGroup MLS10 Suite1 (CredBasic []) [] [])) /\ same_but [ref; kp_init_key (kp_payload kp)] s' s''.
Proof. exact c54_built. Qed.
Print Assumptions C54_built.

Example C54_example : from_welcome toy ex_store1 (ex_welcome [x31]) =
    (ks_delete (ks_delete ex_store1 (ex_ref x31)) (kp_init_key (kp_payload (ex_package x31))), Ok default_group) /\
  snd (from_welcome toy (fst (from_welcome toy ex_store1 (ex_welcome [x31]))) (ex_welcome [x31])) = Err NoMatchingKeyPackage.
Proof. split; [vm_compute; reflexivity|vm_compute; reflexivity]. Qed.

(** A welcome that names two packages of one store can be used twice, so in general the same welcome can be used again. *)
Theorem C54_refuted : exists P s w s' s'' g g', well_keyed P s w /\ from_welcome P s w = (s', Ok g) /\ from_welcome P s' w = (s'', Ok g').
Proof.
  exists toy, ex_store2, (ex_welcome [x31; x32]).
  exists (fst (from_welcome toy ex_store2 (ex_welcome [x31; x32]))).
  exists (fst (from_welcome toy (fst (from_welcome toy ex_store2 (ex_welcome [x31; x32]))) (ex_welcome [x31; x32]))), default_group, default_group.
  split; [|split; [vm_compute; reflexivity|vm_compute; reflexivity]].
  intros e kp I (raw & rest & R & D). cbn [ex_welcome w_secrets map In] in I.
  assert (T : forall a, In a [x31; x32] -> ks_retrieve ex_store2 (ex_ref a) = Some raw -> de_key_package raw = Ok (kp, rest) -> generate_ref toy kp = Ok (ex_ref a)).
  { intros a A R' D'. assert (S : ks_retrieve ex_store2 (ex_ref a) = Some (ok_or [] (se_key_package (ex_package a)))) by (destruct A as [<-|[<-|[]]]; vm_compute; reflexivity).
    assert (Y : raw = ok_or [] (se_key_package (ex_package a))) by congruence. subst raw.
    assert (K : de_key_package (ok_or [] (se_key_package (ex_package a))) = Ok (ex_package a, [])) by (destruct A as [<-|[<-|[]]]; vm_compute; reflexivity).
    assert (Y : kp = ex_package a) by congruence. subst kp. destruct A as [<-|[<-|[]]]; vm_compute; reflexivity. }
  destruct I as [<-|[<-|[<-|[]]]].
  - vm_compute in R. discriminate.
  - apply T; [cbn; auto|exact R|exact D].
  - apply T; [cbn; auto|exact R|exact D].
Qed.
Print Assumptions C54_refuted.

(* ------------------------------------------------------------------------------------------- *)
(** * C55 *)

(** A failed join loses nothing, except that it loses the package when its init key is missing or unreadable. *)
Theorem C55_failure_partial : forall P s w s' r, from_welcome P s w = (s', r) -> (forall g, r <> Ok g) ->
  s' = s \/ exists k kp ref, first_known s w k /\ holds s k kp /\ generate_ref P kp = Ok ref /\ s' = ks_delete s ref /\
    (ref = kp_init_key (kp_payload kp) \/ ~ has_init s kp).
Proof. exact c55_failure. Qed.
Print Assumptions C55_failure_partial.

Theorem C55_failure_refuted : exists P s w s' e k, from_welcome P s w = (s', Err e) /\ ks_retrieve s k <> None /\ ks_retrieve s' k = None.
Proof.
  exists toy, (ks_delete ex_store1 (kp_init_key (kp_payload (ex_package x31)))), (ex_welcome [x31]).
  eexists _, _, (ex_ref x31). split; [vm_compute; reflexivity|]. split; [vm_compute; discriminate|vm_compute; reflexivity].
Qed.
Print Assumptions C55_failure_refuted.

(** A thread that runs alone does what the call does. *)
Theorem C55_thread : forall P s w, let (s', r) := from_welcome P s w in
  run_alone P (length (w_secrets w) + 4) s (TSearch (w_secrets w)) = (s', TDone r).
Proof. exact thread_refines. Qed.
Print Assumptions C55_thread.

(** Under every schedule of any number of joins, the package and init key of a finished join are gone... *)
Theorem C55_consumed : forall P s ws sched s' ts i g, sys_run P (s, joins ws) sched = (s', ts) -> nth_error ts i = Some (TDone (Ok g)) ->
  exists w kp ref, nth_error ws i = Some w /\ names P s w kp ref /\ has_init s kp /\ ks_retrieve s' ref = None /\ ks_retrieve s' (kp_init_key (kp_payload kp)) = None.
Proof. exact c55_schedule. Qed.
Print Assumptions C55_consumed.

(** ... and keys that belong to no named package are as before. *)
Theorem C55_others : forall P s ws sched s' ts k, sys_run P (s, joins ws) sched = (s', ts) ->
  (forall w kp ref, In w ws -> names P s w kp ref -> k <> ref /\ k <> kp_init_key (kp_payload kp)) -> ks_retrieve s' k = ks_retrieve s k.
Proof. exact c55_others. Qed.
Print Assumptions C55_others.

(** But one package can be used by two joins. *)
Theorem C55_race_refuted : exists P s w sched s' g g', (exists k, forall x, In x (w_secrets w) -> ks_retrieve s (egs_new_member x) <> None -> egs_new_member x = k) /\
  sys_run P (s, joins [w; w]) sched = (s', [TDone (Ok g); TDone (Ok g')]).
Proof.
  exists toy, ex_store1, (ex_welcome [x31]), [0; 1; 0; 1; 0; 1; 0; 1; 0; 1]%nat.
  exists (fst (sys_run toy (ex_store1, joins [ex_welcome [x31]; ex_welcome [x31]]) [0; 1; 0; 1; 0; 1; 0; 1; 0; 1]%nat)), default_group, default_group.
  split; [|vm_compute; reflexivity].
  exists (ex_ref x31). intros x [<-|[<-|[]]] H; [exfalso; apply H; vm_compute; reflexivity|reflexivity].
Qed.
Print Assumptions C55_race_refuted.
Example C55_example : exists s', sys_run toy (ex_store1, joins [ex_welcome [x31]; ex_welcome [x31]]) [0; 0; 0; 0; 0; 1; 1; 1; 1; 1]%nat =
    (s', [TDone (Ok default_group); TDone (Err NoMatchingKeyPackage)]) /\ ks_retrieve s' (ex_ref x31) = None /\ length s' = 1%nat.
Proof.
  exists (fst (sys_run toy (ex_store1, joins [ex_welcome [x31]; ex_welcome [x31]]) [0; 0; 0; 0; 0; 1; 1; 1; 1; 1]%nat)).
  split; [vm_compute; reflexivity|]. split; [vm_compute; reflexivity|vm_compute; reflexivity].
Qed.
