(** Properties C87 and C88: interrupted and simultaneous builds and joins (SpecThreads.v). *)
From Verif Require Import CodecLib WireCodecs KeyStoreFacts ThreadFacts WireWF MessageFacts.
From Verif Require Import SpecKeys SpecThreads ExKeys.
Local Open Scope N_scope.

(* ------------------------------------------------------------------------------------------- *)
(** * C87 *)

(** A build that is never cut off does what the call does... *)
Theorem C87_build : forall P f1 f2 b v cs cred skp s, let (s', r) := key_package_build P f1 f2 s b v cs cred skp in
  cut P 3 s (start P (JBuild f1 f2 b v cs cred skp)) = (s', Building (BDone r)).
Proof. exact c87_build_whole. Qed.
Print Assumptions C87_build.

(** ... and one that is cut off leaves the first entries of the package, in this order... *)
Theorem C87_build_cut : forall P j kp ekp init kr vr ke ve ki vi n s, makes P j kp ekp init ->
  package_entry P kp kr vr -> pair_entry ekp ke ve -> init_entry kp init ki vi ->
  fst (cut P n s (start P j)) = fold_left (fun s e => ks_store s (fst e) (snd e)) (firstn n [(kr, vr); (ke, ve); (ki, vi)]) s.
Proof. exact c87_build_cut. Qed.
Print Assumptions C87_build_cut.

(** ... so that the package is in the store without its init key exactly when the cut falls between the first and the last entry. *)
Theorem C87_build_window_partial : forall P j kp ekp init kr vr ke ve ki vi n s, makes P j kp ekp init ->
  package_entry P kp kr vr -> pair_entry ekp ke ve -> init_entry kp init ki vi ->
  wf_key_package kp -> NoDup [kr; ke; ki] -> ks_retrieve s kr = None -> ks_retrieve s ki = None ->
  (unusable (fst (cut P n s (start P j))) kr <-> n = 1%nat \/ n = 2%nat).
Proof. exact c87_build_window. Qed.
Print Assumptions C87_build_window_partial.

(** A join that is cut off has changed nothing, deleted the package, or deleted the package and the init key. *)
Theorem C87_join_cut_partial : forall P n s w, let s' := fst (cut P n s (start P (JJoin w))) in
  s' = s \/ exists k kp ref, first_known s w k /\ holds s k kp /\ generate_ref P kp = Ok ref /\
    (s' = ks_delete s ref \/ s' = ks_delete (ks_delete s ref) (kp_init_key (kp_payload kp))).
Proof. exact c87_join_cut. Qed.
Print Assumptions C87_join_cut_partial.

(** Joins alone, however many and wherever each is cut off, leave no package without its init key. *)
Theorem C87_joins : forall P s ws sched s' ts k kp, sys_run P (s, joins ws) sched = (s', ts) -> has_init s kp ->
  (forall w kp' ref', In w ws -> names P s w kp' ref' -> ref' <> kp_init_key (kp_payload kp) /\
     (kp_init_key (kp_payload kp') = kp_init_key (kp_payload kp) -> ref' = k)) ->
  ks_retrieve s' k <> None -> has_init s' kp.
Proof. exact c87_order. Qed.
Print Assumptions C87_joins.

Definition ex_job (a b : byte) : job := JBuild (ex_fill a) (ex_fill b) ex_builder MLS10 Suite1 (CredBasic (str "bob")) ex_skp.

(** The property is false: a build that is cut off leaves a package that the next join finds, cannot use, and deletes... *)
Theorem C87_refuted_build : exists P n j k w s', let s := fst (cut P n [] (start P j)) in
  unusable s k /\ from_welcome P s w = (s', Err NoMatchingKeyPackage) /\ ks_retrieve s' k = None.
Proof.
  exists toy, 1%nat, (ex_job x31 x77), (ex_ref x31), (ex_welcome [x31]).
  exists (fst (from_welcome toy (fst (cut toy 1 [] (start toy (ex_job x31 x77)))) (ex_welcome [x31]))).
  cbv zeta. split; [|split; [vm_compute; reflexivity|vm_compute; reflexivity]].
  exists (ex_package x31). split; [|vm_compute; reflexivity]. eexists. exists []. split; vm_compute; reflexivity.
Qed.
Print Assumptions C87_refuted_build.

(** ... a join at the wrong moment fails and deletes a package whose build succeeds... *)
Theorem C87_refuted_race : exists P js sched s' kp ref, run P [] js sched = (s', [Building (BDone (Ok kp)); Joining (TDone (Err NoMatchingKeyPackage))]) /\
  generate_ref P kp = Ok ref /\ ks_retrieve s' ref = None /\ ks_retrieve s' (kp_init_key (kp_payload kp)) <> None.
Proof.
  exists toy, [ex_job x31 x77; JJoin (ex_welcome [x31])], [0; 1; 1; 1; 1; 0; 0]%nat.
  exists (fst (run toy [] [ex_job x31 x77; JJoin (ex_welcome [x31])] [0; 1; 1; 1; 1; 0; 0]%nat)), (ex_package x31), (ex_ref x31).
  split; [vm_compute; reflexivity|]. split; [vm_compute; reflexivity|]. split; [vm_compute; reflexivity|vm_compute; discriminate].
Qed.
Print Assumptions C87_refuted_race.

(** ... and a join that is cut off leaves the private init key of a package that is gone. *)
Theorem C87_refuted_join : exists P s w kp ref n, first_known s w ref /\ holds s ref kp /\ generate_ref P kp = Ok ref /\
  let s' := fst (cut P n s (start P (JJoin w))) in ks_retrieve s' ref = None /\ has_init s' kp.
Proof.
  exists toy, ex_store1, (ex_welcome [x31]), (ex_package x31), (ex_ref x31), 3%nat.
  split; [exists [ex_entry [x99]], (ex_entry (ex_ref x31)), []; split; [reflexivity|]; split; [reflexivity|]; split; [vm_compute; discriminate|intros x [<-|[]]; vm_compute; reflexivity]|].
  split; [eexists; exists []; split; vm_compute; reflexivity|]. split; [vm_compute; reflexivity|]. cbv zeta. split; [vm_compute; reflexivity|].
  eexists. eexists. exists []. split; vm_compute; reflexivity.
Qed.
Print Assumptions C87_refuted_join.

Lemma ex_package_wf : wf_key_package (ex_package x31).
Proof. assert (E : exists raw, de_key_package raw = Ok (ex_package x31, [])) by (exists (ok_or [] (se_key_package (ex_package x31))); vm_compute; reflexivity). destruct E as [raw E]. exact (proj1 (codec_can codec_key_package _ _ _ E)). Qed.
Lemma ex_build_makes : exists kp ekp init kr vr ke ve ki vi, makes toy (ex_job x31 x77) kp ekp init /\ package_entry toy kp kr vr /\ pair_entry ekp ke ve /\
  init_entry kp init ki vi /\ NoDup [kr; ke; ki] /\ wf_key_package kp.
Proof.
  eexists. eexists. eexists. eexists. eexists. eexists. eexists. eexists. eexists.
  split; [vm_compute; reflexivity|]. split; [split; vm_compute; reflexivity|]. split; [split; [reflexivity|vm_compute; reflexivity]|]. split; [split; [reflexivity|vm_compute; reflexivity]|].
  split; [vm_compute; repeat constructor; cbn; intuition discriminate|]. match goal with |- wf_key_package ?k => replace k with (ex_package x31) by (vm_compute; reflexivity) end. exact ex_package_wf.
Qed.
Example C87_example : exists kp ekp init kr vr ke ve ki vi, makes toy (ex_job x31 x77) kp ekp init /\ package_entry toy kp kr vr /\ pair_entry ekp ke ve /\
  init_entry kp init ki vi /\ NoDup [kr; ke; ki] /\ wf_key_package kp.
Proof. exact ex_build_makes. Qed.

(** Joins of both packages of the second store, with the first cut off between its two deletions. *)
Example C87_joins_example : exists (s' : key_store) (ts : list thread), sys_run toy (ex_store2, joins [ex_welcome [x31]; ex_welcome [x32]]) [0; 1; 0; 1; 0; 1; 1; 1]%nat = (s', ts) /\ has_init ex_store2 (ex_package x31) /\ ks_retrieve s' (ex_ref x31) = None /\ has_init s' (ex_package x31) /\ ks_retrieve s' (ex_ref x32) = None.
Proof.
  eexists. eexists. split; [vm_compute; reflexivity|]. split; [eexists; eexists; exists []; split; vm_compute; reflexivity|]. split; [vm_compute; reflexivity|].
  split; [eexists; eexists; exists []; split; vm_compute; reflexivity|vm_compute; reflexivity].
Qed.

(* ------------------------------------------------------------------------------------------- *)
(** * C88 *)

(** Whatever is in the store was there before or comes from a build, as that build made it... *)
Theorem C88_only : forall P s js sched k v, ks_retrieve (fst (run P s js sched)) k = Some v -> available P s js k v.
Proof. exact c88_only. Qed.
Print Assumptions C88_only.

(** ... an entry that no build makes and no welcome claims stays as it is... *)
Theorem C88_untouched : forall P s js sched k, (forall j v, In j js -> ~ puts P j k v) -> ~ claimed P s js k ->
  ks_retrieve (fst (run P s js sched)) k = ks_retrieve s k.
Proof. exact c88_untouched. Qed.
Print Assumptions C88_untouched.

(** ... when a build has ended its entries are there, unless a welcome claims them... *)
Theorem C88_built : forall P s js sched i j kp k v, nth_error js i = Some j -> nth_error (snd (run P s js sched)) i = Some (Building (BDone (Ok kp))) ->
  puts P j k v -> (forall j' v', In j' js -> puts P j' k v' -> v' = v) -> ~ claimed P s js k -> ks_retrieve (fst (run P s js sched)) k = Some v.
Proof. exact c88_kept. Qed.
Print Assumptions C88_built.

(** ... and when a join has ended the package that it used and its init key are gone, and no build brings them back. *)
Theorem C88_joined : forall P s js sched i g, fresh P s js -> keyed P s js -> nth_error (snd (run P s js sched)) i = Some (Joining (TDone (Ok g))) ->
  exists w kp ref, nth_error js i = Some (JJoin w) /\ named P s js w kp ref /\
    ks_retrieve (fst (run P s js sched)) ref = None /\ ks_retrieve (fst (run P s js sched)) (kp_init_key (kp_payload kp)) = None.
Proof. exact c88_joined. Qed.
Print Assumptions C88_joined.

(** Two builds and a join of the first package meet the hypotheses. *)
Definition entries (P : provider) (j : job) : list (bytes * bytes) :=
  match j with
  | JJoin _ => []
  | JBuild f1 f2 b v cs cred skp =>
      match key_package_new P f1 f2 v cs cred skp (or_default (b_lifetime b) (MkLifetime 0 0)) (or_default (b_extensions b) [])
        (or_default (b_capabilities b) (MkCapabilities [] [] [] [] [])) (or_default (b_leaf_extensions b) []) with
      | Ok (kp, ekp, init) => [(ok_or [] (generate_ref P kp), ok_or [] (se_key_package kp)); (hkp_public ekp, ok_or [] (se_hpke_key_pair ekp));
                               (kp_init_key (kp_payload kp), ok_or [] (se_secret_key init))]
      | _ => []
      end
  end.
Lemma puts_entries P j k v : puts P j k v -> In (k, v) (entries P j).
Proof.
  intros (kp & ekp & init & M & C). destruct j as [w|f1 f2 b ver cs cred skp]; [destruct M|]. cbn [makes] in M. cbn [entries]. rewrite M.
  destruct C as [(A & B)|[(-> & B)|(-> & B)]]; rewrite B; [rewrite A; left; reflexivity|right; left; reflexivity|right; right; left; reflexivity].
Qed.
Definition ex_jobs : list job := [ex_job x31 x77; ex_job x32 x78; JJoin (ex_welcome [x31])].
Lemma ex_puts j k v : In j ex_jobs -> puts toy j k v -> In (k, v) (entries toy (ex_job x31 x77)) \/ In (k, v) (entries toy (ex_job x32 x78)).
Proof. intros [<-|[<-|[<-|[]]]] X; [left; apply puts_entries; exact X|right; apply puts_entries; exact X|]. destruct X as (kp & ekp & init & [] & _). Qed.
Lemma ex_keys a b j kp ekp init ref : j = ex_job a b -> makes toy j kp ekp init -> generate_ref toy kp = Ok ref -> [ref; hkp_public ekp; kp_init_key (kp_payload kp)] = map fst (entries toy (ex_job a b)).
Proof. intros -> M R. cbn [entries ex_job]. cbn [makes ex_job] in M. rewrite M. rewrite R. reflexivity. Qed.
Lemma ex_fresh : fresh toy [] ex_jobs.
Proof.
  split; [reflexivity|]. split.
  - assert (D : forall k v v', In (k, v) (entries toy (ex_job x31 x77)) -> In (k, v') (entries toy (ex_job x32 x78)) -> False).
    { intros k v v' A B. vm_compute in A. vm_compute in B. decompose [or] A; decompose [or] B; congruence. }
    assert (NJ : forall w k v, ~ puts toy (JJoin w) k v) by (intros w k v (kp & ekp & init & [] & _)).
    intros [|[|[|i]]] [|[|[|i']]] j j' k v v' J J' X X'; cbn in J, J'; try reflexivity; try (destruct i; discriminate); try (destruct i'; discriminate);
      injection J as <-; injection J' as <-; try (exfalso; exact (NJ _ _ _ X)); try (exfalso; exact (NJ _ _ _ X')); apply puts_entries in X; apply puts_entries in X'; exfalso; eauto.
  - intros j kp ekp init ref [<-|[<-|[<-|[]]]] M R; [rewrite (ex_keys x31 x77 _ kp ekp init ref eq_refl M R)|rewrite (ex_keys x32 x78 _ kp ekp init ref eq_refl M R)|destruct M];
      vm_compute; repeat constructor; cbn; intuition discriminate.
Qed.
Lemma in_values (k v : bytes) l : In (k, v) l -> In v (map snd (filter (fun e => bytes_eqb k (fst e)) l)).
Proof. intros X. apply in_map_iff. exists (k, v). split; [reflexivity|]. apply filter_In. split; [exact X|apply bytes_eqb_refl]. Qed.
Definition ex_raw : bytes := snd (nth 0 (entries toy (ex_job x31 x77)) ([], [])).
Lemma ex_values k : k = [x99] \/ k = ex_ref x31 ->
  map snd (filter (fun e => bytes_eqb k (fst e)) (entries toy (ex_job x31 x77) ++ entries toy (ex_job x32 x78))%list) = if bytes_eqb k [x99] then [] else [ex_raw].
Proof. intros [->| ->]; vm_compute; reflexivity. Qed.
Lemma ex_raw_ref kp rest : de_key_package ex_raw = Ok (kp, rest) -> generate_ref toy kp = Ok (ex_ref x31).
Proof. intros D. assert (E : de_key_package ex_raw = Ok (ex_package x31, [])) by (vm_compute; reflexivity). rewrite E in D. injection D as <- _. vm_compute. reflexivity. Qed.
Lemma ex_keyed : keyed toy [] ex_jobs.
Proof.
  intros w e raw kp rest W E [X|(j & J & X)] D; [discriminate|].
  assert (K : egs_new_member e = [x99] \/ egs_new_member e = ex_ref x31).
  { destruct W as [W|[W|[W|[]]]]; try discriminate W. injection W as <-. destruct E as [<-|[<-|[]]]; auto. }
  assert (Y : In raw (if bytes_eqb (egs_new_member e) [x99] then [] else [ex_raw])).
  { rewrite <- (ex_values _ K). apply in_values. apply in_or_app. exact (ex_puts j _ _ J X). }
  destruct K as [K|K]; rewrite K in *; [destruct Y|]. replace (bytes_eqb (ex_ref x31) [x99]) with false in Y by (vm_compute; reflexivity). destruct Y as [<-|[]]. exact (ex_raw_ref kp rest D).
Qed.
Example C88_example : fresh toy [] ex_jobs /\ keyed toy [] ex_jobs /\
  exists s' kp kp' g, run toy [] ex_jobs [0; 1; 0; 2; 1; 0; 2; 2; 2; 2; 1]%nat = (s', [Building (BDone (Ok kp)); Building (BDone (Ok kp')); Joining (TDone (Ok g))]) /\ length s' = 4%nat.
Proof. split; [exact ex_fresh|]. split; [exact ex_keyed|]. eexists. eexists. eexists. eexists. split; vm_compute; reflexivity. Qed.
