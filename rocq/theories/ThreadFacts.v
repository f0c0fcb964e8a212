(** Proofs about interrupted and simultaneous builds and joins. *)
From Coq Require Import ZifyBool ZifyNat ZifyN.
From Verif Require Import CodecLib WireCodecs WireWF TreePaths SecretFacts MessageFacts SpecThreads KeyStoreFacts.
Local Open Scope N_scope.

(** ** Cut calls *)
Lemma cut_building_done P n s r : cut P n s (Building (BDone r)) = (s, Building (BDone r)).
Proof. induction n; cbn; auto. Qed.
Lemma build_start_ok P f1 f2 b v cs cred skp kp ekp init ref raw : makes P (JBuild f1 f2 b v cs cred skp) kp ekp init -> package_entry P kp ref raw ->
  build_start P f1 f2 b v cs cred skp = BPackage kp ekp init ref raw.
Proof. intros M (R & S). unfold build_start. rewrite M. cbn [bnext]. rewrite R. cbn [bnext]. rewrite S. reflexivity. Qed.
Lemma makes_build P j kp ekp init : makes P j kp ekp init -> exists f1 f2 b v cs cred skp, j = JBuild f1 f2 b v cs cred skp.
Proof. destruct j; cbn; [tauto|]. eauto 10. Qed.
Lemma makes_fun P j kp ekp init kp' ekp' init' : makes P j kp ekp init -> makes P j kp' ekp' init' -> kp = kp' /\ ekp = ekp' /\ init = init'.
Proof. destruct j; cbn; [tauto|]. intros A B. rewrite A in B. apply Ok_inj in B. injection B as -> -> ->. auto. Qed.

Lemma c87_build_cut P j kp ekp init kr vr ke ve ki vi n s : makes P j kp ekp init -> package_entry P kp kr vr -> pair_entry ekp ke ve -> init_entry kp init ki vi ->
  fst (cut P n s (start P j)) = fold_left (fun s e => ks_store s (fst e) (snd e)) (firstn n [(kr, vr); (ke, ve); (ki, vi)]) s.
Proof.
  intros M R (-> & E) (-> & I). destruct (makes_build _ _ _ _ _ M) as (f1 & f2 & b & v & cs & cred & skp & ->).
  cbn [start]. rewrite (build_start_ok _ _ _ _ _ _ _ _ _ _ _ _ _ M R).
  destruct n as [|[|[|n]]]; cbn [cut task_step build_step bnext]; try reflexivity; rewrite E; cbn [cut task_step build_step bnext]; try reflexivity; rewrite I; cbn [cut task_step build_step bnext]; try reflexivity.
  rewrite cut_building_done. cbn [fst]. replace (firstn (S (S (S n))) [(kr, vr); (hkp_public ekp, ve); (kp_init_key (kp_payload kp), vi)]) with [(kr, vr); (hkp_public ekp, ve); (kp_init_key (kp_payload kp), vi)] by (cbn; rewrite firstn_nil; reflexivity). reflexivity.
Qed.
Lemma c87_build_whole P f1 f2 b v cs cred skp s : let (s', r) := key_package_build P f1 f2 s b v cs cred skp in
  cut P 3 s (start P (JBuild f1 f2 b v cs cred skp)) = (s', Building (BDone r)).
Proof.
  unfold key_package_build. cbn [start]. unfold build_start.
  destruct (key_package_new _ _ _ _ _ _ _ _ _ _ _) as [[[kp ekp] init]|e| |]; cbn [sbind bnext]; try apply cut_building_done.
  destruct (generate_ref P kp) as [ref|e| |]; cbn [sbind bnext]; try apply cut_building_done.
  destruct (se_key_package kp) as [raw|e| |]; cbn [sbind bnext]; try apply cut_building_done.
  cbn [cut task_step build_step]. destruct (se_hpke_key_pair ekp) as [rawe|e| |]; cbn [sbind bnext task_step build_step]; try reflexivity.
  destruct (se_secret_key init) as [rawi|e| |]; cbn [sbind bnext task_step build_step]; reflexivity.
Qed.
(** A build between its first and its last access. *)
Lemma c87_build_window P j kp ekp init kr vr ke ve ki vi n s : makes P j kp ekp init -> package_entry P kp kr vr -> pair_entry ekp ke ve -> init_entry kp init ki vi ->
  wf_key_package kp -> NoDup [kr; ke; ki] -> ks_retrieve s kr = None -> ks_retrieve s ki = None ->
  (unusable (fst (cut P n s (start P j))) kr <-> n = 1%nat \/ n = 2%nat).
Proof.
  intros M R E I W ND F F'. rewrite (c87_build_cut P j kp ekp init kr vr ke ve ki vi n s M R E I).
  assert (A : kr <> ke /\ kr <> ki /\ ke <> ki).
  { inversion_clear ND as [|? ? N1 N2]. inversion_clear N2 as [|? ? N3 N4]. cbn in N1, N3. split; [|split]; intros ->; tauto. }
  destruct A as (A & B & C). pose proof (se_de _ _ _ codec_key_package kp vr W (proj2 R)) as D.
  assert (H0 : forall s', (forall kp', holds s' kr kp' -> kp' = kp) -> ks_retrieve s' ki <> None -> ~ unusable s' kr).
  { intros s' Q N (kp' & H & X). rewrite (Q kp' H) in X. destruct I as [-> _]. contradiction. }
  assert (H1 : forall s', ks_retrieve s' kr = Some vr -> forall kp', holds s' kr kp' -> kp' = kp).
  { intros s' X kp' (raw & rest & Y & Z). rewrite X in Y. injection Y as <-. rewrite D in Z. apply Ok_inj in Z. congruence. }
  destruct n as [|[|[|n]]]; cbn [firstn fold_left fst snd].
  - split; [intros (kp' & (raw & rest & X & _) & _); congruence|lia].
  - split; [auto|intros _]. exists kp. split; [exists vr, []; rewrite retrieve_store, bytes_eqb_refl; auto|]. rewrite retrieve_store. destruct I as [<- _].
    destruct (beqb_spec ki kr); [congruence|exact F'].
  - split; [auto|intros _]. exists kp. split; [exists vr, []; rewrite !retrieve_store, bytes_eqb_refl; destruct (beqb_spec kr ke); [congruence|auto]|]. rewrite !retrieve_store. destruct I as [<- _].
    destruct (beqb_spec ki ke); [congruence|]. destruct (beqb_spec ki kr); [congruence|exact F'].
  - rewrite firstn_nil. cbn [fold_left]. split; [|lia]. intros U. exfalso. revert U. apply H0; [apply H1|]; rewrite !retrieve_store.
    + destruct (beqb_spec kr ki); [congruence|]. destruct (beqb_spec kr ke); [congruence|]. rewrite bytes_eqb_refl. reflexivity.
    + rewrite bytes_eqb_refl. discriminate.
Qed.

Lemma cut_done P n s r : cut P n s (Joining (TDone r)) = (s, Joining (TDone r)).
Proof. induction n; cbn; auto. Qed.
Lemma cut_search P n s l : fst (cut P n s (Joining (TSearch l))) = s \/
  exists pre e post raw kp rest ref, l = (pre ++ e :: post)%list /\ ks_retrieve s (egs_new_member e) = Some raw /\ (forall x, In x pre -> ks_retrieve s (egs_new_member x) = None) /\
    de_key_package raw = Ok (kp, rest) /\ generate_ref P kp = Ok ref /\
    (fst (cut P n s (Joining (TSearch l))) = ks_delete s ref \/ fst (cut P n s (Joining (TSearch l))) = ks_delete (ks_delete s ref) (kp_init_key (kp_payload kp))).
Proof.
  revert n. induction l as [|e l IH]; intros [|n]; try (left; reflexivity).
  - left. cbn. rewrite cut_done. reflexivity.
  - cbn [cut task_step thread_step]. destruct (ks_retrieve s (egs_new_member e)) as [raw|] eqn:R.
    + unfold found. destruct (de_exact de_key_package raw) as [kp|x| |] eqn:D; cbn [bind]; try (left; rewrite cut_done; reflexivity).
      destruct (generate_ref P kp) as [ref|x| |] eqn:G; cbn [bind]; try (left; rewrite cut_done; reflexivity). apply de_exact_ok in D as [rest D].
      destruct n as [|[|n]]; [left; reflexivity| |]; right; exists [], e, l, raw, kp, rest, ref; (split; [reflexivity|]; split; [exact R|]; split; [intros ? []|]; split; [exact D|]; split; [exact G|]).
      * left. reflexivity.
      * cbn [cut task_step thread_step]. destruct (ks_retrieve (ks_delete s ref) (kp_init_key (kp_payload kp))) as [ri|]; [|left; rewrite cut_done; reflexivity].
        destruct (de_exact de_secret_key ri) as [sk|x| |]; try (left; rewrite cut_done; reflexivity).
        destruct n as [|n]; [left; reflexivity|]. right. cbn [cut task_step thread_step]. rewrite cut_done. reflexivity.
    + destruct (IH n) as [E|(pre & e' & post & raw & kp & rest & ref & -> & A & B & C)]; [left; exact E|]. right. exists (e :: pre), e', post, raw, kp, rest, ref.
      split; [reflexivity|]. split; [exact A|]. split; [intros x [<-|X]; auto|]. exact C.
Qed.
Lemma c87_join_cut P n s w : let s' := fst (cut P n s (start P (JJoin w))) in
  s' = s \/ exists k kp ref, first_known s w k /\ holds s k kp /\ generate_ref P kp = Ok ref /\ (s' = ks_delete s ref \/ s' = ks_delete (ks_delete s ref) (kp_init_key (kp_payload kp))).
Proof.
  cbn [start]. destruct (cut_search P n s (w_secrets w)) as [E|(pre & e & post & raw & kp & rest & ref & L & R & N & D & G & C)]; [left; exact E|]. right.
  exists (egs_new_member e), kp, ref. split; [exists pre, e, post; split; [exact L|]; split; [reflexivity|]; split; [congruence|exact N]|]. split; [exists raw, rest; auto|]. auto.
Qed.

(** ** Joins never leave an unusable package, under any schedule *)
Lemma c87_order P s ws sched s' ts k kp : sys_run P (s, joins ws) sched = (s', ts) -> has_init s kp ->
  (forall w kp' ref', In w ws -> names P s w kp' ref' -> ref' <> kp_init_key (kp_payload kp) /\ (kp_init_key (kp_payload kp') = kp_init_key (kp_payload kp) -> ref' = k)) ->
  ks_retrieve s' k <> None -> has_init s' kp.
Proof.
  intros R HI N. enough (G : forall sched y, sinv P s ws y -> (ks_retrieve (fst y) (kp_init_key (kp_payload kp)) = ks_retrieve s (kp_init_key (kp_payload kp)) \/ ks_retrieve (fst y) k = None) ->
    ks_retrieve (fst (sys_run P y sched)) (kp_init_key (kp_payload kp)) = ks_retrieve s (kp_init_key (kp_payload kp)) \/ ks_retrieve (fst (sys_run P y sched)) k = None).
  { specialize (G sched (s, joins ws) (sinv_start P s ws) (or_introl eq_refl)). rewrite R in G. cbn [fst] in G. intros K. destruct G as [G|G]; [|contradiction].
    destruct HI as (raw & sk & rest & A & B). exists raw, sk, rest. split; [congruence|exact B]. }
  clear R sched s' ts. induction sched as [|i sched IH]; intros y I H; [exact H|]. cbn. apply IH; [exact (sys_inv P s ws [i] y I)|].
  destruct y as [s1 ts]. unfold sys_step. cbn [fst snd] in *. destruct (nth_error ts i) as [t|] eqn:E; [|exact H].
  destruct I as (S & T & _). cbn [fst snd] in *. destruct (T i t E) as (w & W & TI). pose proof (nth_error_In _ _ W) as IW.
  assert (DEL : forall x, x <> kp_init_key (kp_payload kp) \/ ks_retrieve s1 k = None -> ks_retrieve (ks_delete s1 x) (kp_init_key (kp_payload kp)) = ks_retrieve s (kp_init_key (kp_payload kp)) \/ ks_retrieve (ks_delete s1 x) k = None).
  { intros x [D|D]; [destruct H as [H|H]|]; [left; rewrite retrieve_delete; destruct (beqb_spec (kp_init_key (kp_payload kp)) x); [congruence|exact H]| |]; right; rewrite retrieve_delete; destruct (bytes_eqb k x); auto. }
  destruct t as [[|e l]|kp' ref|kp'|kp'|r]; cbn [thread_step fst].
  - exact H.
  - destruct (ks_retrieve s1 (egs_new_member e)); exact H.
  - apply DEL. left. exact (proj1 (N w kp' ref IW TI)).
  - destruct (ks_retrieve s1 (kp_init_key (kp_payload kp'))) as [v|]; [|exact H]. destruct (de_exact de_secret_key v); exact H.
  - destruct TI as (ref & NM & NR & _). apply DEL. destruct (beqb_spec (kp_init_key (kp_payload kp')) (kp_init_key (kp_payload kp))) as [Q|Q]; [|left; congruence].
    right. rewrite <- (proj2 (N w kp' ref IW NM) Q). exact NR.
  - exact H.
Qed.

(** ** Builds and joins together *)
(** The job behind a task, and what the task knows. *)
Definition knows (P : provider) (s0 : key_store) (js : list job) (j : job) (t : task) : Prop :=
  match t with
  | Joining (TSearch l) => exists w, j = JJoin w /\ incl l (w_secrets w)
  | Joining (TDeletePackage kp ref) => exists w, j = JJoin w /\ named P s0 js w kp ref
  | Joining (TInit kp) | Joining (TDeleteInit kp) => exists w ref, j = JJoin w /\ named P s0 js w kp ref
  | Joining (TDone (Ok _)) => exists w kp ref, j = JJoin w /\ named P s0 js w kp ref
  | Joining (TDone _) => True
  | Building (BPackage kp ekp init ref raw) => makes P j kp ekp init /\ package_entry P kp ref raw
  | Building (BPair kp k raw init) => exists ekp, makes P j kp ekp init /\ pair_entry ekp k raw /\ exists ref, generate_ref P kp = Ok ref
  | Building (BInit kp raw) => exists ekp init, makes P j kp ekp init /\ se_secret_key init = Ok raw
  | Building (BDone (Ok kp)) => exists ekp init, makes P j kp ekp init
  | Building (BDone _) => True
  end.
(** What a step does to the store: nothing, a store of its job, or a deletion of a claimed key. *)
Inductive effect (P : provider) (s0 : key_store) (js : list job) (j : job) (s : key_store) : key_store -> Prop :=
| EffNone : effect P s0 js j s s
| EffPut k v : puts P j k v -> effect P s0 js j s (ks_store s k v)
| EffDrop k : claimed P s0 js k -> effect P s0 js j s (ks_delete s k).

Lemma start_knows P s0 js j : knows P s0 js j (start P j).
Proof.
  destruct j as [w|f1 f2 b v cs cred skp]; cbn [start]; [exists w; split; [reflexivity|intros x X; exact X]|].
  unfold build_start. destruct (key_package_new _ _ _ _ _ _ _ _ _ _ _) as [[[kp ekp] init]|e| |] eqn:K; cbn [bnext]; try exact I.
  destruct (generate_ref P kp) as [ref|e| |] eqn:R; cbn [bnext]; try exact I. destruct (se_key_package kp) as [raw|e| |] eqn:S; cbn [bnext]; try exact I.
  split; [exact K|split; assumption].
Qed.
Lemma step_knows P s0 js j s t s' t' : In j js -> (forall k v, ks_retrieve s k = Some v -> available P s0 js k v) -> knows P s0 js j t -> task_step P s t = (s', t') ->
  knows P s0 js j t' /\ effect P s0 js j s s'.
Proof.
  intros J A K H. destruct t as [t|t]; cbn [task_step] in H.
  - destruct t as [[|e l]|kp ref|kp|kp|r]; cbn [thread_step] in H.
    + injection H as <- <-. split; [exact I|constructor].
    + destruct K as (w & -> & L). destruct (ks_retrieve s (egs_new_member e)) as [v|] eqn:R; injection H as <- <-; (split; [|constructor]).
      * unfold found. destruct (de_exact de_key_package v) as [kp|x| |] eqn:D; cbn [bind]; try exact I. destruct (generate_ref P kp) as [ref|x| |] eqn:G; cbn [bind]; try exact I.
        exists w. split; [reflexivity|]. apply de_exact_ok in D as [rest D]. exists e, v, rest. split; [apply L; left; reflexivity|]. split; [apply A; exact R|]. auto.
      * exists w. split; [reflexivity|]. intros x X. apply L. right. exact X.
    + destruct K as (w & -> & N). injection H as <- <-. split; [exists w, ref; auto|]. constructor. exists w, kp, ref. auto.
    + destruct K as (w & ref & -> & N). destruct (ks_retrieve s (kp_init_key (kp_payload kp))) as [v|]; [|injection H as <- <-; split; [exact I|constructor]].
      destruct (de_exact de_secret_key v); injection H as <- <-; (split; [|constructor]); try exact I. exists w, ref. auto.
    + destruct K as (w & ref & -> & N). injection H as <- <-. split; [exists w, kp, ref; auto|]. constructor. exists w, kp, ref. auto.
    + injection H as <- <-. split; [exact K|constructor].
  - destruct t as [kp ekp init ref raw|kp k raw init|kp raw|r]; cbn [build_step] in H.
    + destruct K as (M & R). injection H as <- <-. split; [|constructor; exists kp, ekp, init; auto].
      destruct (se_hpke_key_pair ekp) as [rawe|e| |] eqn:E; cbn [bnext]; try exact I. exists ekp. split; [exact M|]. split; [split; [reflexivity|exact E]|]. exists ref. exact (proj1 R).
    + destruct K as (ekp & M & E & ref & G). injection H as <- <-. split; [|constructor; exists kp, ekp, init; auto].
      destruct (se_secret_key init) as [rawi|e| |] eqn:S; cbn [bnext]; try exact I. exists ekp, init. auto.
    + destruct K as (ekp & init & M & S). injection H as <- <-. split; [exists ekp, init; exact M|]. constructor. exists kp, ekp, init. split; [exact M|]. right. right. split; [reflexivity|exact S].
    + injection H as <- <-. split; [exact K|constructor].
Qed.
Lemma effect_available P s0 js j s s' : In j js -> effect P s0 js j s s' -> (forall k v, ks_retrieve s k = Some v -> available P s0 js k v) ->
  forall k v, ks_retrieve s' k = Some v -> available P s0 js k v.
Proof.
  intros J [|k v X|k X] A x y R; [auto| |].
  - rewrite retrieve_store in R. destruct (beqb_spec x k) as [->|]; [injection R as <-; right; eauto|auto].
  - rewrite retrieve_delete in R. destruct (bytes_eqb x k); [discriminate|auto].
Qed.

(** An invariant of a run holds at its end. *)
Definition winv (P : provider) (s0 : key_store) (js : list job) (y : shared) : Prop :=
  (forall k v, ks_retrieve (fst y) k = Some v -> available P s0 js k v) /\ length (snd y) = length js /\
  forall i t, nth_error (snd y) i = Some t -> exists j, nth_error js i = Some j /\ knows P s0 js j t.
Lemma shared_cases P s0 js y i : winv P s0 js y -> shared_step P y i = y \/
  exists j t s' t', nth_error (snd y) i = Some t /\ nth_error js i = Some j /\ knows P s0 js j t /\ task_step P (fst y) t = (s', t') /\
    shared_step P y i = (s', set_nth (snd y) i t') /\ knows P s0 js j t' /\ effect P s0 js j (fst y) s'.
Proof.
  intros (A & L & T). unfold shared_step. destruct (nth_error (snd y) i) as [t|] eqn:E; [|auto]. right. destruct (T i t E) as (j & J & K).
  destruct (task_step P (fst y) t) as [s' t'] eqn:H. exists j, t, s', t'. destruct (step_knows P s0 js j (fst y) t s' t' (nth_error_In _ _ J) A K H) as (K' & F). auto 10.
Qed.
Lemma winv_step P s0 js y i : winv P s0 js y -> winv P s0 js (shared_step P y i).
Proof.
  intros W. destruct (shared_cases P s0 js y i W) as [->|(j & t & s' & t' & E & J & K & H & -> & K' & F)]; [exact W|]. destruct W as (A & L & T).
  assert (LI : (i < length (snd y))%nat) by (apply nth_error_Some; congruence).
  split; [|split]; cbn [fst snd].
  - exact (effect_available _ _ _ _ _ _ (nth_error_In _ _ J) F A).
  - unfold set_nth. rewrite app_length, firstn_length. cbn [length]. rewrite skipn_length. lia.
  - intros x u U. rewrite set_nth_get in U by exact LI. destruct (Nat.eqb_spec x i) as [->|D]; [injection U as <-; eauto|auto].
Qed.
Lemma run_ind P s js (Q : shared -> Prop) : Q (s, map (start P) js) -> (forall y i, winv P s js y -> Q y -> Q (shared_step P y i)) ->
  forall sched, winv P s js (run P s js sched) /\ Q (run P s js sched).
Proof.
  intros B S sched. unfold run. assert (W : winv P s js (s, map (start P) js)).
  { split; [left; assumption|]. split; [apply map_length|]. cbn [fst snd]. intros i t H. rewrite nth_error_map in H. destruct (nth_error js i) as [j|]; [|discriminate].
    injection H as <-. exists j. split; [reflexivity|apply start_knows]. }
  revert B W. generalize (s, map (start P) js). induction sched as [|i sched IH]; intros y B W; [auto|]. cbn [fold_left]. apply IH; [apply S; assumption|apply winv_step; exact W].
Qed.

Lemma c88_only P s js sched k v : ks_retrieve (fst (run P s js sched)) k = Some v -> available P s js k v.
Proof. intros H. destruct (run_ind P s js (fun _ => True) I (fun _ _ _ _ => I) sched) as ((A & _) & _). auto. Qed.
Lemma c88_untouched P s js sched k : (forall j v, In j js -> ~ puts P j k v) -> ~ claimed P s js k ->
  ks_retrieve (fst (run P s js sched)) k = ks_retrieve s k.
Proof.
  intros NP NC. apply (run_ind P s js (fun y => ks_retrieve (fst y) k = ks_retrieve s k)); [reflexivity|]. intros y i W Q.
  destruct (shared_cases P s js y i W) as [->|(j & t & s' & t' & _ & J & _ & _ & -> & _ & F)]; [exact Q|]. cbn [fst]. destruct F as [|x v X|x X]; [exact Q| |].
  - rewrite retrieve_store. destruct (beqb_spec k x) as [->|]; [exfalso; exact (NP j v (nth_error_In _ _ J) X)|exact Q].
  - rewrite retrieve_delete. destruct (beqb_spec k x) as [->|]; [contradiction|exact Q].
Qed.

(** The entries a build has made so far. *)
Definition past (P : provider) (j : job) (t : task) (k : bytes) : Prop :=
  match t with
  | Building (BPair kp _ _ _) => generate_ref P kp = Ok k
  | Building (BInit kp _) => generate_ref P kp = Ok k \/ exists ekp init, makes P j kp ekp init /\ k = hkp_public ekp
  | Building (BDone (Ok kp)) => generate_ref P kp = Ok k \/ (exists ekp init, makes P j kp ekp init /\ k = hkp_public ekp) \/ k = kp_init_key (kp_payload kp)
  | _ => False
  end.
Lemma past_step P s0 js j s t s' t' k : knows P s0 js j t -> task_step P s t = (s', t') -> past P j t' k -> past P j t k \/ exists v, puts P j k v /\ s' = ks_store s k v.
Proof.
  intros K H X. destruct t as [t|t]; cbn [task_step] in H.
  - destruct (thread_step P s t) as [a b]. injection H as <- <-. destruct X.
  - destruct t as [kp ekp init ref raw|kp k' raw init|kp raw|r]; cbn [build_step] in H.
    + injection H as <- <-. destruct K as (M & R). destruct (se_hpke_key_pair ekp); cbn [bnext past] in X; try (exfalso; exact X). right. exists raw.
      destruct R as (R & S). rewrite R in X. apply Ok_inj in X. subst k. split; [|reflexivity]. exists kp, ekp, init. split; [exact M|]. left. split; assumption.
    + injection H as <- <-. destruct K as (ekp & M & E & ref & G). destruct (se_secret_key init); cbn [bnext past] in X; try (exfalso; exact X).
      destruct X as [X|(ekp' & init' & M' & ->)]; [left; exact X|]. destruct (makes_fun _ _ _ _ _ _ _ _ M M') as (_ & <- & <-). right. exists raw. destruct E as (-> & E).
      split; [|reflexivity]. exists kp, ekp, init. split; [exact M|]. right. left. split; [reflexivity|exact E].
    + injection H as <- <-. destruct K as (ekp & init & M & S). cbn [past] in X. destruct X as [X|[X|X]]; [left; left; exact X|left; right; exact X|]. right. exists raw. subst k.
      split; [|reflexivity]. exists kp, ekp, init. split; [exact M|]. right. right. split; [reflexivity|exact S].
    + injection H as <- <-. left. exact X.
Qed.
Lemma c88_kept P s js sched i j kp k v : nth_error js i = Some j -> nth_error (snd (run P s js sched)) i = Some (Building (BDone (Ok kp))) ->
  puts P j k v -> (forall j' v', In j' js -> puts P j' k v' -> v' = v) -> ~ claimed P s js k -> ks_retrieve (fst (run P s js sched)) k = Some v.
Proof.
  intros J D X U NC. destruct (run_ind P s js (fun y => forall i j t, nth_error (snd y) i = Some t -> nth_error js i = Some j -> past P j t k -> ks_retrieve (fst y) k = Some v)) with (sched := sched) as (W & Q).
  - cbn [snd]. intros i' j' t H J' Y. rewrite nth_error_map, J' in H. injection H as <-. exfalso. destruct j' as [w|f1 f2 b ver cs cred skp]; [exact Y|]. cbn [start] in Y. unfold build_start in Y.
    destruct (key_package_new _ _ _ _ _ _ _ _ _ _ _) as [[[kp' ekp] init]|e| |]; cbn [bnext] in Y; try exact Y.
    destruct (generate_ref P kp'); cbn [bnext] in Y; try exact Y. destruct (se_key_package kp'); cbn [bnext] in Y; exact Y.
  - intros y i' W Q. destruct (shared_cases P s js y i' W) as [->|(j' & t & s' & t' & E & J' & K & H & -> & K' & F)]; [exact Q|]. cbn [fst snd].
    assert (LI : (i' < length (snd y))%nat) by (apply nth_error_Some; congruence).
    assert (KEEP : ks_retrieve (fst y) k = Some v -> ks_retrieve s' k = Some v).
    { intros B. destruct F as [|x z X'|x X']; [exact B| |].
      - rewrite retrieve_store. destruct (beqb_spec k x) as [->|]; [|exact B]. f_equal. exact (U j' z (nth_error_In _ _ J') X').
      - rewrite retrieve_delete. destruct (beqb_spec k x) as [->|]; [contradiction|exact B]. }
    intros a b u A B Y. rewrite set_nth_get in A by exact LI. destruct (Nat.eqb_spec a i') as [->|NE]; [|apply KEEP; eauto].
    injection A as <-. rewrite J' in B. injection B as <-. destruct (past_step _ _ _ _ _ _ _ _ _ K H Y) as [Z|(z & Z & ->)]; [apply KEEP; eauto|].
    rewrite retrieve_store, bytes_eqb_refl. f_equal. exact (U j' z (nth_error_In _ _ J') Z).
  - apply (Q i j _ D J). destruct W as (_ & _ & T). destruct (T i _ D) as (j' & J' & (ekp & init & M)). rewrite J in J'. injection J' as <-.
    destruct X as (kp' & ekp' & init' & M' & C). destruct (makes_fun _ _ _ _ _ _ _ _ M M') as (<- & <- & <-). cbn [past].
    destruct C as [(C & _)|[(-> & _)|(-> & _)]]; [left; exact C|right; left; exists ekp, init; auto|right; right; reflexivity].
Qed.

(** The entries a build is still to make. *)
Definition pending (P : provider) (j : job) (t : task) (k : bytes) : Prop :=
  (exists v, puts P j k v) /\
  match t with
  | Building (BPackage kp ekp init ref raw) => k = ref \/ k = hkp_public ekp \/ k = kp_init_key (kp_payload kp)
  | Building (BPair kp k' _ _) => k = k' \/ k = kp_init_key (kp_payload kp)
  | Building (BInit kp _) => k = kp_init_key (kp_payload kp)
  | _ => False
  end.
Lemma pending_step P s0 js j s t s' t' k : knows P s0 js j t -> task_step P s t = (s', t') -> pending P j t' k -> pending P j t k.
Proof.
  intros K H (X & Y). split; [exact X|]. destruct t as [t|t]; cbn [task_step] in H.
  - destruct (thread_step P s t). injection H as <- <-. destruct Y.
  - destruct t as [kp ekp init ref raw|kp k' raw init|kp raw|r]; cbn [build_step] in H; injection H as <- <-.
    + destruct (se_hpke_key_pair ekp); cbn [bnext] in Y; tauto.
    + destruct (se_secret_key init); cbn [bnext] in Y; tauto.
    + destruct Y.
    + exact Y.
Qed.
(** What a step of the task does to one key that may be pending. *)
Lemma pending_put P s0 js j s t s' t' k : fresh P s0 js -> In j js -> knows P s0 js j t -> task_step P s t = (s', t') ->
  (forall x, ks_retrieve s' x = ks_retrieve s x \/ ks_retrieve s' x = None \/ pending P j t x /\ ~ pending P j t' x) /\ (pending P j t' k -> pending P j t k).
Proof.
  intros (_ & _ & ND) J K H. split; [|exact (pending_step _ _ _ _ _ _ _ _ _ K H)]. intros x. destruct t as [t|t]; cbn [task_step] in H.
  - destruct (thread_step P s t) as [a b] eqn:E. injection H as <- <-. destruct t as [[|e l]|kp ref|kp|kp|r]; cbn [thread_step] in E.
    + injection E as <- <-; auto.
    + destruct (ks_retrieve s (egs_new_member e)); injection E as <- <-; auto.
    + injection E as <- <-. rewrite retrieve_delete. destruct (bytes_eqb x ref); auto.
    + destruct (ks_retrieve s (kp_init_key (kp_payload kp))) as [v|]; [destruct (de_exact de_secret_key v)|]; injection E as <- <-; auto.
    + injection E as <- <-. rewrite retrieve_delete. destruct (bytes_eqb x _); auto.
    + injection E as <- <-; auto.
  - destruct t as [kp ekp init ref raw|kp k' raw init|kp raw|r]; cbn [build_step] in H; injection H as <- <-; [| | |auto]; rewrite retrieve_store; match goal with |- context [bytes_eqb x ?y] => destruct (beqb_spec x y) as [->|]; [|auto] end; right; right.
    + destruct K as (M & R). pose proof (ND j kp ekp init ref J M (proj1 R)) as N. apply NoDup_cons_iff in N as (N1 & N2). cbn in N1.
      assert (PU : exists v, puts P j ref v) by (exists raw, kp, ekp, init; auto). split; [split; [exact PU|auto]|]. intros (_ & Y). destruct (se_hpke_key_pair ekp); cbn [bnext] in Y; try exact Y.
      destruct Y as [Y|Y]; apply N1; auto.
    + destruct K as (ekp & M & E & ref & G). assert (PU : exists v, puts P j k' v) by (exists raw, kp, ekp, init; auto). split; [split; [exact PU|auto]|]. intros (_ & Y).
      destruct (se_secret_key init) eqn:S; cbn [bnext] in Y; try exact Y. destruct E as (-> & E). pose proof (ND j kp ekp init ref J M G) as N. apply NoDup_cons_iff in N as (_ & N). apply NoDup_cons_iff in N as (N & _). apply N. left. auto.
    + destruct K as (ekp & init & M & S). split; [split; [exists raw, kp, ekp, init; split; [exact M|]; right; right; split; [reflexivity|exact S]|reflexivity]|]. intros (_ & Y). exact Y.
Qed.

Definition settled (P : provider) (js : list job) (y : shared) (k : bytes) : Prop :=
  forall i j t, nth_error (snd y) i = Some t -> nth_error js i = Some j -> ~ pending P j t k.
Definition gone (P : provider) (js : list job) (y : shared) (k : bytes) : Prop := settled P js y k /\ ks_retrieve (fst y) k = None.
Definition jinv (P : provider) (s0 : key_store) (js : list job) (y : shared) (j : job) (t : thread) : Prop :=
  match t with
  | TDeletePackage kp ref => settled P js y ref
  | TInit kp => exists w ref, j = JJoin w /\ named P s0 js w kp ref /\ gone P js y ref
  | TDeleteInit kp => exists w ref, j = JJoin w /\ named P s0 js w kp ref /\ gone P js y ref /\ settled P js y (kp_init_key (kp_payload kp))
  | TDone (Ok _) => exists w kp ref, j = JJoin w /\ named P s0 js w kp ref /\ gone P js y ref /\ gone P js y (kp_init_key (kp_payload kp))
  | _ => True
  end.
Lemma jinv_mono P s0 js y y' j t : (forall k, settled P js y k -> settled P js y' k) -> (forall k, gone P js y k -> gone P js y' k) -> jinv P s0 js y j t -> jinv P s0 js y' j t.
Proof.
  intros S G. destruct t as [l|kp ref|kp|kp|[g|e| |]]; cbn; auto.
  - intros (w & ref & A & B & C). exists w, ref. auto.
  - intros (w & ref & A & B & C & D). exists w, ref. auto.
  - intros (w & kp & ref & A & B & C & D). exists w, kp, ref. auto.
Qed.
Definition clean (P : provider) (js : list job) (y : shared) : Prop :=
  forall i j t k, nth_error (snd y) i = Some t -> nth_error js i = Some j -> pending P j t k -> ks_retrieve (fst y) k = None.
Lemma clean_settled P js y k v : clean P js y -> ks_retrieve (fst y) k = Some v -> settled P js y k.
Proof. intros C R i j t E J X. rewrite (C i j t k E J X) in R. discriminate. Qed.

Lemma c88_inv P s js sched : fresh P s js -> keyed P s js ->
  winv P s js (run P s js sched) /\ clean P js (run P s js sched) /\
  forall i j t, nth_error (snd (run P s js sched)) i = Some (Joining t) -> nth_error js i = Some j -> jinv P s js (run P s js sched) j t.
Proof.
  intros FR KE. apply (run_ind P s js (fun y => clean P js y /\ forall i j t, nth_error (snd y) i = Some (Joining t) -> nth_error js i = Some j -> jinv P s js y j t)).
  - split.
    + intros i j t k _ J ((v & X) & _). cbn [fst]. exact (proj1 FR j k v (nth_error_In _ _ J) X).
    + cbn [snd]. intros i j t E J. rewrite nth_error_map, J in E. injection E as E. destruct j; cbn [start] in E; [injection E as <-; exact I|discriminate].
  - intros y i W (C & JI). destruct (shared_cases P s js y i W) as [->|(j & t & s' & t' & E & J & K & H & -> & K' & F)]; [auto|].
    assert (LI : (i < length (snd y))%nat) by (apply nth_error_Some; congruence). set (y' := (s', set_nth (snd y) i t')).
    assert (GET : forall a u, nth_error (snd y') a = Some u -> a = i /\ u = t' \/ a <> i /\ nth_error (snd y) a = Some u).
    { intros a u A. cbn [y' snd] in A. rewrite set_nth_get in A by exact LI. destruct (Nat.eqb_spec a i) as [->|NE]; [injection A as <-; auto|auto]. }
    pose proof (fun k => proj1 (pending_put P s js j (fst y) t s' t' k FR (nth_error_In _ _ J) K H)) as PP.
    assert (ST : forall k, settled P js y k -> settled P js y' k).
    { intros k S a b u A B X. apply GET in A as [(-> & ->)|(NE & A)]; [|exact (S a b u A B X)]. rewrite J in B. injection B as <-. exact (S i j t E J (pending_step _ _ _ _ _ _ _ _ _ K H X)). }
    assert (GO : forall k, gone P js y k -> gone P js y' k).
    { intros k (S & N). split; [exact (ST k S)|]. cbn [y' fst]. destruct (PP k k) as [Q|[Q|(Q & _)]]; [congruence|exact Q|]. exfalso. exact (S i j t E J Q). }
    assert (C' : clean P js y').
    { intros a b u k A B X. cbn [y' fst]. apply GET in A as [(-> & ->)|(NE & A)].
      - rewrite J in B. injection B as <-. pose proof (C i j t k E J (pending_step _ _ _ _ _ _ _ _ _ K H X)) as N. destruct (PP k k) as [Q|[Q|(_ & Q)]]; [congruence|exact Q|contradiction].
      - pose proof (C a b u k A B X) as N. destruct (PP k k) as [Q|[Q|(((v & Q) & _) & _)]]; [congruence|exact Q|]. destruct X as ((v' & X) & _).
        exfalso. apply NE. exact (proj1 (proj2 FR) a i b j k v' v B J X Q). }
    split; [exact C'|]. intros a b u A B. apply GET in A as [(-> & A)|(NE & A)]; [|exact (jinv_mono _ _ _ _ _ _ _ ST GO (JI a b u A B))].
    rewrite J in B. injection B as <-. subst t'. destruct t as [t|t]; cbn [task_step] in H; [|destruct (build_step (fst y) t); discriminate].
    specialize (JI i j t E J). destruct t as [[|e l]|kp ref|kp|kp|r]; cbn [thread_step] in H.
    + injection H as _ <-. exact I.
    + destruct (ks_retrieve (fst y) (egs_new_member e)) as [v|] eqn:R; injection H as _ <-; [|exact I]. unfold found.
      destruct (de_exact de_key_package v) as [kp|x| |] eqn:D; cbn [bind]; try exact I. destruct (generate_ref P kp) as [ref|x| |] eqn:G; cbn [bind]; try exact I. cbn [jinv]. apply ST.
      destruct K as (w & -> & L). apply de_exact_ok in D as [rest D]. pose proof (KE w e v kp rest (nth_error_In _ _ J) (L e (or_introl eq_refl)) (proj1 W _ _ R) D) as Q. rewrite G in Q. apply Ok_inj in Q. subst ref.
      exact (clean_settled P js y _ v C R).
    + destruct K as (w & -> & N). injection H as EH <-. exists w, ref. split; [reflexivity|]. split; [exact N|]. split; [exact (ST ref JI)|]. cbn [y' fst]. rewrite <- EH. rewrite retrieve_delete, bytes_eqb_refl. reflexivity.
    + destruct (ks_retrieve (fst y) (kp_init_key (kp_payload kp))) as [v|] eqn:R; [|injection H as _ <-; exact I]. destruct JI as (w & ref & -> & N & G).
      destruct (de_exact de_secret_key v); injection H as _ <-; try exact I. exists w, ref. split; [reflexivity|]. split; [exact N|]. split; [exact (GO ref G)|]. exact (ST _ (clean_settled P js y _ v C R)).
    + destruct JI as (w & ref & -> & N & G & S). injection H as EH <-. exists w, kp, ref. split; [reflexivity|]. split; [exact N|]. split; [exact (GO ref G)|]. split; [exact (ST _ S)|].
      cbn [y' fst]. rewrite <- EH. rewrite retrieve_delete, bytes_eqb_refl. reflexivity.
    + injection H as EH <-. exact (jinv_mono _ _ _ _ _ _ _ ST GO JI).
Qed.
Lemma c88_joined P s js sched i g : fresh P s js -> keyed P s js -> nth_error (snd (run P s js sched)) i = Some (Joining (TDone (Ok g))) ->
  exists w kp ref, nth_error js i = Some (JJoin w) /\ named P s js w kp ref /\
    ks_retrieve (fst (run P s js sched)) ref = None /\ ks_retrieve (fst (run P s js sched)) (kp_init_key (kp_payload kp)) = None.
Proof.
  intros F K E. destruct (c88_inv P s js sched F K) as ((_ & _ & T) & _ & JI). destruct (T i _ E) as (j & J & _).
  destruct (JI i j _ E J) as (w & kp & ref & -> & N & (_ & A) & (_ & B)). exists w, kp, ref. auto.
Qed.
