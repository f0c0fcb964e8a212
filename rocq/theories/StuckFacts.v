(** The key schedule never gets stuck. *)
From Verif Require Import SpecSecrets SpecForward SpecMessages SpecTraffic SpecSendable SpecStuck SpecProvider CodecLib SecretFacts KeyFacts SendableFacts ProviderFacts BundledSend WireWF.
From Coq Require Import ZifyBool ZifyNat ZifyN.
Local Open Scope N_scope.
Local Open Scope list_scope.

Section Sched.
  Variables (P : provider) (cs : cipher_suite) (k : hpke_alg).
  Hypothesis SC : schedules P cs k.

  Lemma sk_alg : p_hpke P cs = Ok k. Proof. exact (proj1 (sc_kdf _ _ _ SC)). Qed.
  Lemma sk_expand s l c : usable k s -> exists b, expand_label k s l c (nh k) = Ok b /\ usable k b.
  Proof. intros U. apply (proj2 (sc_kdf _ _ _ SC)), U. Qed.
  Lemma zero_usable : usable k (zero_bytes (k_extract_size k)).
  Proof. unfold usable, nh, zero_bytes. rewrite repeat_length, N2Nat.id. apply N.mod_le. discriminate. Qed.

  Lemma c129_joiner g init commit : gc_suite g = cs -> ((exists s, extract_joiner_secret P g init commit = Ok s) <-> compact (se_group_context g)).
  Proof.
    intros C. assert (KA : p_hpke P (gc_suite g) = Ok k) by (rewrite C; exact sk_alg). split.
    - intros (s & H). apply (joiner_iff P g k init commit s KA) in H as (e & raw & _ & R & F & _). exists raw. auto.
    - intros (raw & R & F). destruct (sc_extract _ _ _ SC commit init) as (e & E & U). destruct (sk_expand e (str "joiner") raw U) as (s & S & _).
      exists s. apply (joiner_iff P g k init commit s KA). exists e, raw. auto.
  Qed.
  Lemma joiner_usable g init commit s : gc_suite g = cs -> extract_joiner_secret P g init commit = Ok s -> usable k s.
  Proof.
    intros C H. assert (KA : p_hpke P (gc_suite g) = Ok k) by (rewrite C; exact sk_alg). apply (joiner_iff P g k init commit s KA) in H as (e & raw & E & R & F & H). destruct (sc_extract _ _ _ SC commit init) as (e' & E' & U).
    assert (e' = e) by congruence. subst e'. destruct (sk_expand e (str "joiner") raw U) as (s' & S & U'). congruence.
  Qed.
  Lemma c129_epoch g joiner psk : gc_suite g = cs -> ((exists s, extract_epoch_secret P g joiner psk = Ok s) <-> compact (se_group_context g)).
  Proof.
    intros C. assert (KA : p_hpke P (gc_suite g) = Ok k) by (rewrite C; exact sk_alg). split.
    - intros (s & H). apply (epoch_iff P g k joiner psk s KA) in H as (e & raw & _ & R & F & _). exists raw. auto.
    - intros (raw & R & F). destruct (sc_extract _ _ _ SC (psk_or_zero k psk) joiner) as (e & E & U). destruct (sk_expand e (str "epoch") raw U) as (s & S & _).
      exists s. apply (epoch_iff P g k joiner psk s KA). exists e, raw. auto.
  Qed.
  Lemma epoch_usable g joiner psk s : gc_suite g = cs -> extract_epoch_secret P g joiner psk = Ok s -> usable k s.
  Proof.
    intros C H. assert (KA : p_hpke P (gc_suite g) = Ok k) by (rewrite C; exact sk_alg). apply (epoch_iff P g k joiner psk s KA) in H as (e & raw & E & R & F & H). destruct (sc_extract _ _ _ SC (psk_or_zero k psk) joiner) as (e' & E' & U).
    assert (e' = e) by congruence. subst e'. destruct (sk_expand e (str "epoch") raw U) as (s' & S & U'). congruence.
  Qed.
  Lemma c129_welcome joiner psk : exists s, extract_welcome_secret P cs joiner psk = Ok s /\ usable k s.
  Proof.
    destruct (sc_extract _ _ _ SC (psk_or_zero k psk) joiner) as (e & E & U). destruct (sk_expand e (str "welcome") [] U) as (s & S & Us).
    exists s. split; [|exact Us]. apply (welcome_iff P cs k joiner psk s sk_alg). exists e. auto.
  Qed.
  Lemma c129_derived e l : usable k e -> fits30 (mls_label l) -> exists s, derive_secret P cs e l = Ok s /\ usable k s.
  Proof.
    intros U F. unfold derive_secret. rewrite sk_alg. cbn [bind]. fold (nh k). rewrite (c38_expand P cs k e l [] (nh k) sk_alg F eq_refl). apply sk_expand, U.
  Qed.
  Lemma label_fits l : In l schedule_labels -> fits30 (mls_label l).
  Proof. intros H. cbn in H. repeat (destruct H as [<-|H]; [reflexivity|]). destruct H. Qed.

  Lemma run_made g init commit psk : gc_suite g = cs -> compact (se_group_context g) ->
    exists e, inputs e = (g, commit, psk) /\ er_before e = init /\ runs P cs e /\ complete P cs k e.
  Proof.
    intros C S. destruct (proj2 (c129_joiner g init commit C) S) as (j & J). destruct (proj2 (c129_epoch g j psk C) S) as (e & E).
    pose proof (joiner_usable _ _ _ _ C J) as UJ. pose proof (epoch_usable _ _ _ _ C E) as UE. destruct (c129_derived e label_init UE eq_refl) as (i & I & UI).
    exists (EpochRun g init commit psk j e i). split; [reflexivity|]. split; [reflexivity|]. split; [split; [exact C|]; auto|].
    split; [exact UJ|]. split; [exact UE|]. split; [exact UI|]. split; [|exact (c129_welcome j psk)]. intros l L. apply c129_derived; [exact UE|exact (label_fits l L)].
  Qed.

  Lemma c129_life init : forall l, l <> [] -> Forall (fun x => gc_suite (fst (fst x)) = cs /\ compact (se_group_context (fst (fst x)))) l ->
    exists r, lifetime_of P cs init r /\ map inputs r = l /\ Forall (complete P cs k) r.
  Proof.
    induction l as [|[[g commit] psk] l IH] using rev_ind; intros N F; [contradiction|]. apply Forall_app in F as [F1 F2]. apply Forall_inv in F2. cbn [fst] in F2. destruct F2 as [C S].
    assert (NE : l = [] \/ l <> []) by (destruct l; [left; reflexivity|right; discriminate]). destruct NE as [->|NE].
    - destruct (run_made g init commit psk C S) as (e & I & B & R & Q). exists [e]. split; [apply lt_first; assumption|]. split; [cbn; rewrite I; reflexivity|constructor; auto].
    - destruct (IH NE F1) as (r & L & M & Q). assert (Hr : exists r' x, r = r' ++ [x]). { inversion L; eauto. exists [], e. reflexivity. }
      destruct Hr as (r' & x & ->). destruct (run_made g (er_init x) commit psk C S) as (e & I & B & R & QE). exists ((r' ++ [x]) ++ [e]).
      split; [apply lt_next; assumption|]. split; [rewrite map_app, M; cbn; rewrite I; reflexivity|]. apply Forall_app. split; [exact Q|constructor; auto].
  Qed.
  Lemma c129_only init r : lifetime_of P cs init r -> Forall (fun e => compact (se_group_context (er_context e)) /\ complete P cs k e) r.
  Proof.
    assert (A : forall e, runs P cs e -> compact (se_group_context (er_context e)) /\ complete P cs k e).
    { intros e (C & J & E & I). split; [apply (c129_joiner _ (er_before e) (er_commit e) C); eauto|]. pose proof (joiner_usable _ _ _ _ C J) as UJ. pose proof (epoch_usable _ _ _ _ C E) as UE.
      split; [exact UJ|]. split; [exact UE|]. split.
      - destruct (c129_derived _ label_init UE eq_refl) as (i & I' & UI). congruence.
      - split; [intros l L; apply c129_derived; [exact UE|exact (label_fits l L)]|exact (c129_welcome _ _)]. }
    induction 1; [constructor; auto|]. apply Forall_app. split; [assumption|constructor; auto].
  Qed.

  Lemma loop_usable : forall l n i acc s, usable k acc -> psk_loop P cs (zero_bytes (k_extract_size k)) (k_extract_size k) n i l acc = Ok s ->
    usable k s /\ Forall (fun x => encodable (fst x)) l.
  Proof.
    induction l as [|[id psk] l IH]; intros n i acc s U H; cbn [psk_loop] in H; [apply Ok_inj in H; subst; auto|].
    rewrite sk_alg in H. cbn [bind] in H. apply bind_ok in H as (ex & _ & H). apply bind_ok in H as (raw & R & H). apply bind_ok in H as (inp & E & H). apply bind_ok in H as (acc' & A & H).
    destruct (sc_extract _ _ _ SC acc inp) as (b & B & UB). assert (b = acc') by congruence. subst b. destruct (IH _ _ _ _ UB H) as [Us F]. split; [exact Us|]. constructor; [|exact F]. cbn [fst].
    apply expand_ok in E as (k' & _ & _ & FR & _). unfold se_psk_label in R. cbn [pl_id pl_index pl_count] in R. destruct (se_psk_id id) as [x|?| |] eqn:X; try discriminate R. cbn [seqw bind] in R.
    apply Ok_inj in R. subst raw. exists x. split; [exact X|]. unfold fits30 in FR. rewrite !app_length, !be_length in FR. lia.
  Qed.
  Lemma c129_psk ids psks : (exists s, extract_psk_secret P cs ids psks = Ok s) <-> length ids = length psks /\ Forall psk_short ids.
  Proof.
    split.
    - intros (s & H). destruct (Nat.eq_dec (length ids) (length psks)) as [L|L]; [|rewrite (c39_mismatch P cs ids psks L) in H; discriminate H]. split; [exact L|].
      unfold extract_psk_secret in H. rewrite L, Nat.eqb_refl in H. cbn [negb] in H. rewrite sk_alg in H. cbn [bind] in H. change zeros with zero_bytes in H.
      destruct (loop_usable _ _ _ _ _ zero_usable H) as [_ F]. clear H. revert psks L F. induction ids as [|a ids IH]; intros [|b psks] L F; try discriminate L; [constructor|].
      cbn [combine] in F. constructor; [exact (Forall_inv F)|]. apply (IH psks); [cbn in L; lia|exact (Forall_inv_tail F)].
    - intros [L F]. apply (c39_total P cs k); [exact (sc_kdf _ _ _ SC)| | |exact L|exact F].
      + intros a b. destruct (sc_extract _ _ _ SC a b) as (c & E & _). eauto.
      + intros a c E. destruct (sc_extract _ _ _ SC a (zero_bytes (k_extract_size k))) as (c' & E' & U). congruence.
  Qed.
End Sched.

Lemma c129_transcript P cs h c i t : p_hash P cs = Ok h ->
  ((exists b, confirmed_hash P cs c i = Ok b) <-> exists raw, se_confirmed_input c = Ok raw) /\ ((exists b, next_interim_hash P cs i t = Ok b) <-> fits30 t).
Proof.
  intros H. split; split.
  - intros (b & B). apply (confirmed_ok P cs h) in B as (raw & R & _); [eauto|exact H].
  - intros (raw & R). unfold confirmed_hash. rewrite R, H. eexists. reflexivity.
  - intros (b & B). apply (interim_ok P cs h) in B as [F _]; [exact F|exact H].
  - intros F. unfold next_interim_hash. rewrite (se_opaque_vec t F), H. eexists. reflexivity.
Qed.

Lemma c129_speak P cs k ctx sk pk d e : seals P cs k -> signs P cs sk -> aead_ok P cs -> key_pair_ok P cs sk pk -> d <= 31 -> complete P cs k e ->
  exists encryption sds st, derive_secret P cs (er_epoch e) label_encryption = Ok encryption /\ derive_secret P cs (er_epoch e) label_sender_data = Ok sds /\
    new_secret_tree P cs (2 ^ d) encryption = Ok st /\
    forall leaf gen guard c, leaf < 2 ^ d -> gen < 4294967296 -> length guard = 4%nat -> wf_framed_content c -> fc_sender c = SMember leaf -> signable WFPrivateMessage c ctx 131080 ->
      exists b a, send P cs ctx sk st sds leaf gen guard c = Ok b /\ receive P cs ctx pk st sds b = Ok a /\ ac_content a = c.
Proof.
  intros SL SG A K D (_ & _ & _ & L & _). destruct (L label_encryption) as (en & E & UE); [cbn; auto|]. destruct (L label_sender_data) as (sds & S & US); [cbn; auto|].
  destruct (c36_total P cs k d en (working P cs k SL) UE D) as (st & T & _). exists en, sds, st. repeat (split; [assumption|]).
  intros leaf gen guard c Hl Hg G W M H. destruct (c128_private_delivered P cs k ctx sk pk d en sds leaf gen guard c SL SG A K D Hl Hg G UE US W M H) as (st' & b & a & T' & B & R & Q).
  assert (st' = st) by congruence. subst st'. exists b, a. auto.
Qed.

Lemma c129_bundled p P cs k : sized_prims p -> hkdf_prims p -> bundled p P -> p_hpke P cs = Ok k -> schedules P cs k.
Proof.
  intros Z F B H. constructor; [exact (c59_working p P cs k Z F B H)|]. intros s salt. destruct (c59_kdf p P cs k Z B H) as [X _]. destruct (X s salt) as (b & E & L).
  exists b. split; [exact E|]. unfold usable, nh. rewrite L. apply N.mod_le. discriminate.
Qed.

Lemma modest_schedules : schedules modest Suite1 modest_hpke.
Proof.
  constructor; [exact (working _ _ _ modest_seals)|]. intros s salt. eexists. split; [reflexivity|]. unfold usable. rewrite !app_length, repeat_length. change (nh modest_hpke) with 4. lia.
Qed.
