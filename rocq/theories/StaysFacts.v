From Verif Require Import PassiveFacts TreeFacts TreeInv TreeMore MemberFacts LeafFacts HashFacts KnowFacts JoinFacts ReplicaFacts Verified.
From Verif Require Import SpecStays.
Local Open Scope N_scope.

(** The part of the newcomer's check that is about members and keys. *)
Record sound (P : provider) (cs : cipher_suite) (g : bytes) (now : N -> Z) (t : tree) : Prop := {
  so_signed : forall i l, leaf_at t i = Some l -> leaf_signed P cs l g i;
  so_lifetime : forall i l lt, leaf_at t i = Some l -> lp_source (ln_payload l) = LSKeyPackage lt -> (0 < now i)%Z -> lifetime_accepted lt (now i);
  so_extensions : forall i l e, leaf_at t i = Some l -> In e (lp_extensions (ln_payload l)) -> In (ext_type e) (cap_extensions (lp_capabilities (ln_payload l)));
  so_credentials : forall i l j m, leaf_at t i = Some l -> leaf_at t j = Some m -> supports l (type_of m);
  so_no_repetition : no_repetitions t;
  so_signature_keys : forall i j l m, leaf_at t i = Some l -> leaf_at t j = Some m -> signature_key l = signature_key m -> i = j;
  so_encryption_keys : forall x x' n n', tget t x = Some n -> tget t x' = Some n' -> node_key n = node_key n' -> x = x' }.

Lemma sound_replace P cs g now t i l t' : sound P cs g now t -> fit P cs g now t i l -> leaf_at t' i = Some l -> (forall j, j <> i -> leaf_at t' j = leaf_at t j) ->
  (forall x x' n n', tget t' x = Some n -> tget t' x' = Some n' -> node_key n = node_key n' -> x = x') -> sound P cs g now t'.
Proof.
  intros [S1 S2 S3 S4 S5 S6 S7] [F1 F2 F3 F4 F5 F6 F7 F8] Li Lj K.
  assert (C : forall (Q : N -> leaf_node -> Prop), Q i l -> (forall j m, leaf_at t j = Some m -> Q j m) -> forall j m, leaf_at t' j = Some m -> Q j m).
  { intros Q Qi Qj j m L. destruct (N.eq_dec j i) as [->|N]; [rewrite Li in L; injection L as <-; exact Qi|]. rewrite Lj in L by exact N. auto. }
  constructor.
  - apply (C (fun j m => leaf_signed P cs m g j)); auto.
  - intros j m lt L. revert j m L lt. apply (C (fun j m => forall lt, _ = _ -> _ -> lifetime_accepted lt (now j))); auto. intros j m L lt. apply S2, L.
  - intros j m e L. revert j m L e. apply (C (fun j m => forall e, In e _ -> In _ _)); auto. intros j m L e. apply (S3 j m), L.
  - intros a la b lb La Lb. destruct (N.eq_dec a i) as [->|Na]; destruct (N.eq_dec b i) as [->|Nb].
    + rewrite Li in La, Lb. injection La as <-. injection Lb as <-. exact F4.
    + rewrite Li in La. injection La as <-. rewrite Lj in Lb by exact Nb. apply (F5 b lb Nb Lb).
    + rewrite Li in Lb. injection Lb as <-. rewrite Lj in La by exact Na. apply (F5 a la Na La).
    + rewrite Lj in La, Lb by assumption. exact (S4 a la b lb La Lb).
  - intros j m. apply (C (fun j m => NoDup (cap_credentials (lp_capabilities (ln_payload m))))); auto.
  - intros a b la lb La Lb Q. destruct (N.eq_dec a i) as [->|Na]; destruct (N.eq_dec b i) as [->|Nb]; [reflexivity| | |].
    + rewrite Li in La. injection La as <-. rewrite Lj in Lb by exact Nb. exfalso. apply (F7 b lb Nb Lb). auto.
    + rewrite Li in Lb. injection Lb as <-. rewrite Lj in La by exact Na. exfalso. apply (F7 a la Na La). auto.
    + rewrite Lj in La, Lb by assumption. exact (S6 a b la lb La Lb Q).
  - exact K.
Qed.

(** Nodes of [t'] are those of [t] or have new keys. *)
Lemma keys_replace t t' (new : N -> bytes -> Prop) :
  (forall x x' n n', tget t x = Some n -> tget t x' = Some n' -> node_key n = node_key n' -> x = x') ->
  (forall x k, new x k -> ~ used_key t k) -> (forall x x' k, new x k -> new x' k -> x = x') ->
  (forall x n, tget t' x = Some n -> new x (node_key n) \/ exists n0, tget t x = Some n0 /\ node_key n0 = node_key n) ->
  forall x x' n n', tget t' x = Some n -> tget t' x' = Some n' -> node_key n = node_key n' -> x = x'.
Proof.
  intros K F U C x x' n n' X X' Q. destruct (C x n X) as [A|(a & A1 & A2)]; destruct (C x' n' X') as [B|(b & B1 & B2)].
  - rewrite <- Q in B. exact (U x x' _ A B).
  - exfalso. apply (F x _ A). exists x', b. split; [exact B1|congruence].
  - exfalso. apply (F x' _ B). exists x, a. split; [exact A1|congruence].
  - apply (K x x' a b A1 B1). congruence.
Qed.

Lemma fit_sound P cs g now t d t' : good t d -> sound P cs g now t -> fit_step P cs g now t t' -> sound P cs g now t'.
Proof.
  intros G S St. pose proof (good_usized t d G) as U. destruct St as [t i l t' R E B L F NC|t i l t' E F|t i t' E NE|t i u t' h E RT NCo F ND FR].
  - destruct (add_added t d l t' G R E) as (d' & i' & G' & B' & A1 & A2 & A3 & A4 & A5). pose proof (get_leaf_tget _ _ _ A1) as Ti.
    assert (i' = i) as ->. { destruct (N.eq_dec i' i) as [Q|Q]; [exact Q|]. exfalso. unfold leaf_at in L. rewrite A2 in L by congruence. unfold blank_at in B. rewrite B in L. discriminate. }
    apply (sound_replace P cs g now t i l t' S F L).
    + intros j N. unfold leaf_at. rewrite A2 by exact N. reflexivity.
    + apply (keys_replace t t' (fun x k => x = 2 * i /\ k = encryption_key l) (so_encryption_keys _ _ _ _ _ S)).
      * intros x k (_ & ->). apply F.
      * intros x x' k (-> & _) (-> & _). reflexivity.
      * intros x n X. destruct (N.eq_dec x (2 * i)) as [->|Nx]; [left; rewrite Ti in X; injection X as <-; auto|right]. destruct (on_path_dec d' i x) as [O|O].
        -- destruct (tget t x) as [[lf|p]|] eqn:T.
           ++ exfalso. destruct O as (k & j & Lk & -> & _). replace k with (k - 1 + 1) in T by lia. exact (g_parent _ d G _ _ _ T).
           ++ rewrite (A3 x p O T) in X. injection X as <-. eexists. split; [reflexivity|]. destruct p. reflexivity.
           ++ rewrite (A4 x O T) in X. discriminate.
        -- rewrite A5 in X by assumption. eauto.
  - destruct (N.lt_ge_cases i (2 ^ d)) as [Li|Li]; [|rewrite (update_out t d i l U Li) in E; discriminate].
    destruct (update_ok t d i l U Li) as (t2 & E2 & _ & H). rewrite E in E2. apply Ok_inj in E2. subst t2.
    assert (O : forall x, x <> 2 * i -> tget t' x = tget t x \/ tget t' x = None).
    { intros x Nx. destruct (on_path_dec d i x) as [O|O]; [right; apply (proj2 (H x)); assumption|left; apply (proj2 (H x)); assumption]. }
    apply (sound_replace P cs g now t i l t' S F).
    + unfold leaf_at. rewrite (proj1 (H (2 * i)) eq_refl). reflexivity.
    + intros j Ne. unfold leaf_at. rewrite (proj2 (proj2 (H (2 * j)))); [reflexivity|lia|apply path_not_leaf].
    + apply (keys_replace t t' (fun x k => x = 2 * i /\ k = encryption_key l) (so_encryption_keys _ _ _ _ _ S)).
      * intros x k (_ & ->). apply F.
      * intros x x' k (-> & _) (-> & _). reflexivity.
      * intros x n X. destruct (N.eq_dec x (2 * i)) as [->|Nx]; [left; rewrite (proj1 (H (2 * i)) eq_refl) in X; injection X as <-; auto|right].
        destruct (O x Nx) as [Q|Q]; rewrite Q in X; [eauto|discriminate].
  - destruct (N.lt_ge_cases i (2 ^ d)) as [Li|Li]; [|rewrite (remove_out t d i U Li) in E; discriminate].
    destruct (c18 t d i (g_size _ _ G) (g_small _ _ G) Li) as (t2 & E2 & B & Pa & K & O & _). rewrite E in E2. apply Ok_inj in E2. subst t2.
    assert (Sub : forall x n, tget t' x = Some n -> tget t x = Some n).
    { intros x n X. destruct (N.lt_ge_cases x (tlen t')) as [Lx|Lx]; [|rewrite tget_beyond in X by exact Lx; discriminate].
      destruct (N.eq_dec x (2 * i)) as [->|Nx]; [unfold blank_at in B; congruence|]. destruct (on_path_dec d i x) as [Op|Op]; [rewrite (Pa x Op) in X; discriminate|]. rewrite <- O by assumption. exact X. }
    assert (SL : forall j m, leaf_at t' j = Some m -> leaf_at t j = Some m).
    { intros j m. unfold leaf_at. destruct (tget t' (2 * j)) as [nd|] eqn:X; [|discriminate]. rewrite (Sub _ _ X). auto. }
    destruct S as [S1 S2 S3 S4 S5 S6 S7]. constructor; eauto. intros j m Lm. eapply S5; eauto.
  - destruct (N.lt_ge_cases i (2 ^ d)) as [Li|Li]; [|rewrite (merge_out P cs t d i u U Li) in E; discriminate].
    apply (c25 P cs t d i u t' (good_shaped t d G) Li) in E. pose proof (mg_leaf _ _ _ _ _ _ _ E) as Tl. destruct (mg_path _ _ _ _ _ _ _ E) as (fp & ph & _ & _ & Len & Fn & Bn & _).
    apply (sound_replace P cs g now t i (up_leaf u) t' S F).
    + unfold leaf_at. rewrite Tl. reflexivity.
    + intros j Ne. unfold leaf_at. rewrite (mg_off _ _ _ _ _ _ _ E); [reflexivity|lia|apply path_not_leaf].
    + apply (keys_replace t t' (fun x k => exists m, nth_error (2 * i :: fp) m = Some x /\ nth_error (encryption_key (up_leaf u) :: map upn_encryption_key (up_nodes u)) m = Some k) (so_encryption_keys _ _ _ _ _ S)).
      * intros x k (m & _ & M). apply nth_error_In in M as [<-|M]; [apply F|]. apply in_map_iff in M as (n & <- & M). apply FR, M.
      * intros x x' k (m & M1 & M2) (m' & M1' & M2'). assert (m = m') as <-; [|congruence].
        apply (proj1 (NoDup_nth_error _) ND); [|congruence]. apply nth_error_Some. congruence.
      * intros x n X. destruct (N.eq_dec x (2 * i)) as [->|Nx]; [left; exists 0%nat; rewrite Tl in X; injection X as <-; auto|].
        destruct (on_path_dec d i x) as [O|O]; [|right; rewrite (mg_off _ _ _ _ _ _ _ E) in X by assumption; eauto].
        destruct (in_dec N.eq_dec x fp) as [I|I]; [|rewrite (Bn x O I) in X; discriminate]. left. apply In_nth_error in I as (m & M).
        destruct (nth_error (up_nodes u) m) as [un|] eqn:Un.
        -- destruct (Fn m x un M Un) as (hh & Q). rewrite Q in X. injection X as <-. exists (Datatypes.S m). cbn [nth_error]. split; [exact M|]. rewrite nth_error_map, Un. reflexivity.
        -- exfalso. apply nth_error_None in Un. assert (m < length fp)%nat by (apply nth_error_Some; congruence). lia.
Qed.

Lemma fit_fair P cs g now t d t' : good t d -> fit_step P cs g now t t' -> fair_step P cs t t' /\ exists d', good t' d'.
Proof.
  intros G St. assert (H : fair_step P cs t t' /\ t' <> []).
  { destruct St as [t i l t' R E B L F NC|t i l t' E F|t i t' E NE|t i u t' h E RT NCo F ND FR].
    - split; [eapply fs_add; eassumption|]. intros ->. unfold leaf_at in L. rewrite tget_beyond in L by (cbn; lia). discriminate.
    - split; [eapply fs_update; eassumption|]. intros ->. destruct (c19_length P cs t d (g_size _ _ G) (g_small _ _ G) (good_small t d G)) as (Q & _). specialize (Q i l [] E).
      destruct (g_size _ _ G) as [X|X]; red in X; pose proof (pow2_S d); change (tlen []) with 0 in Q; rewrite <- Q in X; pose proof (N.pow_nonzero 2 d); lia.
    - split; [eapply fs_remove; eassumption|exact NE].
    - split; [eapply fs_merge; eassumption|]. intros ->. destruct (c19_length P cs t d (g_size _ _ G) (g_small _ _ G) (good_small t d G)) as (_ & Q). specialize (Q i u [] _ E).
      destruct (g_size _ _ G) as [X|X]; red in X; pose proof (pow2_S d); change (tlen []) with 0 in Q; rewrite <- Q in X; pose proof (N.pow_nonzero 2 d); lia. }
  destruct H as (H & NE). split; [exact H|]. destruct (history_good P cs t d t' G) as [Q|Q]; [|contradiction|exact Q].
  eapply th_cons; [apply th_nil|]. destruct H; [eapply ts_add|eapply ts_update|eapply ts_remove|eapply ts_merge]; eassumption.
Qed.

Lemma sound_member P cs g now t d : good t d -> sound P cs g now t -> verify_parent_hashes P cs t = Ok true -> (exists i l, leaf_at t i = Some l) -> joinable P cs g now t.
Proof.
  intros G S V M ctx <- <- RT. apply (verify_integrity_iff P t ctx now d (g_size _ _ G) (g_small _ _ G) (g_in _ _ G)).
  destruct (c31 t d (g_size _ _ G) (g_small _ _ G) M (so_no_repetition _ _ _ _ _ S)) as (creds & C & CI). constructor.
  - exact RT.
  - intros k j p. apply (proj1 (vph_iff P (gc_suite ctx) t d G) V).
  - exists creds. split; [exact C|]. intros i l L. split; [apply S, L|]. split; [|split].
    + apply CI. intros j m Lm. exact (so_credentials _ _ _ _ _ S j m i l Lm L).
    + intros lt. apply (so_lifetime _ _ _ _ _ S i l lt L).
    + intros e. apply (so_extensions _ _ _ _ _ S i l e L).
  - intros i i' l l' L L' Q. exact (so_signature_keys _ _ _ _ _ S i i' l l' L L' Q).
  - exact (so_encryption_keys _ _ _ _ _ S).
  - intros k j p u T I. split; [|exact (proj1 (uo_below t (g_unmerged _ _ G) k j p u T I))]. destruct (N.eq_dec k 0) as [->|]; [|lia].
    exfalso. rewrite node_at_leaf in T. exact (g_leaf _ _ G j p T).
  - intros k j p u k' j' p'. apply (uo_between t (g_unmerged _ _ G)).
Qed.
Lemma joinable_sound P cs g now t d ctx : good t d -> no_repetitions t -> gc_suite ctx = cs -> gc_group_id ctx = g -> verify_integrity P t ctx now = Ok tt ->
  sound P cs g now t /\ verify_parent_hashes P cs t = Ok true.
Proof.
  intros G NR <- <- V. apply (verify_integrity_iff P t ctx now d (g_size _ _ G) (g_small _ _ G) (g_in _ _ G)) in V as [V1 V2 (creds & C & V3) V4 V5 _ _]. split; [|apply (vph_iff P (gc_suite ctx) t d G); exact V2].
  constructor.
  - intros i l L. apply (V3 i l L).
  - intros i l lt L. apply (V3 i l L).
  - intros i l e L. apply (V3 i l L).
  - intros i l j m L Lm. destruct (c31 t d (g_size _ _ G) (g_small _ _ G) (ex_intro _ i (ex_intro _ l L)) NR) as (creds' & C' & CI). rewrite C in C'. apply Ok_inj in C'. subst creds'.
    apply (proj1 (CI (type_of m)) ltac:(apply (V3 j m Lm)) i l L).
  - exact NR.
  - intros i j l m L Lm Q. exact (V4 i j l m L Lm Q).
  - exact V5.
Qed.
Lemma fit_member P cs g now t d t' : good t d -> fit_step P cs g now t t' -> exists i l, leaf_at t' i = Some l.
Proof.
  intros G St. pose proof (good_usized t d G) as U. destruct St as [t i l t' R E B L F NC|t i l t' E F|t i t' E NE|t i u t' h E RT NCo F ND FR].
  - eauto.
  - destruct (N.lt_ge_cases i (2 ^ d)) as [Li|Li]; [|rewrite (update_out t d i l U Li) in E; discriminate].
    destruct (update_ok t d i l U Li) as (t2 & E2 & _ & H). rewrite E in E2. apply Ok_inj in E2. subst t2. exists i, l. unfold leaf_at. rewrite (proj1 (H (2 * i)) eq_refl). reflexivity.
  - destruct (N.lt_ge_cases i (2 ^ d)) as [Li|Li]; [|rewrite (remove_out t d i U Li) in E; discriminate].
    destruct (c18 t d i (g_size _ _ G) (g_small _ _ G) Li) as (t2 & E2 & B & Pa & K & O & C). rewrite E in E2. apply Ok_inj in E2. subst t2.
    assert (M : exists m, m <> i /\ ~ blank_at t m) by (destruct C as [(-> & _)|[(e & m & _ & _ & _ & A & A' & _)|(_ & m & A & A' & _)]]; [contradiction|eauto..]).
    destruct M as (m & A & A'). destruct (tget t (2 * m)) as [[l|p]|] eqn:T.
    + exists m, l. rewrite K by exact A. unfold leaf_at. rewrite T. reflexivity.
    + exfalso. exact (g_leaf _ _ G m p T).
    + exfalso. exact (A' T).
  - destruct (N.lt_ge_cases i (2 ^ d)) as [Li|Li]; [|rewrite (merge_out P cs t d i u U Li) in E; discriminate].
    apply (c25 P cs t d i u t' (good_shaped t d G) Li) in E. exists i, (up_leaf u). unfold leaf_at. rewrite (mg_leaf _ _ _ _ _ _ _ E). reflexivity.
Qed.

Lemma fit_keeps P cs g now t t' : fit_history P cs g now t t' -> forall d, good t d -> sound P cs g now t -> verify_parent_hashes P cs t = Ok true -> (exists i l, leaf_at t i = Some l) ->
  exists d', good t' d' /\ sound P cs g now t' /\ verify_parent_hashes P cs t' = Ok true /\ (exists i l, leaf_at t' i = Some l) /\ tree_history P cs t t'.
Proof.
  induction 1 as [t|t t1 t2 H IH St]; intros d G S V M; [exists d; repeat (split; [assumption|]); apply th_nil|].
  destruct (IH d G S V M) as (d1 & G1 & S1 & V1 & M1 & H1). destruct (fit_fair P cs g now t1 d1 t2 G1 St) as (F & d2 & G2). exists d2. split; [exact G2|].
  split; [exact (fit_sound P cs g now t1 d1 t2 G1 S1 St)|]. split; [apply (c70 P cs t1 d1 t2 G1 V1); eapply fh_cons; [apply fh_nil|exact F]|].
  split; [exact (fit_member P cs g now t1 d1 t2 G1 St)|]. eapply th_cons; [exact H1|]. destruct F; [eapply ts_add|eapply ts_update|eapply ts_remove|eapply ts_merge]; eassumption.
Qed.

Lemma c95_history P cs g now t d ctx t' : good t d -> no_repetitions t -> (exists i l, leaf_at t i = Some l) -> gc_suite ctx = cs -> gc_group_id ctx = g -> verify_integrity P t ctx now = Ok tt ->
  fit_history P cs g now t t' -> joinable P cs g now t'.
Proof.
  intros G NR M E1 E2 V H. destruct (joinable_sound P cs g now t d ctx G NR E1 E2 V) as (S & VP). destruct (fit_keeps P cs g now t t' H d G S VP M) as (d' & G' & S' & V' & M' & _).
  exact (sound_member P cs g now t' d' G' S' V' M').
Qed.
(** A group begins with one member. *)
Lemma single_leaf l i m : leaf_at [Some (Leaf l)] i = Some m -> i = 0 /\ m = l.
Proof.
  unfold leaf_at. destruct (N.eq_dec i 0) as [->|N]; [intros Q; injection Q as <-; auto|]. rewrite tget_beyond by (cbn; lia). discriminate.
Qed.
Lemma fit_single P cs g now l : fit P cs g now [] 0 l -> sound P cs g now [Some (Leaf l)].
Proof.
  intros [F1 F2 F3 F4 F5 F6 F7 F8]. constructor.
  - intros i m L. apply single_leaf in L as (-> & ->). exact F1.
  - intros i m lt L. apply single_leaf in L as (-> & ->). apply F2.
  - intros i m e L. apply single_leaf in L as (-> & ->). apply F3.
  - intros i m j m' L L'. apply single_leaf in L as (-> & ->). apply single_leaf in L' as (-> & ->). exact F4.
  - intros i m L. apply single_leaf in L as (-> & ->). exact F6.
  - intros i j m m' L L' _. apply single_leaf in L as (-> & ->). apply single_leaf in L' as (-> & ->). reflexivity.
  - intros x x' n n' X X' _. assert (Z : forall y n, tget [Some (Leaf l)] y = Some n -> y = 0).
    { intros y n0 Y. destruct (N.eq_dec y 0) as [->|N]; [reflexivity|]. rewrite tget_beyond in Y by (cbn; lia). discriminate. }
    rewrite (Z x n X), (Z x' n' X'). reflexivity.
Qed.
Lemma c95_newcomer P cs g now l t p rest ctx : fit P cs g now [] 0 l -> fit_history P cs g now [Some (Leaf l)] t -> wf_tree t -> se_ratchet_tree t = Ok p ->
  gc_suite ctx = cs -> gc_group_id ctx = g -> root_tree_hash P cs t = Ok (gc_tree_hash ctx) ->
  exists t', de_ratchet_tree (p ++ rest) = Ok (t', rest) /\ (forall x, tget t' x = tget t x) /\ verify_integrity P t' ctx now = Ok tt.
Proof.
  intros F H W Se E1 E2 RT. assert (V : verify_parent_hashes P cs [Some (Leaf l)] = Ok true).
  { apply (c70_leaves P cs _ 0 (good_single l)). intros x q X. destruct (N.eq_dec x 0) as [->|N]; [discriminate|]. rewrite tget_beyond in X by (cbn; lia). discriminate. }
  destruct (fit_keeps P cs g now _ t H 0 (good_single l) (fit_single P cs g now l F) V) as (d' & G' & S' & V' & (i & m & M') & TH); [exists 0, l; reflexivity|].
  destruct (c73 P cs t p rest) as (t' & D & Q & _ & VI & _); try assumption.
  - exists l. split; [exact TH|]. intros ->. unfold leaf_at in M'. rewrite tget_beyond in M' by (cbn; lia). discriminate.
  - exists t'. split; [exact D|]. split; [exact Q|]. apply VI. apply (sound_member P cs g now t d' G' S' V'); eauto.
Qed.
