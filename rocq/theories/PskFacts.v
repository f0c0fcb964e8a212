(** Proofs about who can compute a PSK secret. *)
From Verif Require Import CodecLib SecretFacts KeyFacts ForwardFacts ExProvider SpecPsk.
From Coq Require Import ZifyBool ZifyNat ZifyN.
Local Open Scope N_scope.

(** A chain, its list taken apart at the end. *)
Lemma chain_last k n l id psk s' : psk_chain wrapped k n (l ++ [(id, psk)]) s' ->
  exists s ex raw inp, psk_chain wrapped k n l s /\ psk_input wrapped k n (N.of_nat (length l)) id psk ex raw inp /\ k_extract k s inp = Ok s'.
Proof.
  intros H. inversion H as [E|l0 id0 psk0 s ex raw inp s0 C I X E]; [destruct l; discriminate|]. apply app_inj_tail in E as [-> E]. injection E as -> ->. eauto 8.
Qed.
Lemma chain_nil k n s : psk_chain wrapped k n [] s -> s = zero_bytes (k_extract_size k).
Proof. intros H. inversion H as [|l id psk ? ? ? ? ? _ _ _ E]; [reflexivity|]. destruct l; discriminate. Qed.

Lemma know_chain k S D l1 id psk : forall l2 l4 s, let l := l1 ++ (id, psk) :: l2 ++ l4 in
  psk_chain wrapped k (N.of_nat (length l)) (l1 ++ (id, psk) :: l2) s -> knows k S D s ->
  knows k S D psk \/ psk_leak k S l1 id psk (l2 ++ l4) \/ clash k D (psk_made k l).
Proof.
  intros l2. induction l2 as [|[id' psk'] l2 IH] using rev_ind; intros l4 s l C N.
  - pose proof C as C0. apply chain_last in C as (s0 & ex & raw & inp & C & I & X). pose proof I as (X1 & X2 & _ & X3).
    assert (M : forall c, c = CExtract (zero_bytes (k_extract_size k)) psk \/ c = CExpand ex (kdf_label (str "derived psk") raw (nh k)) (nh k) \/ c = CExtract inp s0 -> psk_made k l c).
    { intros c Q. exists l1, id, psk, l4, s0, ex, raw, inp. split; [reflexivity|]. auto. }
    destruct (step_back k S D (psk_made k l) (CExtract inp s0) s N) as [G|[G|N1]]; [apply M; auto|exact X|right; left; right; exists [], l4, s; auto|auto|].
    destruct (step_back k S D (psk_made k l) (CExpand ex (kdf_label (str "derived psk") raw (nh k)) (nh k)) inp (N1 inp (or_introl eq_refl))) as [G|[G|N2]];
      [apply M; auto|exact X3|right; left; left; exists ex, raw, inp; auto|auto|].
    destruct (step_back k S D (psk_made k l) (CExtract (zero_bytes (k_extract_size k)) psk) ex (N2 ex eq_refl)) as [G|[G|N3]];
      [apply M; auto|exact X1|right; left; left; exists ex, raw, inp; auto|auto|]. left. apply N3. right. reflexivity.
  - pose proof C as C0. rewrite app_comm_cons, app_assoc in C. apply chain_last in C as (s0 & ex & raw & inp & C & I & X).
    assert (EL : l = l1 ++ (id, psk) :: l2 ++ (id', psk') :: l4) by (unfold l; rewrite <- app_assoc; reflexivity).
    destruct (step_back k S D (psk_made k l) (CExtract inp s0) s N) as [G|[G|N1]].
    + exists (l1 ++ (id, psk) :: l2), id', psk', l4, s0, ex, raw, inp. split; [rewrite EL, <- app_assoc; reflexivity|]. auto.
    + exact X.
    + right. left. right. exists (l2 ++ [(id', psk')]), l4, s. auto.
    + auto.
    + rewrite <- app_assoc. cbn [app]. rewrite EL in C |- *. apply (IH ((id', psk') :: l4) s0 C). apply N1. right. reflexivity.
Qed.

Lemma psk_secret_chain P cs k ids psks s : p_hpke P cs = Ok k -> extract_psk_secret P cs ids psks = Ok s ->
  length ids = length psks /\ psk_chain wrapped k (N.of_nat (length (combine ids psks))) (combine ids psks) s.
Proof.
  intros K E. assert (L : length ids = length psks). { unfold extract_psk_secret in E. destruct (length ids =? length psks)%nat eqn:Q; [apply Nat.eqb_eq, Q|discriminate]. }
  split; [exact L|]. rewrite combine_length, <- L, Nat.min_id. apply (c39_fold P cs k ids psks s K L), E.
Qed.

Lemma c102_every P cs k S D ids psks s l1 id psk l2 : p_hpke P cs = Ok k -> extract_psk_secret P cs ids psks = Ok s -> combine ids psks = l1 ++ (id, psk) :: l2 ->
  knows k S D s -> knows k S D psk \/ psk_leak k S l1 id psk l2 \/ clash k D (psk_made k (combine ids psks)).
Proof.
  intros K E Q N. apply (psk_secret_chain P cs k) in E as (_ & C); [|exact K]. rewrite Q in *. pose proof (know_chain k S D l1 id psk l2 [] s) as H. rewrite app_nil_r in H. exact (H C N).
Qed.

Lemma chain_can k S D n : can k S D (zero_bytes (k_extract_size k)) -> forall l s, psk_chain wrapped k n l s -> (forall id psk, In (id, psk) l -> can k S D psk) -> can k S D s.
Proof.
  intros Z l s C. induction C as [|l id psk s ex raw inp s' C IH (X1 & X2 & _ & X3) X]; intros A; [exact Z|].
  apply (can_call k S D (CExtract inp s) s' X). intros y [-> | ->]; [|apply IH; intros i p H; apply (A i p), in_or_app; auto].
  apply (can_call k S D (CExpand ex (kdf_label (str "derived psk") raw (nh k)) (nh k)) inp X3). intros y ->. apply (can_call k S D (CExtract (zero_bytes (k_extract_size k)) psk) ex X1). intros y [-> | ->]; [exact Z|]. apply (A id). apply in_or_app. right. left. reflexivity.
Qed.
Lemma c102_all P cs k S D ids psks s : p_hpke P cs = Ok k -> extract_psk_secret P cs ids psks = Ok s -> knows k S D (zero_bytes (k_extract_size k)) ->
  (forall psk, In psk psks -> knows k S D psk) -> exists D', knows k S D' s.
Proof.
  intros K E Z A. apply (psk_secret_chain P cs k) in E as (_ & C); [|exact K]. destruct (chain_can k S D _ (can_knows _ _ _ _ Z) _ _ C) as (D' & _ & X); [|eauto].
  intros id psk I. apply can_knows, A. exact (in_combine_r _ _ _ _ I).
Qed.

(** ** Epochs *)

Lemma enough_needs k S D init l1 e : forall l2, enough k S D init (l1 ++ e :: l2) -> sealed k S e l2 -> knows k S D (psk_or_zero k (er_psk e)).
Proof.
  intros l2. induction l2 as [|y l2 IH] using rev_ind; intros X (NL & NE & NI).
  - inversion X as [l0 e0 Y Q|l0 e0 Y Z Q|e0 _ Y Z Q|l0 e0 e1 _ Y Z Q|l0 e0 e1 _ Y Z Q]; [..|].
    + apply app_inj_tail in Q as [_ ->]. destruct (NL e (or_introl eq_refl) Y).
    + apply app_inj_tail in Q as [_ ->]. exact Z.
    + change [e0] with ([] ++ [e0]) in Q. apply app_inj_tail in Q as [_ ->]. exact Z.
    + apply app_inj_tail in Q as [_ ->]. exact Z.
    + apply app_inj_tail in Q as [_ ->]. exact Z.
  - rewrite app_comm_cons, removelast_last in NI. rewrite app_comm_cons, app_assoc in X. inversion X as [l0 e0 Y Q|l0 e0 Y Z Q|e0 _ Y Z Q|l0 e0 e1 Y _ Z Q|l0 e0 e1 Y _ Z Q]; [..|].
    + apply app_inj_tail in Q as [_ ->]. destruct (NL y); [right; apply in_or_app; right; left; reflexivity|exact Y].
    + apply app_inj_tail in Q as [_ ->]. destruct (NE y); [apply in_or_app; right; left; reflexivity|exact Y].
    + change [e0] with ([] ++ [e0]) in Q. apply app_inj_tail in Q as [Q _]. destruct l1; discriminate.
    + apply app_inj_tail in Q as [Q _]. destruct (NI e0); [|exact Y]. destruct (exists_last (l := e :: l2)) as (a & b & E); [discriminate|]. rewrite E in Q |- *. rewrite app_assoc in Q. apply app_inj_tail in Q as [_ ->].
      apply in_or_app. right. left. reflexivity.
    + apply app_inj_tail in Q as [Q _]. rewrite Q in Y. apply IH; [exact Y|]. split; [|split].
      * intros x I. apply NL. destruct I as [->|I]; [left; reflexivity|right; apply in_or_app; auto].
      * intros x I. apply NE, in_or_app. auto.
      * intros x I. apply NI. clear - I. revert I. generalize (e :: l2) as m. intros m. induction m as [|a [|b m] IH]; [intros []|intros []|]. intros [->|I]; [left; reflexivity|right; apply IH, I].
Qed.

Lemma c102_lasting P cs k S D init l1 e l2 ids psks p1 id psk p2 lab x : p_hpke P cs = Ok k -> lifetime_of P cs init (l1 ++ e :: l2) ->
  extract_psk_secret P cs ids psks = Ok (er_psk e) -> er_psk e <> [] -> combine ids psks = p1 ++ (id, psk) :: p2 ->
  ~ knows k S D psk -> ~ psk_leak k S p1 id psk p2 -> sealed k S e l2 ->
  In lab schedule_labels -> derive_secret P cs (er_epoch (last l2 e)) lab = Ok x -> ~ S x ->
  knows k S D x -> clash k D (fun c => all_made k (l1 ++ e :: l2) c \/ psk_made k (combine ids psks) c).
Proof.
  intros K L EP NE Q NP NL SE I E NX N. assert (SP : exists l0, l1 ++ e :: l2 = l0 ++ [last l2 e]).
  { destruct l2 as [|y l2] using rev_ind; [exists l1; reflexivity|]. clear. rewrite last_last. exists (l1 ++ e :: l2). rewrite <- app_assoc. reflexivity. }
  destruct SP as (l0 & SP). rewrite SP in L.
  destruct (c83_only P cs k S D init l0 (last l2 e) lab x K L I E N) as [X|[X|X]]; [contradiction| |rewrite SP; revert X; apply clash_mono; auto].
  rewrite <- SP in X. apply (enough_needs k S D init l1 e l2 X) in SE. assert (ZE : psk_or_zero k (er_psk e) = er_psk e) by (destruct (er_psk e); [contradiction|reflexivity]). rewrite ZE in SE.
  destruct (c102_every P cs k S D ids psks (er_psk e) p1 id psk p2 K EP Q SE) as [Y|[Y|Y]]; [contradiction..|]. revert Y. apply clash_mono. auto.
Qed.

Lemma c102_resumption P cs k S D init l1 e l2 ids psks p1 id psk p2 lab x init' l' o : p_hpke P cs = Ok k -> lifetime_of P cs init (l1 ++ e :: l2) ->
  extract_psk_secret P cs ids psks = Ok (er_psk e) -> er_psk e <> [] -> combine ids psks = p1 ++ (id, psk) :: p2 ->
  lifetime_of P cs init' (l' ++ [o]) -> derive_secret P cs (er_epoch o) label_resumption = Ok psk ->
  ~ psk_leak k S p1 id psk p2 -> sealed k S e l2 -> In lab schedule_labels -> derive_secret P cs (er_epoch (last l2 e)) lab = Ok x -> ~ S x ->
  knows k S D x ->
  S psk \/ enough k S D init' (l' ++ [o]) \/ clash k D (fun c => all_made k (l1 ++ e :: l2) c \/ psk_made k (combine ids psks) c \/ all_made k (l' ++ [o]) c).
Proof.
  intros K L EP NE Q LO EO NL SE I E NX N. assert (SP : exists l0, l1 ++ e :: l2 = l0 ++ [last l2 e]).
  { destruct l2 as [|y l2] using rev_ind; [exists l1; reflexivity|]. clear. rewrite last_last. exists (l1 ++ e :: l2). rewrite <- app_assoc. reflexivity. }
  destruct SP as (l0 & SP). rewrite SP in L.
  destruct (c83_only P cs k S D init l0 (last l2 e) lab x K L I E N) as [X|[X|X]]; [contradiction| |rewrite SP; right; right; revert X; apply clash_mono; auto].
  rewrite <- SP in X. apply (enough_needs k S D init l1 e l2 X) in SE. assert (ZE : psk_or_zero k (er_psk e) = er_psk e) by (destruct (er_psk e); [contradiction|reflexivity]). rewrite ZE in SE.
  destruct (c102_every P cs k S D ids psks (er_psk e) p1 id psk p2 K EP Q SE) as [Y|[Y|Y]]; [|contradiction|right; right; revert Y; apply clash_mono; auto].
  assert (IR : In label_resumption schedule_labels) by (cbn; auto 12).
  destruct (c83_only P cs k S D init' l' o label_resumption psk K LO IR EO Y) as [Z|[Z|Z]]; [auto|auto|]. right. right. revert Z. apply clash_mono. auto.
Qed.

(** ** Examples *)

Definition ex_next (before commit psk : bytes) : epoch_run :=
  let j := ok_or [] (extract_joiner_secret ideal ex_gc before commit) in
  let e := ok_or [] (extract_epoch_secret ideal ex_gc j psk) in EpochRun ex_gc before commit psk j e (ok_or [] (derive_secret ideal Suite2 e label_init)).
Definition ex_psk_secret : bytes := ok_or [] (extract_psk_secret ideal Suite2 [ex_psk; ex_psk2] [str "p"; str "q"]).
Definition ex_pe2 : epoch_run := ex_next (er_init ex_epoch1) (str "commit two") ex_psk_secret.
Definition ex_pe3 : epoch_run := ex_next (er_init ex_pe2) (str "commit three") [].
(** Everything but the second PSK. *)
Definition ex_one_psk (b : bytes) : Prop := In b [er_init ex_epoch1; str "commit two"; str "commit three"; str "p"; zero_bytes 4; er_joiner ex_pe2].
Lemma ex_runs before commit psk : match extract_joiner_secret ideal ex_gc before commit with Ok j => match extract_epoch_secret ideal ex_gc j psk with Ok e => match derive_secret ideal Suite2 e label_init with Ok _ => True | _ => False end | _ => False end | _ => False end ->
  runs ideal Suite2 (ex_next before commit psk).
Proof.
  unfold ex_next. destruct (extract_joiner_secret ideal ex_gc before commit) as [j| | |] eqn:J; try contradiction. cbn [ok_or]. destruct (extract_epoch_secret ideal ex_gc j psk) as [e| | |] eqn:X; try contradiction. cbn [ok_or].
  destruct (derive_secret ideal Suite2 e label_init) as [i| | |] eqn:I; try contradiction. intros _. split; [reflexivity|]. split; [exact J|]. split; [exact X|exact I].
Qed.
Lemma ex_plifetime : lifetime_of ideal Suite2 (str "init") ([ex_epoch1] ++ ex_pe2 :: [ex_pe3]).
Proof.
  apply (lt_next ideal Suite2 (str "init") [ex_epoch1] ex_pe2 ex_pe3); [|apply ex_runs; vm_compute; exact I|reflexivity].
  apply (lt_next ideal Suite2 (str "init") [] ex_epoch1 ex_pe2); [|apply ex_runs; vm_compute; exact I|reflexivity].
  apply lt_first; [|reflexivity]. apply (lifetime_runs _ _ _ _ (proj2 ex_lifetime)). left. reflexivity.
Qed.
Lemma out_of L b : bytes_in b L = false -> ~ In b L.
Proof. unfold bytes_in. destruct (in_dec _ b L); [discriminate|auto]. Qed.
Lemma not_known (S : bytes -> Prop) D b : ~ S b -> (forall c, call ideal_hpke c <> Ok b) -> ~ knows ideal_hpke S D b.
Proof. intros A B K. inversion K; subst; [contradiction|eapply B; eassumption]. Qed.

(** Decides that none of a finite list of values is in a finite list of given ones. *)
Ltac no_late := intros [X|(m & Em & X)]; [revert X; apply out_of; vm_compute; reflexivity|]; vm_compute in Em; apply Ok_inj in Em; rewrite <- Em in X; revert X; apply out_of; vm_compute; reflexivity.

Lemma c102_example : lifetime_of ideal Suite2 (str "init") ([ex_epoch1] ++ ex_pe2 :: [ex_pe3]) /\
  extract_psk_secret ideal Suite2 [ex_psk; ex_psk2] [str "p"; str "q"] = Ok (er_psk ex_pe2) /\
  derive_secret ideal Suite2 (er_epoch ex_pe2) label_encryption = Ok (ex_enc ex_pe2) /\ derive_secret ideal Suite2 (er_epoch ex_pe3) label_encryption = Ok (ex_enc ex_pe3) /\
  (forall D, ~ knows ideal_hpke ex_one_psk D (er_psk ex_pe2)) /\ (forall D, ~ knows ideal_hpke ex_one_psk D (ex_enc ex_pe3)) /\
  (exists D, knows ideal_hpke (fun b => ex_one_psk b \/ b = str "q") D (er_psk ex_pe2)) /\ sealed ideal_hpke ex_one_psk ex_pe2 [ex_pe3].
Proof.
  assert (EP : extract_psk_secret ideal Suite2 [ex_psk; ex_psk2] [str "p"; str "q"] = Ok (er_psk ex_pe2)) by (vm_compute; reflexivity).
  assert (E2 : derive_secret ideal Suite2 (er_epoch ex_pe2) label_encryption = Ok (ex_enc ex_pe2)) by (vm_compute; reflexivity).
  assert (E3 : derive_secret ideal Suite2 (er_epoch ex_pe3) label_encryption = Ok (ex_enc ex_pe3)) by (vm_compute; reflexivity).
  assert (EN : In label_encryption schedule_labels) by (right; right; left; reflexivity).
  assert (NQ : forall D, ~ knows ideal_hpke ex_one_psk D (str "q")) by (intros D; apply not_known; [apply out_of; vm_compute; reflexivity|intros []; discriminate]).
  assert (NL : ~ psk_leak ideal_hpke ex_one_psk [(ex_psk, str "p")] ex_psk2 (str "q") []).
  { assert (NX : forall raw ex inp, psk_input wrapped ideal_hpke 2 1 ex_psk2 (str "q") ex raw inp -> ~ ex_one_psk ex /\ ~ ex_one_psk inp).
    { intros raw ex inp (X1 & X2 & _ & X3). vm_compute in X1. apply Ok_inj in X1. subst ex. vm_compute in X2. apply Ok_inj in X2. subst raw. vm_compute in X3. apply Ok_inj in X3. subst inp. split; apply out_of; vm_compute; reflexivity. }
    intros [(ex & raw & inp & X & [G|G])|(l3 & l4 & s & Q & C & G)].
    - exact (proj1 (NX _ _ _ X) G).
    - exact (proj2 (NX _ _ _ X) G).
    - symmetry in Q. apply app_eq_nil in Q as [-> ->].
      assert (Q : Ok s = extract_psk_secret ideal Suite2 [ex_psk; ex_psk2] [str "p"; str "q"]) by (symmetry; apply (c39_fold ideal Suite2 ideal_hpke [ex_psk; ex_psk2] [str "p"; str "q"] s eq_refl eq_refl), C).
      rewrite EP in Q. apply Ok_inj in Q. subst s. revert G. apply out_of. vm_compute. reflexivity. }
  assert (SE : sealed ideal_hpke ex_one_psk ex_pe2 [ex_pe3]).
  { split; [|split].
    - intros x [<-|[<-|[]]]; no_late.
    - intros x [<-|[]]. no_late.
    - intros x [<-|[]]. apply out_of. vm_compute. reflexivity. }
  split; [exact ex_plifetime|]. split; [exact EP|]. split; [exact E2|]. split; [exact E3|]. split; [|split; [|split]].
  - intros D N. destruct (c102_every ideal Suite2 ideal_hpke ex_one_psk D [ex_psk; ex_psk2] [str "p"; str "q"] _ [(ex_psk, str "p")] ex_psk2 (str "q") [] eq_refl EP eq_refl N) as [X|[X|X]];
      [exact (NQ D X)|exact (NL X)|revert X; apply ideal_no_clash, ideal_injective].
  - intros D N. eapply (ideal_no_clash ideal_hpke D); [exact ideal_injective|].
    eapply (c102_lasting ideal Suite2 ideal_hpke ex_one_psk D (str "init") [ex_epoch1] ex_pe2 [ex_pe3] [ex_psk; ex_psk2] [str "p"; str "q"] [(ex_psk, str "p")] ex_psk2 (str "q") [] label_encryption (ex_enc ex_pe3)
      eq_refl ex_plifetime EP); [vm_compute; discriminate|reflexivity|apply NQ|exact NL|exact SE|exact EN|exact E3|apply out_of; vm_compute; reflexivity|exact N].
  - apply (c102_all ideal Suite2 ideal_hpke (fun b => ex_one_psk b \/ b = str "q") [] [ex_psk; ex_psk2] [str "p"; str "q"] _ eq_refl EP); [apply kn_given; left; cbn; auto 10|].
    intros psk [<-|[<-|[]]]; apply kn_given; [left; cbn; auto 10|right; reflexivity].
  - exact SE.
Qed.

(** A second group whose first epoch mixes in the resumption secret of an epoch of the first. *)
Definition ex_resumption : bytes := ok_or [] (derive_secret ideal Suite2 (er_epoch ex_epoch1) label_resumption).
Definition ex_branch : epoch_run := ex_next (str "other") (zero_bytes 4) (ok_or [] (extract_psk_secret ideal Suite2 [ex_psk] [ex_resumption])).
Definition ex_stranger (b : bytes) : Prop := In b [str "other"; zero_bytes 4; er_joiner ex_branch].
Lemma c102_resumption_example : lifetime_of ideal Suite2 (str "other") ([] ++ ex_branch :: []) /\ lifetime_of ideal Suite2 (str "init") ([] ++ [ex_epoch1]) /\
  extract_psk_secret ideal Suite2 [ex_psk] [ex_resumption] = Ok (er_psk ex_branch) /\ derive_secret ideal Suite2 (er_epoch ex_epoch1) label_resumption = Ok ex_resumption /\
  forall D, ~ knows ideal_hpke ex_stranger D (ex_enc ex_branch).
Proof.
  assert (L : lifetime_of ideal Suite2 (str "other") ([] ++ ex_branch :: [])) by (apply lt_first; [apply ex_runs; vm_compute; exact I|reflexivity]).
  assert (L1 : lifetime_of ideal Suite2 (str "init") ([] ++ [ex_epoch1])) by (apply lt_first; [|reflexivity]; apply (lifetime_runs _ _ _ _ (proj2 ex_lifetime)); left; reflexivity).
  assert (EP : extract_psk_secret ideal Suite2 [ex_psk] [ex_resumption] = Ok (er_psk ex_branch)) by (vm_compute; reflexivity).
  assert (ER : derive_secret ideal Suite2 (er_epoch ex_epoch1) label_resumption = Ok ex_resumption) by (vm_compute; reflexivity).
  assert (EN : In label_encryption schedule_labels) by (right; right; left; reflexivity).
  split; [exact L|]. split; [exact L1|]. split; [exact EP|]. split; [exact ER|]. intros D N.
  assert (R : ex_stranger ex_resumption \/ enough ideal_hpke ex_stranger D (str "init") ([] ++ [ex_epoch1]) \/
     clash ideal_hpke D (fun c => all_made ideal_hpke ([] ++ ex_branch :: []) c \/ psk_made ideal_hpke (combine [ex_psk] [ex_resumption]) c \/ all_made ideal_hpke ([] ++ [ex_epoch1]) c)).
  { eapply (c102_resumption ideal Suite2 ideal_hpke ex_stranger D (str "other") [] ex_branch [] [ex_psk] [ex_resumption] [] ex_psk ex_resumption [] label_encryption (ex_enc ex_branch) (str "init") [] ex_epoch1
      eq_refl L EP); [vm_compute; discriminate|reflexivity|exact L1|exact ER| | |exact EN|vm_compute; reflexivity|apply out_of; vm_compute; reflexivity|exact N].
    - intros [(ex & raw & inp & (X1 & X2 & _ & X3) & G)|(l3 & l4 & s & Q & C & G)].
      + vm_compute in X1. apply Ok_inj in X1. subst ex. vm_compute in X2. apply Ok_inj in X2. subst raw. vm_compute in X3. apply Ok_inj in X3. subst inp. destruct G as [G|G]; revert G; apply out_of; vm_compute; reflexivity.
      + symmetry in Q. apply app_eq_nil in Q as [-> ->].
        assert (Q : Ok s = extract_psk_secret ideal Suite2 [ex_psk] [ex_resumption]) by (symmetry; apply (c39_fold ideal Suite2 ideal_hpke [ex_psk] [ex_resumption] s eq_refl eq_refl), C).
        rewrite EP in Q. apply Ok_inj in Q. subst s. revert G. apply out_of. vm_compute. reflexivity.
    - split; [|split]; [intros x [<-|[]]; no_late|intros x []|intros x []]. }
  destruct R as [X|[X|X]]; [revert X; apply out_of; vm_compute; reflexivity| |revert X; apply ideal_no_clash, ideal_injective].
  apply enough_leak in X as [X|[(e & [<-|[]] & [X|X])|(l1 & e & l2 & Q & N2 & X)]].
  - revert X. apply not_known; [apply out_of; vm_compute; reflexivity|intros []; discriminate].
  - revert X. no_late.
  - revert X. no_late.
  - destruct l1 as [|? [|]]; [|destruct l2; discriminate..]. destruct l2; [contradiction|discriminate].
Qed.
