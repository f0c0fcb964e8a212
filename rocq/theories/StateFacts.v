(** Proofs about what the state of a client gives away. *)
From Verif Require Import CodecLib TreeMathProofs SecretFacts KeyFacts SpecLocked SpecState LockedFacts ForwardFacts.
Local Open Scope N_scope.

Lemma edge_label h d q l c n p : edge h d q l c n p -> ~ In l schedule_labels.
Proof.
  intros A I. destruct A as [p b|p l|p l g|p l g|p l g]; try destruct l; repeat (destruct I as [Q|I]; [discriminate Q|]); destruct I.
Qed.
Lemma nh_small h : nh h < 65536.
Proof. apply N.mod_lt. discriminate. Qed.
Lemma tree_not_label h d E D epoch q s l c n p b lab : gets h d E q s -> edge h d q l c n p -> call h (CExpand s (kdf_label l c n) n) = Ok b ->
  In lab schedule_labels -> call h (CExpand epoch (kdf_label lab [] (nh h)) (nh h)) = Ok b -> clash h D (message_made h d E epoch).
Proof.
  intros G A C I C'. exists (CExpand s (kdf_label l c n) n), (CExpand epoch (kdf_label lab [] (nh h)) (nh h)), b.
  split; [right; left; eapply gets_made; eassumption|]. split; [right; right; eauto|]. split; [|auto]. intros Q. apply call_inj in Q as (_ & Q & _).
  destruct (edge_fits _ _ _ _ _ _ _ A) as (F1 & F2 & F3). apply kdf_label_inj in Q as (-> & _ & _); [|assumption|assumption|apply schedule_fits, I|reflexivity|exact F3|apply nh_small].
  exact (edge_label _ _ _ _ _ _ _ A I).
Qed.

Lemma tree_made_label h d E c epoch lab : tree_made h d E c -> In lab schedule_labels -> c <> CExpand epoch (kdf_label lab [] (nh h)) (nh h).
Proof.
  intros (p & s & _ & H) I Q.
  assert (X : exists s' l x n, c = CExpand s' (kdf_label l x n) n /\ fits30 (mls_label l) /\ fits30 x /\ n < 65536 /\ ~ In l schedule_labels).
  { assert (T : forall a, a mod 65536 < 65536) by (intros; apply N.mod_lt; discriminate).
    assert (F4 : forall g, fits30 (be 4 g)) by (intros; unfold fits30; rewrite be_length; reflexivity).
    destruct H as [(_ & b & ->)|(_ & l & [->|(r & g & q & _ & _ & _ & [->|[->| ->]])])]; eexists _, _, _, _; (split; [reflexivity|]).
    - split; [reflexivity|]. split; [destruct b; reflexivity|]. split; [apply T|]. clear. intros I. repeat (destruct I as [Q|I]; [discriminate Q|]). destruct I.
    - split; [destruct l; reflexivity|]. split; [reflexivity|]. split; [apply T|]. clear. intros I. destruct l; repeat (destruct I as [Q|I]; [discriminate Q|]); destruct I.
    - split; [reflexivity|]. split; [apply F4|]. split; [apply T|]. clear. intros I. repeat (destruct I as [Q|I]; [discriminate Q|]). destruct I.
    - split; [reflexivity|]. split; [apply F4|]. split; [apply T|]. clear. intros I. repeat (destruct I as [Q|I]; [discriminate Q|]). destruct I.
    - split; [reflexivity|]. split; [apply F4|]. split; [apply T|]. clear. intros I. repeat (destruct I as [Q|I]; [discriminate Q|]). destruct I. }
  destruct X as (s' & l & x & n & Q' & F1 & F2 & F3 & NI). rewrite Q' in Q. apply call_inj in Q as (_ & Q & _).
  apply kdf_label_inj in Q as (-> & _ & _); [exact (NI I)|assumption|assumption|apply schedule_fits, I|reflexivity|exact F3|apply nh_small].
Qed.
Lemma clash_more k D D' (m m' : kdf_call -> Prop) : incl D D' -> (forall c, m c -> m' c) -> clash k D m -> clash k D' m'.
Proof. intros HD H (c & c' & b & A & B & Q). exists c, c', b. split; [destruct A; auto|]. split; [destruct B; auto|]. exact Q. Qed.

Section Tree.
  Context (h : hpke_alg) (d : N) (E epoch : bytes) (D : list kdf_call).
  Hypothesis HE : call h (CExpand epoch (kdf_label label_encryption [] (nh h)) (nh h)) = Ok E.
  Let enc_in : In label_encryption schedule_labels := or_intror (or_intror (or_introl eq_refl)).

  Lemma tree_once p p' b : gets h d E p b -> gets h d E p' b -> p = p' \/ clash h D (message_made h d E epoch).
  Proof.
    intros G G'. destruct (gets_once h d E [] p b G p' G') as [Q|[X|(c & [[]|M] & C)]]; [auto| |].
    - right. eapply clash_more; [| |exact X]; [intros c []|]. intros c M. left. exact M.
    - right. exists c, (CExpand epoch (kdf_label label_encryption [] (nh h)) (nh h)), E. split; [right; left; exact M|]. split; [right; right; exists label_encryption; auto|].
      split; [exact (tree_made_label _ _ _ _ _ _ M enc_in)|auto].
  Qed.

  Lemma tree_back (S : bytes -> Prop) (kept : pos -> Prop) :
    (forall p b, p <> PNode [] -> gets h d E p b -> S b -> (exists q, kept q /\ gets h d E q b) \/ clash h D (message_made h d E epoch)) ->
    forall p b, gets h d E p b -> knows h S D b -> (exists q, kept q /\ above h d q p) \/ clash h D (message_made h d E epoch) \/ knows h S D E.
  Proof.
    intros HS p b G. induction G as [|q s l c n p b G IH A C]; intros K; [auto|].
    pose proof (gets_made _ _ _ _ _ _ _ _ _ G A) as M. pose proof (g_edge _ _ _ _ _ _ _ _ _ _ G A C) as Gp.
    assert (NR : p <> PNode []) by (intros ->; eapply edge_not_root; exact A).
    destruct (step_back _ _ _ (message_made h d E epoch) _ _ K (or_introl M) C) as [Sb|[X|N]]; [|auto|].
    - destruct (HS p b NR Gp Sb) as [(q' & Kq & G')|X]; [|auto]. destruct (tree_once p q' b Gp G') as [->|X]; [|auto]. left. exists q'. split; [exact Kq|constructor].
    - destruct (IH (N s eq_refl)) as [(q0 & K0 & A0)|X]; [|auto]. left. exists q0. split; [exact K0|]. econstructor; eassumption.
  Qed.
End Tree.

Lemma gets_tree h d E p b : gets h d E p b -> p <> PNode [] -> exists c, tree_made h d E c /\ call h c = Ok b.
Proof. intros G NR. destruct G as [|q s l c n p b G A C]; [congruence|]. eexists. split; [eapply gets_made; eassumption|exact C]. Qed.
Lemma message_in P cs k d E e l c : p_hpke P cs = Ok k -> runs P cs e -> In e l -> message_made k d E (er_epoch e) c -> all_made k l c \/ tree_made k d E c.
Proof.
  intros K R I [M|(lab & IL & ->)]; [auto|]. left. exists e. split; [exact I|]. destruct (epoch_steps P cs k e K R) as (ex & me & raw & A & B & G & _).
  exists ex, me, raw. split; [exact A|]. split; [exact B|]. split; [exact G|]. do 4 right. eauto.
Qed.

Lemma state_knows P cs k d E t e kept S0 D it b : p_hpke P cs = Ok k -> d <= 31 -> derive_secret P cs (er_epoch e) label_encryption = Ok E ->
  new_secret_tree P cs (2 ^ d) E = Ok t -> (forall c x, tree_made k d E c -> call k c = Ok x -> ~ S0 x) ->
  item_value P cs t it b -> knows k (fun x => held P cs t e kept x \/ S0 x) D b ->
  (exists a, kept a /\ follows a it) \/ clash k D (message_made k d E (er_epoch e)) \/ knows k (fun x => held P cs t e kept x \/ S0 x) D E.
Proof.
  intros K L EE T N0 V KN. rewrite (derive_expand P cs k) in EE by (exact K || reflexivity).
  destruct (item_gets P cs k d E t it b K L T V) as (p & Pp & G).
  destruct (tree_back k d E (er_epoch e) D EE (fun x => held P cs t e kept x \/ S0 x) (fun q => exists a p', kept a /\ position 0 p' = leaf_of a /\ q = pos_of a p')) with (p := pos_of it p) (b := b) as [(q & (a & p' & Ka & Pa & ->) & A)|X]; [|exact G|exact KN| |right; exact X].
  - intros p0 x NR G0 [[(lab & IL & _ & H)|(a & Ka & Va)]|H].
    + right. rewrite (derive_expand P cs k) in H by (exact K || apply schedule_fits, IL). destruct G0 as [|q s l c n p0 x G0 A C]; [congruence|]. eapply tree_not_label; eassumption.
    + left. destruct (item_gets P cs k d E t a x K L T Va) as (p' & Pp' & G'). exists (pos_of a p'). split; [exists a, p'; auto|exact G'].
    + exfalso. destruct (gets_tree k d E p0 x G0 NR) as (c & M & C). exact (N0 c x M C H).
  - left. exists a. split; [exact Ka|]. eapply above_follows; eassumption.
Qed.

Lemma c99_state P cs k d E t init l e kept S0 D it b : p_hpke P cs = Ok k -> d <= 31 -> lifetime_of P cs init (l ++ [e]) ->
  derive_secret P cs (er_epoch e) label_encryption = Ok E -> new_secret_tree P cs (2 ^ d) E = Ok t ->
  ~ S0 E -> (forall c x, tree_made k d E c -> call k c = Ok x -> ~ S0 x) -> ~ enough k (fun x => held P cs t e kept x \/ S0 x) D init (l ++ [e]) ->
  item_value P cs t it b -> knows k (fun x => held P cs t e kept x \/ S0 x) D b ->
  (exists a, kept a /\ follows a it) \/ clash k D (fun c => all_made k (l ++ [e]) c \/ tree_made k d E c).
Proof.
  intros K L LT EE T NE N0 NEN V KN.
  assert (R : runs P cs e) by (apply (lifetime_runs _ _ _ _ LT); apply in_or_app; right; left; reflexivity).
  assert (UP : clash k D (message_made k d E (er_epoch e)) -> clash k D (fun c => all_made k (l ++ [e]) c \/ tree_made k d E c)).
  { apply clash_mono. intros c M. apply (message_in P cs k d E e (l ++ [e]) c K R); [apply in_or_app; right; left; reflexivity|exact M]. }
  assert (IE : In label_encryption schedule_labels) by (right; right; left; reflexivity).
  destruct (state_knows P cs k d E t e kept S0 D it b K L EE T N0 V KN) as [X|[X|X]]; [auto|auto|].
  right. destruct (know_derived P cs k _ D e label_encryption E K R IE EE X) as [C|[G|N]].
  - eapply clash_mono; [|exact C]. intros c M. left. exists e. split; [apply in_or_app; right; left; reflexivity|exact M].
  - rewrite (derive_expand P cs k) in EE by (exact K || reflexivity). destruct G as [[(lab & IL & NL & H)|(a & _ & Va)]|G]; [| |contradiction].
    + apply UP. rewrite (derive_expand P cs k) in H by (exact K || apply schedule_fits, IL).
      eexists (CExpand (er_epoch e) (kdf_label lab [] (nh k)) (nh k)), (CExpand (er_epoch e) (kdf_label label_encryption [] (nh k)) (nh k)), E.
      split; [right; right; eauto|]. split; [right; right; eauto|]. split; [|auto]. intros Q. apply call_inj in Q as (_ & Q & _).
      apply kdf_label_inj in Q as (Q & _); [contradiction|apply schedule_fits, IL|reflexivity|apply schedule_fits, IE|reflexivity|apply nh_small..].
    + apply UP. destruct (item_gets P cs k d E t a E K L T Va) as (p & _ & G). destruct (gets_tree k d E _ _ G) as (c & M & C); [destruct a; discriminate|].
      eexists c, _, E. split; [right; left; exact M|]. split; [right; right; exists label_encryption; split; [exact IE|reflexivity]|]. split; [exact (tree_made_label _ _ _ _ _ _ M IE)|auto].
  - destruct (know_lifetime P cs k _ D init _ K LT l e eq_refl N) as [C|C]; [|contradiction]. eapply clash_mono; [|exact C]. auto.
Qed.

Lemma no_items P cs k d E t e S D it b : p_hpke P cs = Ok k -> d <= 31 -> derive_secret P cs (er_epoch e) label_encryption = Ok E ->
  new_secret_tree P cs (2 ^ d) E = Ok t -> (forall c x, tree_made k d E c -> call k c = Ok x -> ~ S x) ->
  item_value P cs t it b -> knows k S D b -> clash k D (message_made k d E (er_epoch e)) \/ knows k S D E.
Proof.
  intros K L EE T N0 V KN. rewrite (derive_expand P cs k) in EE by (exact K || reflexivity).
  destruct (item_gets P cs k d E t it b K L T V) as (p & Pp & G).
  destruct (tree_back k d E (er_epoch e) D EE S (fun _ => False)) with (p := pos_of it p) (b := b) as [(q & [] & _)|X]; [|exact G|exact KN|exact X].
  intros p0 x NR G0 H. exfalso. destruct (gets_tree k d E p0 x G0 NR) as (c & M & C). exact (N0 c x M C H).
Qed.
Lemma life_message P cs k d E l st c : p_hpke P cs = Ok k -> runs P cs (es_run st) -> In st l -> message_made k d E (er_epoch (es_run st)) c -> life_made k l c \/ tree_made k d E c.
Proof.
  intros K R I M. destruct (message_in P cs k d E (es_run st) (map es_run l) c K R (in_map es_run l st I) M) as [X|X]; [left; left; exact X|auto].
Qed.
Lemma c99_locked_out P cs k init before st0 during i u s ss q S D st d E t it b : p_hpke P cs = Ok k -> d <= 31 -> group_life P cs k init (before ++ st0 :: during) ->
  (forall st, In st (st0 :: during) -> absent q st) -> es_path st0 = Some (i, u, s :: ss) ->
  (forall st b, In st (st0 :: during) -> secret_of P cs k st b -> ~ S b) ->
  In st (st0 :: during) -> derive_secret P cs (er_epoch (es_run st)) label_encryption = Ok E -> new_secret_tree P cs (2 ^ d) E = Ok t ->
  (forall c x, tree_made k d E c -> call k c = Ok x -> ~ S x) ->
  item_value P cs t it b -> knows k (fun b => S b \/ exists st, In st (st0 :: during) /\ received st q b) D b ->
  clash k D (fun c => life_made k (before ++ st0 :: during) c \/ tree_made k d E c) \/ exists c, In c D /\ call k c = Ok s.
Proof.
  intros K L G A EP NS I EE T N0 V N.
  assert (RN : forall x, (exists st, In st (st0 :: during) /\ received st q x) -> False).
  { intros x (s' & Is & X). destruct (life_steps _ _ _ _ _ G s' ltac:(apply in_or_app; right; exact Is)) as [St _]. exact (absent_nothing P cs s' q x St (A s' Is) X). }
  assert (I0 : In st (before ++ st0 :: during)) by (apply in_or_app; right; exact I). destruct (life_steps _ _ _ _ _ G st I0) as [_ [R _]].
  destruct (fun H => no_items P cs k d E t (es_run st) _ D it b K L EE T H V N) as [X|X].
  - intros c x M C [H|H]; [exact (N0 c x M C H)|exact (RN x H)].
  - left. eapply clash_mono; [|exact X]. intros c. apply (life_message P cs k d E _ st c K R I0).
  - destruct (c98_locked_out P cs k init before st0 during i u s ss q S D st label_encryption E K G A EP NS I (or_intror (or_intror (or_introl eq_refl))) EE X) as [Y|Y]; [|auto].
    left. eapply clash_mono; [|exact Y]. auto.
Qed.
Lemma c99_before_joining P cs k init st0 during q S D st d E t it b : p_hpke P cs = Ok k -> d <= 31 -> group_life P cs k init (st0 :: during) ->
  (forall st, In st (st0 :: during) -> absent q st) -> ~ S init -> (forall st b, In st (st0 :: during) -> secret_of P cs k st b -> ~ S b) ->
  In st (st0 :: during) -> derive_secret P cs (er_epoch (es_run st)) label_encryption = Ok E -> new_secret_tree P cs (2 ^ d) E = Ok t ->
  (forall c x, tree_made k d E c -> call k c = Ok x -> ~ S x) ->
  item_value P cs t it b -> knows k (fun b => S b \/ exists st, In st (st0 :: during) /\ received st q b) D b ->
  clash k D (fun c => life_made k (st0 :: during) c \/ tree_made k d E c) \/ exists c, In c D /\ call k c = Ok init.
Proof.
  intros K L G A NI NS I EE T N0 V N.
  assert (RN : forall x, (exists st, In st (st0 :: during) /\ received st q x) -> False).
  { intros x (s' & Is & X). destruct (life_steps _ _ _ _ _ G s' Is) as [St _]. exact (absent_nothing P cs s' q x St (A s' Is) X). }
  destruct (life_steps _ _ _ _ _ G st I) as [_ [R _]].
  destruct (fun H => no_items P cs k d E t (es_run st) _ D it b K L EE T H V N) as [X|X].
  - intros c x M C [H|H]; [exact (N0 c x M C H)|exact (RN x H)].
  - left. eapply clash_mono; [|exact X]. intros c. apply (life_message P cs k d E _ st c K R I).
  - destruct (c98_before_joining P cs k init st0 during q S D st label_encryption E K G A NI NS I (or_intror (or_intror (or_introl eq_refl))) EE X) as [Y|Y]; [|auto].
    left. eapply clash_mono; [|exact Y]. auto.
Qed.

(** ** Example *)

From Verif Require Import Examples ExProvider.
Lemma c99_ideal P cs k d E t init l e kept S0 D it b : p_hpke P cs = Ok k -> d <= 31 -> lifetime_of P cs init (l ++ [e]) ->
  (forall c c' x, call k c = Ok x -> call k c' = Ok x -> c = c') ->
  derive_secret P cs (er_epoch e) label_encryption = Ok E -> new_secret_tree P cs (2 ^ d) E = Ok t ->
  ~ S0 E -> (forall c x, tree_made k d E c -> call k c = Ok x -> ~ S0 x) -> ~ enough k (fun x => held P cs t e kept x \/ S0 x) D init (l ++ [e]) ->
  item_value P cs t it b -> knows k (fun x => held P cs t e kept x \/ S0 x) D b -> exists a, kept a /\ follows a it.
Proof.
  intros K L LT INJ EE T NE N0 NEN V KN. destruct (c99_state P cs k d E t init l e kept S0 D it b K L LT EE T NE N0 NEN V KN) as [X|X]; [exact X|].
  exfalso. exact (ideal_no_clash _ _ _ INJ X).
Qed.
Definition ex_public_secrets (x : bytes) : Prop := In x [str "commit one"; str "commit two"; str "psk"; zero_bytes 4].
Definition ex_kept (a : item) : Prop := a = IRatchet 1 RApplication 2.
Lemma c99_example : exists t b b', lifetime_of ideal Suite2 (str "init") [ex_epoch1] /\
  derive_secret ideal Suite2 (er_epoch ex_epoch1) label_encryption = Ok (ex_enc ex_epoch1) /\ new_secret_tree ideal Suite2 (2 ^ 1) (ex_enc ex_epoch1) = Ok t /\
  item_value ideal Suite2 t (IKey 1 RApplication 0) b /\ item_value ideal Suite2 t (IKey 1 RApplication 3) b' /\
  (forall D, ~ enough ideal_hpke (fun x => held ideal Suite2 t ex_epoch1 ex_kept x \/ ex_public_secrets x) D (str "init") [ex_epoch1]) /\
  (forall D, ~ knows ideal_hpke (fun x => held ideal Suite2 t ex_epoch1 ex_kept x \/ ex_public_secrets x) D b) /\
  exists D, knows ideal_hpke (fun x => held ideal Suite2 t ex_epoch1 ex_kept x \/ ex_public_secrets x) D b'.
Proof.
  set (E := ex_enc ex_epoch1). assert (EE : derive_secret ideal Suite2 (er_epoch ex_epoch1) label_encryption = Ok E) by (vm_compute; reflexivity).
  assert (L1 : lifetime_of ideal Suite2 (str "init") [ex_epoch1]) by (apply lt_first; [|reflexivity]; apply (lifetime_runs _ _ _ _ (proj2 ex_lifetime)); left; reflexivity).
  destruct (new_secret_tree ideal Suite2 (2 ^ 1) E) as [t| | |] eqn:T; [|vm_compute in T; discriminate..]. pose proof T as T0. vm_compute in T0. apply Ok_inj in T0.
  destruct (derive_ratchet_root ideal Suite2 t 2 RApplication) as [r0| | |] eqn:R0; [|rewrite <- T0 in R0; vm_compute in R0; discriminate..]. pose proof R0 as R0'. rewrite <- T0 in R0'. vm_compute in R0'. apply Ok_inj in R0'.
  destruct (steps ideal Suite2 r0 2) as [r| | |] eqn:R2; [|rewrite <- R0' in R2; vm_compute in R2; discriminate..].
  destruct (steps ideal Suite2 r0 3) as [r3| | |] eqn:R3; [|rewrite <- R0' in R3; vm_compute in R3; discriminate..].
  destruct (derive_key ideal Suite2 r0) as [b| | |] eqn:B; [|discriminate..]. destruct (derive_key ideal Suite2 r3) as [b'| | |] eqn:B'; [|discriminate..].
  assert (I0 : ratchet_at ideal Suite2 t 1 RApplication 0 r0) by (exists r0; split; [exact R0|reflexivity]). assert (I2 : ratchet_at ideal Suite2 t 1 RApplication 2 r) by (exists r0; auto). assert (I3 : ratchet_at ideal Suite2 t 1 RApplication 3 r3) by (exists r0; auto).
  assert (Vb : item_value ideal Suite2 t (IKey 1 RApplication 0) b) by (exists r0; auto). assert (Vb' : item_value ideal Suite2 t (IKey 1 RApplication 3) b') by (exists r3; auto).
  set (known := map (fun lab => ok_or [] (derive_secret ideal Suite2 (er_epoch ex_epoch1) lab)) (filter (fun l => negb (bytes_in l [label_encryption])) schedule_labels) ++ [rt_secret r; str "commit one"; str "commit two"; str "psk"; zero_bytes 4]).
  assert (HK : forall x, held ideal Suite2 t ex_epoch1 ex_kept x \/ ex_public_secrets x -> In x known).
  { intros x [[(lab & IL & NL & H)|(a & -> & (r' & (r0' & A1 & A2) & <-))]|H]; unfold known; apply in_or_app.
    - left. apply in_map_iff. exists lab. split; [rewrite H; reflexivity|]. apply filter_In. split; [exact IL|]. apply negb_true_iff. unfold bytes_in. destruct (in_dec _ lab [label_encryption]) as [[Q|[]]|]; [congruence|reflexivity].
    - right. left. change (2 * 1) with 2 in A1. congruence.
    - right. right. exact H. }
  assert (Q : forall y, bytes_in y (map (fun lab => ok_or [] (derive_secret ideal Suite2 (er_epoch ex_epoch1) lab)) (filter (fun l => negb (bytes_in l [label_encryption])) schedule_labels) ++ [str "commit one"; str "commit two"; str "psk"; zero_bytes 4]) = false -> y <> rt_secret r -> ~ In y known).
  { intros y By NR I. unfold bytes_in in By. destruct (in_dec _ y _) as [|N] in By; [discriminate|]. apply N. unfold known in I. apply in_app_or in I as [I|[I|I]]; apply in_or_app; [left; exact I|congruence|right; exact I]. }
  assert (Rr : rt_secret r = ok_or [] (let* x := steps ideal Suite2 r0 2 in Ok (rt_secret x))) by (rewrite R2; reflexivity). rewrite <- R0' in Rr. match type of Rr with _ = ?v => let w := eval vm_compute in v in replace v with w in Rr by (vm_compute; reflexivity) end.
  assert (NEN : forall D, ~ enough ideal_hpke (fun x => held ideal Suite2 t ex_epoch1 ex_kept x \/ ex_public_secrets x) D (str "init") [ex_epoch1]).
  { intros D X. apply enough_leak in X as [X|[(e & [<-|[]] & X)|(l1 & e & l2 & Ql & N & _)]].
    - inversion X as [y Sy|c y _ _ Cy]; subst; [|destruct c; discriminate]. apply HK in Sy. revert Sy. apply Q; [vm_compute; reflexivity|rewrite Rr; discriminate].
    - destruct X as [[X|(m & Em & X)]|[X|(m & Em & X)]]; apply HK in X; revert X; apply Q; try (vm_compute in Em; apply Ok_inj in Em; rewrite <- Em); try (vm_compute; reflexivity); rewrite Rr; vm_compute; discriminate.
    - destruct l1 as [|? [|? ?]]; [injection Ql as _ Ql; symmetry in Ql; contradiction|discriminate..]. }
  exists t, b, b'. split; [exact L1|]. split; [exact EE|]. split; [reflexivity|]. split; [exact Vb|]. split; [exact Vb'|]. split; [exact NEN|]. split.
  - intros D N. destruct (c99_ideal ideal Suite2 ideal_hpke 1 E t (str "init") [] ex_epoch1 ex_kept ex_public_secrets D (IKey 1 RApplication 0) b eq_refl) as (a & -> & F);
      [discriminate|exact L1|exact ideal_injective|exact EE|exact T| | |exact (NEN D)|exact Vb|exact N|].
    + intros X. revert X. unfold ex_public_secrets. apply KnowFacts.bytes_out_spec. vm_compute. reflexivity.
    + intros c x _ C X. destruct c; cbn in C; injection C as <-; repeat (destruct X as [X|X]; [discriminate|]); destruct X.
    + destruct F as [F|(i & l & g & g' & F & Lg & [G|[G|G]])]; [discriminate..| |discriminate]. injection F as <- <- <-. injection G as <-. lia.
  - destruct (c82_later ideal Suite2 ideal_hpke t (IRatchet 1 RApplication 2) (IKey 1 RApplication 3) (rt_secret r) b' eq_refl) as [D KD];
      [right; exists 1, RApplication, 2%nat, 3%nat; split; [reflexivity|]; split; [lia|auto]|exists r; auto|exact Vb'|].
    exists D. eapply knows_mono; [| |exact KD]; [|intros c I; exact I]. intros x ->. left. right. exists (IRatchet 1 RApplication 2). split; [reflexivity|exists r; auto].
Qed.
(** Person 1 of C98's example, with the init secret of the epoch before. *)
Lemma c99_locked_example : exists t b, group_life ideal Suite2 ideal_hpke (str "init") ([ex_st1] ++ [ex_st2]) /\ absent 1%nat ex_st2 /\
  new_secret_tree ideal Suite2 (2 ^ 2) (ex_enc_of ex_st2) = Ok t /\ item_value ideal Suite2 t (IKey 2 RApplication 0) b /\
  forall D, ~ knows ideal_hpke (fun x => (x = str "init" \/ x = er_init (es_run ex_st1)) \/ exists st, In st [ex_st2] /\ received st 1%nat x) D b.
Proof.
  assert (EE : derive_secret ideal Suite2 (er_epoch (es_run ex_st2)) label_encryption = Ok (ex_enc_of ex_st2)) by (vm_compute; reflexivity).
  assert (A : absent 1%nat ex_st2) by exact (proj1 (proj2 (proj2 (proj2 (proj2 c98_example))))).
  destruct (new_secret_tree ideal Suite2 (2 ^ 2) (ex_enc_of ex_st2)) as [t| | |] eqn:T; [|vm_compute in T; discriminate..]. pose proof T as T0. vm_compute in T0. apply Ok_inj in T0.
  destruct (derive_ratchet_root ideal Suite2 t 4 RApplication) as [r0| | |] eqn:R0; [|rewrite <- T0 in R0; vm_compute in R0; discriminate..].
  destruct (derive_key ideal Suite2 r0) as [b| | |] eqn:B; [|discriminate..].
  assert (V : item_value ideal Suite2 t (IKey 2 RApplication 0) b) by (exists r0; split; [exists r0; split; [exact R0|reflexivity]|exact B]).
  exists t, b. split; [exact ex_life|]. split; [exact A|]. split; [reflexivity|]. split; [exact V|]. intros D N.
  destruct (c99_locked_out ideal Suite2 ideal_hpke (str "init") [ex_st1] ex_st2 [] 0 ex_path6 (str "two") [] 1%nat (fun x => x = str "init" \/ x = er_init (es_run ex_st1)) D ex_st2 2 (ex_enc_of ex_st2) t (IKey 2 RApplication 0) b eq_refl) as [X|(c & _ & X)];
    [discriminate|exact ex_life|intros st [<-|[]]; exact A|reflexivity| |left; reflexivity|exact EE|exact T| |exact V|exact N|exact (ideal_no_clash _ _ _ ideal_injective X)|destruct c; discriminate].
  - intros st x [<-|[]] SX H. apply secret_listed in SX. revert SX. destruct H as [->| ->]; apply KnowFacts.bytes_out_spec; vm_compute; reflexivity.
  - intros c x M C [->| ->]; [destruct c; discriminate|]. apply (tree_made_label _ _ _ _ (er_epoch (es_run ex_st1)) label_init M (or_introl eq_refl)).
    apply (ideal_injective _ _ _ C). vm_compute. reflexivity.
Qed.
