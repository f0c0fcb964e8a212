(** Proofs that a value of the key schedule, the secret tree or the ratchets has one use. *)
From Verif Require Import CodecLib WireCodecs TreeMathProofs SecretFacts KeyFacts ForwardFacts StateFacts SpecUse ExProvider Examples.
From Coq Require Import ZifyBool ZifyNat ZifyN.
Local Open Scope N_scope.

Inductive place : Type := LMember | LWelcome | LWelcomeKey | LWelcomeNonce | LEpoch | LSecret (l : bytes) | LSenderKey (x : bytes) | LSenderNonce (x : bytes) | LTree (p : pos).
Definition place_of (p : pos) : place := match p with PNode [] => LSecret label_encryption | _ => LTree p end.
Definition sampled (k : hpke_alg) (u : use) (x : bytes) : Prop := fits30 x /\ exists ct, (u = USenderKey ct \/ u = USenderNonce ct) /\ x = sample k ct.

Inductive hop (k : hpke_alg) (d : N) (raw : bytes) (u : use) : place -> bytes -> bytes -> N -> place -> Prop :=
| h_welcome : hop k d raw u LMember (str "welcome") [] (nh k) LWelcome
| h_wkey : hop k d raw u LWelcome (str "key") [] (a_key_size k mod 65536) LWelcomeKey
| h_wnonce : hop k d raw u LWelcome (str "nonce") [] (a_nonce_size k mod 65536) LWelcomeNonce
| h_epoch : fits30 raw -> hop k d raw u LMember (str "epoch") raw (nh k) LEpoch
| h_secret l : In l schedule_labels -> hop k d raw u LEpoch l [] (nh k) (LSecret l)
| h_skey x : sampled k u x -> hop k d raw u (LSecret label_sender_data) (str "key") x (a_key_size k mod 65536) (LSenderKey x)
| h_snonce x : sampled k u x -> hop k d raw u (LSecret label_sender_data) (str "nonce") x (a_nonce_size k mod 65536) (LSenderNonce x)
| h_tree q l c n p : edge k d q l c n p -> hop k d raw u (place_of q) l c n (LTree p).

Lemma place_of_cases p : (p = PNode [] /\ place_of p = LSecret label_encryption) \/ (p <> PNode [] /\ place_of p = LTree p).
Proof. destruct p as [[|]| | |]; cbn; [left; auto|right; split; [discriminate|reflexivity]..]. Qed.
Lemma place_of_inj p q : place_of p = place_of q -> p = q.
Proof. destruct (place_of_cases p) as [[-> A]|[_ A]], (place_of_cases q) as [[-> B]|[_ B]]; rewrite ?A, ?B; congruence. Qed.

Lemma hop_fits k d raw u q l c n p : hop k d raw u q l c n p -> fits30 (mls_label l) /\ fits30 c /\ n < 65536.
Proof.
  assert (M : forall a, a mod 65536 < 65536) by (intros; apply N.mod_lt; discriminate).
  destruct 1 as [| | |F|l I|x [F _]|x [F _]|q l c n p A]; try (split; [reflexivity|]; split; [first [reflexivity|assumption]|apply M]).
  - split; [apply schedule_fits, I|]. split; [reflexivity|apply M].
  - eapply edge_fits, A.
Qed.
Lemma edge_det2 h d d' q l c n p n' p' : edge h d q l c n p -> edge h d' q l c n' p' -> p = p'.
Proof.
  assert (D : forall a : ratchet_label, ratchet_label_str a <> str "tree") by (intros []; discriminate).
  intros A B. destruct A as [p b|p l|p l g|p l g|p l g]; inversion B; subst; try discriminate; try reflexivity; try (exfalso; eapply D; eauto; fail).
  - do 2 f_equal. destruct b, b0; (reflexivity || discriminate).
  - destruct l, l0; (reflexivity || discriminate).
Qed.
Lemma hop_det k d d' raw raw' u u' q l c n p p' : hop k d raw u q l c n p -> hop k d' raw' u' q l c n p' -> p = p'.
Proof.
  intros A B. destruct A as [| | |F|l I|x _|x _|q l c n p A]; inversion B as [E|E|E|F' E|l' I' E|x' S' E|x' S' E|q' l' c' n' p0 A' E]; subst; try discriminate; try reflexivity;
    try (match goal with H : place_of ?q = _ |- _ => destruct (place_of_cases q) as [[-> Q]|[_ Q]]; rewrite Q in H; discriminate end);
    try (match goal with H : _ = place_of ?q |- _ => destruct (place_of_cases q) as [[-> Q]|[_ Q]]; rewrite Q in H; discriminate end).
  match goal with H : place_of _ = place_of _ |- _ => apply place_of_inj in H; subst end. f_equal. eapply edge_det2; eassumption.
Qed.

Section Session.
  Context (P : provider) (cs : cipher_suite) (k : hpke_alg) (s : session) (u : use) (raw me : bytes).
  Hypothesis K : p_hpke P cs = Ok k.
  Hypothesis SO : session_of P cs s.
  Hypothesis RAW : se_group_context (er_context (ss_run s)) = Ok raw.
  Hypothesis ME : k_extract k (psk_or_zero k (er_psk (ss_run s))) (er_joiner (ss_run s)) = Ok me.

  Inductive at_place : place -> bytes -> Prop :=
  | a_member : at_place LMember me
  | a_hop q x l c n p b : at_place q x -> hop k (ss_depth s) raw u q l c n p -> call k (CExpand x (kdf_label l c n) n) = Ok b -> at_place p b.

  (** What the values of the places are, as far as the calls made from them depend on it. *)
  Definition place_means (p : place) (b : bytes) : Prop :=
    match p with
    | LMember => b = me
    | LWelcome => call k (CExpand me (kdf_label (str "welcome") [] (nh k)) (nh k)) = Ok b
    | LEpoch => b = er_epoch (ss_run s)
    | LSecret l => In l schedule_labels /\ call k (CExpand (er_epoch (ss_run s)) (kdf_label l [] (nh k)) (nh k)) = Ok b
    | LTree p => p <> PNode [] /\ gets k (ss_depth s) (ss_encryption s) p b
    | _ => True
    end.
  Lemma session_steps : exists ex, k_extract k (er_commit (ss_run s)) (er_before (ss_run s)) = Ok ex /\ fits30 raw /\
    call k (CExpand ex (kdf_label (str "joiner") raw (nh k)) (nh k)) = Ok (er_joiner (ss_run s)) /\
    call k (CExpand me (kdf_label (str "epoch") raw (nh k)) (nh k)) = Ok (er_epoch (ss_run s)) /\
    call k (CExpand (er_epoch (ss_run s)) (kdf_label label_encryption [] (nh k)) (nh k)) = Ok (ss_encryption s).
  Proof.
    destruct SO as (_ & (Q & J & E & I) & _ & EN & _). pose proof K as K'. rewrite <- Q in K'.
    apply (joiner_iff P _ k _ _ _ K') in J as (ex & raw1 & J1 & J2 & F & J3). apply (epoch_iff P _ k _ _ _ K') in E as (me1 & raw2 & E1 & E2 & _ & E3).
    rewrite RAW in J2, E2. injection J2 as <-. injection E2 as <-. rewrite ME in E1. injection E1 as <-.
    rewrite (derive_expand P cs k) in EN by (exact K || reflexivity). exists ex. auto 6.
  Qed.
  Lemma place_gets q x : place_means (place_of q) x -> gets k (ss_depth s) (ss_encryption s) q x.
  Proof.
    destruct session_steps as (_ & _ & _ & _ & _ & EN). destruct (place_of_cases q) as [[-> Q]|[_ Q]]; rewrite Q; cbn; [|tauto].
    intros [_ H]. pose proof (eq_trans (eq_sym H) EN) as X. injection X as ->. constructor.
  Qed.
  Lemma at_means p b : at_place p b -> place_means p b.
  Proof.
    destruct session_steps as (_ & _ & _ & _ & EP & _).
    induction 1 as [|q x l c n p b A IH H C]; [reflexivity|].
    destruct H as [| | |F|l I|y Y|y Y|q l c n p G]; cbn [place_means] in *; auto.
    - subst x. exact C.
    - subst x. pose proof (eq_trans (eq_sym C) EP) as X. injection X as ->. reflexivity.
    - subst x. auto.
    - split; [intros ->; eapply edge_not_root, G|]. eapply g_edge; [apply place_gets, IH|exact G|exact C].
  Qed.
  Lemma at_made q x l c n p : at_place q x -> hop k (ss_depth s) raw u q l c n p -> session_made k s u (CExpand x (kdf_label l c n) n).
  Proof.
    destruct session_steps as (ex & EX & F & J & EP & EN). intros A H. apply at_means in A. unfold session_made.
    assert (EM : forall c, (c = CExpand me (kdf_label (str "epoch") raw (nh k)) (nh k) \/ exists l, In l schedule_labels /\ c = CExpand (er_epoch (ss_run s)) (kdf_label l [] (nh k)) (nh k)) -> epoch_made k (ss_run s) c).
    { intros c0 H0. exists ex, me, raw. split; [exact EX|]. split; [exact ME|]. split; [exact RAW|]. tauto. }
    destruct H as [| | |_|l I|y Y|y Y|q l c n p G].
    - cbn in A. subst x. right. right. left. exists me. auto.
    - right. right. left. exists me. split; [exact ME|]. right. exists x. auto.
    - right. right. left. exists me. split; [exact ME|]. right. exists x. auto.
    - cbn in A. subst x. left. apply EM. auto.
    - cbn in A. subst x. left. apply EM. right. eauto.
    - right. right. right. destruct A as [_ A]. destruct Y as (_ & ct & U & ->). exists x, ct. auto.
    - right. right. right. destruct A as [_ A]. destruct Y as (_ & ct & U & ->). exists x, ct. auto.
    - right. left. eapply gets_made; [apply place_gets, A|exact G].
  Qed.

  (** The value of a use is found at its place. *)
  Definition use_place (u : use) (p : place) : Prop :=
    match u with
    | UItem it => exists path, position 0 path = leaf_of it /\ p = LTree (pos_of it path)
    | USecret l => p = LSecret l
    | USenderKey ct => p = LSenderKey (sample k ct)
    | USenderNonce ct => p = LSenderNonce (sample k ct)
    | UWelcomeKey => p = LWelcomeKey
    | UWelcomeNonce => p = LWelcomeNonce
    end.
  Lemma at_epoch : at_place LEpoch (er_epoch (ss_run s)).
  Proof. destruct session_steps as (ex & EX & F & J & EP & EN). eapply a_hop; [apply a_member|apply h_epoch, F|exact EP]. Qed.
  Lemma at_secret l b : In l schedule_labels -> derive_secret P cs (er_epoch (ss_run s)) l = Ok b -> at_place (LSecret l) b.
  Proof.
    intros I H. rewrite (derive_expand P cs k) in H by (exact K || apply schedule_fits, I). eapply a_hop; [apply at_epoch|apply h_secret, I|exact H].
  Qed.
  Lemma at_tree p b : gets k (ss_depth s) (ss_encryption s) p b -> at_place (place_of p) b.
  Proof.
    destruct SO as (_ & _ & _ & EN & _). induction 1 as [|q x l c n p b G IH A C].
    - apply at_secret; [right; right; left; reflexivity|exact EN].
    - assert (NR : p <> PNode []) by (intros ->; eapply edge_not_root, A). destruct (place_of_cases p) as [[Q _]|[_ ->]]; [contradiction|].
      eapply a_hop; [exact IH|apply h_tree, A|exact C].
  Qed.
  Lemma sample_firstn ct : sample_ciphertext P cs ct = Ok (sample k ct).
  Proof.
    unfold sample_ciphertext. rewrite K. cbn [bind]. unfold sample. destruct (N.ltb_spec (N.of_nat (length ct)) (k_extract_size k)) as [L|_]; [|reflexivity].
    rewrite firstn_all2 by lia. reflexivity.
  Qed.
  Lemma at_use b : use_value P cs s u b -> exists p, use_place u p /\ at_place p b.
  Proof.
    assert (SD : In label_sender_data schedule_labels) by (right; left; reflexivity).
    assert (W : forall key nonce, welcome_key_nonce P cs (er_joiner (ss_run s)) (er_psk (ss_run s)) = Ok (key, nonce) -> at_place LWelcomeKey key /\ at_place LWelcomeNonce nonce).
    { intros key nonce H. unfold welcome_key_nonce in H. apply bind_ok in H as (w & W & H). rewrite K in H. cbn [bind] in H. apply bind_ok in H as (n1 & N1 & H). apply bind_ok in H as (k1 & K1 & H).
      injection H as <- <-. apply (welcome_iff P cs k _ _ _ K) in W as (e & E & W). rewrite ME in E. injection E as <-.
      apply (expand_iff P cs k) in N1 as [_ N1]; [|exact K|reflexivity]. apply (expand_iff P cs k) in K1 as [_ K1]; [|exact K|reflexivity].
      assert (AW : at_place LWelcome w) by (eapply a_hop; [apply a_member|apply h_welcome|exact W]).
      split; (eapply a_hop; [exact AW| |]); [apply h_wkey|exact K1|apply h_wnonce|exact N1]. }
    destruct u as [it|l|ct|ct| |] eqn:U; cbn [use_value use_place]; intros V.
    - destruct SO as (_ & _ & L & _ & T). destruct (item_gets P cs k _ _ _ it b K L T V) as (p & Pp & G). exists (LTree (pos_of it p)). split; [eauto|].
      apply at_tree in G. destruct it; exact G.
    - exists (LSecret l). split; [reflexivity|]. apply at_secret; apply V.
    - destruct V as (x & X & V). exists (LSenderKey (sample k ct)). split; [reflexivity|]. unfold sender_data_key in V. rewrite sample_firstn, K in V. cbn [bind] in V.
      apply (expand_iff P cs k) in V as [F V]; [|exact K|reflexivity]. eapply a_hop; [apply (at_secret _ _ SD X)|apply h_skey|exact V]. rewrite U. split; [exact F|]. eauto.
    - destruct V as (x & X & V). exists (LSenderNonce (sample k ct)). split; [reflexivity|]. unfold sender_data_nonce in V. rewrite sample_firstn, K in V. cbn [bind] in V.
      apply (expand_iff P cs k) in V as [F V]; [|exact K|reflexivity]. eapply a_hop; [apply (at_secret _ _ SD X)|apply h_snonce|exact V]. rewrite U. split; [exact F|]. eauto.
    - destruct V as (n & V). apply W in V. exists LWelcomeKey. tauto.
    - destruct V as (n & V). apply W in V. exists LWelcomeNonce. tauto.
  Qed.
End Session.

Lemma session_member P cs k s : p_hpke P cs = Ok k -> session_of P cs s -> exists raw me,
  se_group_context (er_context (ss_run s)) = Ok raw /\ k_extract k (psk_or_zero k (er_psk (ss_run s))) (er_joiner (ss_run s)) = Ok me.
Proof. intros K (_ & R & _). destruct (epoch_steps P cs k _ K R) as (ex & me & raw & _ & M & G & _). eauto. Qed.

Section Two.
  Context (P : provider) (cs : cipher_suite) (k : hpke_alg) (s s' : session) (u u' : use) (raw raw' me me' : bytes).
  Hypothesis K : p_hpke P cs = Ok k.
  Hypothesis SO : session_of P cs s.
  Hypothesis SO' : session_of P cs s'.
  Hypothesis RAW : se_group_context (er_context (ss_run s)) = Ok raw.
  Hypothesis RAW' : se_group_context (er_context (ss_run s')) = Ok raw'.
  Hypothesis ME : k_extract k (psk_or_zero k (er_psk (ss_run s))) (er_joiner (ss_run s)) = Ok me.
  Hypothesis ME' : k_extract k (psk_or_zero k (er_psk (ss_run s'))) (er_joiner (ss_run s')) = Ok me'.
  Let made (c : kdf_call) : Prop := session_made k s u c \/ session_made k s' u' c.

  Lemma epoch_is_made c : epoch_made k (ss_run s) c -> made c.
  Proof. left. left. assumption. Qed.
  Lemma epoch_is_made' c : epoch_made k (ss_run s') c -> made c.
  Proof. right. left. assumption. Qed.
  Lemma two_calls c c' b : made c -> made c' -> call k c = Ok b -> call k c' = Ok b -> c = c' \/ clash k [] made.
  Proof. intros A B C D. destruct (kdf_call_dec c c') as [Q|Q]; [auto|]. right. exists c, c', b. auto 7. Qed.
  Lemma extract_made : made (CExtract (er_joiner (ss_run s)) (psk_or_zero k (er_psk (ss_run s)))) /\ made (CExtract (er_before (ss_run s)) (er_commit (ss_run s))) /\
    forall ex, k_extract k (er_commit (ss_run s)) (er_before (ss_run s)) = Ok ex -> made (CExpand ex (kdf_label (str "joiner") raw (nh k)) (nh k)).
  Proof.
    destruct (session_steps P cs k s raw me K SO RAW ME) as (ex & EX & _).
    split; [|split]; [| |intros ex' H; rewrite EX in H; injection H as <-]; apply epoch_is_made; exists ex, me, raw; auto 10.
  Qed.
  Lemma extract_made' : made (CExtract (er_joiner (ss_run s')) (psk_or_zero k (er_psk (ss_run s')))) /\ made (CExtract (er_before (ss_run s')) (er_commit (ss_run s'))) /\
    forall ex, k_extract k (er_commit (ss_run s')) (er_before (ss_run s')) = Ok ex -> made (CExpand ex (kdf_label (str "joiner") raw' (nh k)) (nh k)).
  Proof.
    destruct (session_steps P cs k s' raw' me' K SO' RAW' ME') as (ex & EX & _).
    split; [|split]; [| |intros ex' H; rewrite EX in H; injection H as <-]; apply epoch_is_made'; exists ex, me', raw'; auto 10.
  Qed.
  Lemma places_meet p b : at_place k s u raw me p b -> forall p', at_place k s' u' raw' me' p' b -> (p = p' /\ me = me') \/ clash k [] made.
  Proof.
    pose proof extract_made as (X1 & _). pose proof extract_made' as (X1' & _). pose proof ME as ME0. pose proof ME' as ME0'. pose proof RAW as RAW0. pose proof RAW' as RAW0'.
    induction 1 as [|q x l c n p b A IH H C]; intros p' A'.
    - inversion A' as [|q x l c n p b A H C]; subst; [auto|]. right.
      destruct (two_calls (CExtract (er_joiner (ss_run s)) (psk_or_zero k (er_psk (ss_run s)))) (CExpand x (kdf_label l c n) n) me) as [Q|Q]; [exact X1| |exact ME0|exact C|discriminate|exact Q].
      right. eapply at_made; eassumption.
    - assert (M : made (CExpand x (kdf_label l c n) n)) by (left; eapply at_made; eassumption).
      inversion A' as [|q' x' l' c' n' p0 b0 A2 H' C']; subst.
      + right. destruct (two_calls (CExtract (er_joiner (ss_run s')) (psk_or_zero k (er_psk (ss_run s')))) (CExpand x (kdf_label l c n) n) b) as [Q|Q]; [exact X1'|exact M|exact ME0'|exact C|discriminate|exact Q].
      + assert (M' : made (CExpand x' (kdf_label l' c' n') n')) by (right; eapply at_made; eassumption).
        destruct (two_calls _ _ b M M' C C') as [Q|Q]; [|auto]. apply call_inj in Q as (-> & Q & <-).
        destruct (hop_fits _ _ _ _ _ _ _ _ _ H) as (F1 & F2 & F3), (hop_fits _ _ _ _ _ _ _ _ _ H') as (F1' & F2' & F3').
        apply kdf_label_inj in Q as (-> & -> & _); try assumption. destruct (IH q' A2) as [[-> ->]|X]; [|auto]. left. split; [|reflexivity]. eapply hop_det; eassumption.
  Qed.
  Lemma members_meet : me = me' -> same_epoch k (ss_run s) (ss_run s') \/ clash k [] made.
  Proof.
    intros Q. destruct (session_steps P cs k s raw me K SO RAW ME) as (ex & EX & F & J & _), (session_steps P cs k s' raw' me' K SO' RAW' ME') as (ex' & EX' & F' & J' & _).
    destruct extract_made as (M1 & M2 & M3), extract_made' as (M1' & M2' & M3').
    rewrite <- Q in ME'. destruct (two_calls _ _ me M1 M1' ME ME') as [X|X]; [|auto]. injection X as QJ QP.
    rewrite <- QJ in J'. destruct (two_calls _ _ _ (M3 ex EX) (M3' ex' EX') J J') as [X|X]; [|auto]. apply call_inj in X as (QX & X & _).
    assert (N : nh k < 65536) by (apply N.mod_lt; discriminate).
    apply kdf_label_inj in X as (_ & QR & _); [|reflexivity|exact F|reflexivity|exact F'|exact N|exact N].
    rewrite <- QX in EX'. destruct (two_calls _ _ ex M2 M2' EX EX') as [X|X]; [|auto]. injection X as QB QC.
    left. split; [|auto]. rewrite <- QR in RAW'. destruct SO as [W _], SO' as [W' _]. exact (codec_inj codec_group_context _ _ raw W W' RAW RAW').
  Qed.
End Two.

Lemma use_place_same k u u' p : use_place k u p -> use_place k u' p -> same_use k u u'.
Proof.
  destruct u as [it|l|ct|ct| |], u' as [it'|l'|ct'|ct'| |]; cbn [use_place same_use]; intros A B;
    repeat match goal with H : exists path, _ |- _ => destruct H as (? & ? & ?) end; subst; try discriminate; try congruence.
  destruct it, it'; cbn [pos_of leaf_of] in *; try discriminate; congruence.
Qed.

Lemma c104_one_use P cs k s s' u u' b : p_hpke P cs = Ok k -> session_of P cs s -> session_of P cs s' -> use_value P cs s u b -> use_value P cs s' u' b ->
  (same_epoch k (ss_run s) (ss_run s') /\ same_use k u u') \/ clash k [] (fun c => session_made k s u c \/ session_made k s' u' c).
Proof.
  intros K SO SO' V V'. destruct (session_member P cs k s K SO) as (raw & me & R & M), (session_member P cs k s' K SO') as (raw' & me' & R' & M').
  destruct (at_use P cs k s u raw me K SO R M b V) as (p & Up & Ap), (at_use P cs k s' u' raw' me' K SO' R' M' b V') as (p' & Up' & Ap').
  destruct (places_meet P cs k s s' u u' raw raw' me me' K SO SO' R R' M M' p b Ap p' Ap') as [[-> Q]|X]; [|auto].
  destruct (members_meet P cs k s s' u u' raw raw' me me' K SO SO' R R' M M' Q) as [X|X]; [|auto]. left. split; [exact X|]. eapply use_place_same; eassumption.
Qed.
Lemma c104_ideal P cs k s s' u u' b : p_hpke P cs = Ok k -> (forall c c' x, call k c = Ok x -> call k c' = Ok x -> c = c') ->
  session_of P cs s -> session_of P cs s' -> use_value P cs s u b -> use_value P cs s' u' b -> same_epoch k (ss_run s) (ss_run s') /\ same_use k u u'.
Proof.
  intros K I SO SO' V V'. destruct (c104_one_use P cs k s s' u u' b K SO SO' V V') as [X|X]; [exact X|]. destruct (ideal_no_clash _ _ _ I X).
Qed.
Lemma c104_elsewhere P cs k s s' u u' b : p_hpke P cs = Ok k -> session_of P cs s -> session_of P cs s' ->
  gc_group_id (er_context (ss_run s)) <> gc_group_id (er_context (ss_run s')) \/ gc_epoch (er_context (ss_run s)) <> gc_epoch (er_context (ss_run s')) ->
  use_value P cs s u b -> use_value P cs s' u' b -> clash k [] (fun c => session_made k s u c \/ session_made k s' u' c).
Proof.
  intros K SO SO' N V V'. destruct (c104_one_use P cs k s s' u u' b K SO SO' V V') as [[(Q & _) _]|X]; [|exact X]. rewrite Q in N. tauto.
Qed.

(** ** Example: two epochs with an ideal KDF *)
Definition ex_session (e : epoch_run) : session := Session e 1 (ex_enc e) (ok_or [] (new_secret_tree ideal Suite2 (2 ^ 1) (ex_enc e))).
Lemma ex_sessions : session_of ideal Suite2 (ex_session ex_epoch1) /\ session_of ideal Suite2 (ex_session ex_epoch2).
Proof.
  destruct ex_lifetime as [_ L].
  split; (split; [apply ex_gc_wf|]; split; [apply (lifetime_runs _ _ _ _ L); cbn; auto|]; split; [discriminate|]; split; vm_compute; reflexivity).
Qed.
Definition ex_root (s : session) : ratchet_secret := ok_or (MkRatchet [] 0) (derive_ratchet_root ideal Suite2 (ss_tree s) 2 RApplication).
Definition ex_next (s : session) : ratchet_secret := ok_or (MkRatchet [] 0) (derive_next ideal Suite2 (ex_root s)).
Definition ex_key (r : ratchet_secret) : bytes := ok_or [] (derive_key ideal Suite2 r).
Lemma ex_message_first e : In e [ex_epoch1; ex_epoch2] -> use_value ideal Suite2 (ex_session e) (UItem (IKey 1 RApplication 0)) (ex_key (ex_root (ex_session e))).
Proof. intros I. exists (ex_root (ex_session e)). destruct I as [<-|[<-|[]]]; (split; [eexists; split; [vm_compute; reflexivity|reflexivity]|vm_compute; reflexivity]). Qed.
Lemma ex_message_second : use_value ideal Suite2 (ex_session ex_epoch2) (UItem (IKey 1 RApplication 1)) (ex_key (ex_next (ex_session ex_epoch2))).
Proof.
  exists (ex_next (ex_session ex_epoch2)). split; [|vm_compute; reflexivity]. exists (ex_root (ex_session ex_epoch2)). split; [vm_compute; reflexivity|].
  cbn [steps]. assert (Q : derive_next ideal Suite2 (ex_root (ex_session ex_epoch2)) = Ok (ex_next (ex_session ex_epoch2))) by (vm_compute; reflexivity). rewrite Q. reflexivity.
Qed.
Lemma c104_example : exists a b c d e f, let s := ex_session ex_epoch1 in let s' := ex_session ex_epoch2 in
  session_of ideal Suite2 s /\ session_of ideal Suite2 s' /\
  use_value ideal Suite2 s (UItem (IKey 1 RApplication 0)) a /\ use_value ideal Suite2 s' (UItem (IKey 1 RApplication 0)) b /\ use_value ideal Suite2 s' (UItem (IKey 1 RApplication 1)) c /\
  use_value ideal Suite2 s UWelcomeKey d /\ use_value ideal Suite2 s (USenderKey [x00; x00; x00; x01]) e /\ use_value ideal Suite2 s (USecret (str "exporter")) f /\
  NoDup [a; b; c; d; e; f].
Proof.
  destruct ex_sessions as [S1 S2]. eexists _, _, _, _, _, _. cbv zeta. split; [exact S1|]. split; [exact S2|].
  split; [apply ex_message_first; cbn; auto|]. split; [apply ex_message_first; cbn; auto|]. split; [apply ex_message_second|].
  split; [eexists; vm_compute; reflexivity|]. split; [eexists; split; vm_compute; reflexivity|]. split; [split; [right; right; right; left; reflexivity|vm_compute; reflexivity]|].
  vm_compute. repeat (constructor; [let I := fresh in intros I; repeat (destruct I as [I|I]; [discriminate I|]); exact I|]). constructor.
Qed.
