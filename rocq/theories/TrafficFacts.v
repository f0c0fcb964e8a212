(** Private messages from sender to receiver. *)
From Coq Require Import ZifyBool ZifyNat ZifyN.
From Verif Require Import CodecLib WireCodecs TreeMathProofs SecretFacts MessageFacts TreeInv.
From Verif Require Import SpecTraffic.
Local Open Scope N_scope.

Lemma c75_delivered P cs ctx sk pk st sds leaf gen guard c b : aead_ok P cs -> key_pair_ok P cs sk pk ->
  wf_framed_content c -> fc_sender c = SMember leaf -> gen < 4294967296 -> length guard = 4%nat ->
  send P cs ctx sk st sds leaf gen guard c = Ok b ->
  exists a, receive P cs ctx pk st sds b = Ok a /\ ac_content a = c.
Proof.
  intros AE KP W S G L H. unfold send in H. apply bind_ok in H as (x & X & H). apply bind_ok in H as (r0 & R0 & H). apply bind_ok in H as (r & R & H). apply bind_ok in H as (m & M & H).
  assert (WS : wf_sender_data (new_sender_data leaf gen guard)).
  { split; [|split; [exact G|exact L]]. destruct (node_index_cases leaf) as [E|[E LL]]; rewrite E in X; [discriminate|]. red. cbn [sd_leaf_index new_sender_data]. lia. }
  assert (S1 : sd_leaf_index (new_sender_data leaf gen guard) = leaf) by reflexivity. assert (S2 : sd_generation (new_sender_data leaf gen guard) = gen) by reflexivity.
  generalize dependent (new_sender_data leaf gen guard). intros sd M WS S1 S2. rewrite <- S1 in S.
  destruct (c43_roundtrip P cs sk pk r sds c sd ctx m AE KP W WS M) as (DS & pc & DC & _ & F). destruct (F S) as [AC V].
  assert (HD : pv_content_type m = content_type_of (fc_content c) /\ pv_epoch m = fc_epoch c).
  { unfold new_private_message in M. apply bind_ok in M as (ct & _ & M). apply bind_ok in M as (esd & _ & M). apply Ok_inj in M. subst m. split; reflexivity. }
  destruct HD as [HC HE]. assert (WM : wf_private_message m) by (red; rewrite HE; apply W).
  unfold receive. rewrite (de_exact_rt wf_private_message se_private_message de_private_message codec_private_message m b WM H). cbn [bind]. rewrite DS. cbn [bind].
  rewrite S1, S2, X. cbn [bind]. rewrite HC, R0. cbn [bind]. rewrite R. cbn [bind].
  rewrite DC. cbn [bind]. rewrite V. cbn [bind]. eexists. split; [reflexivity|exact AC].
Qed.

(** ** The keys used *)
Lemma label_name c : ratchet_label_str (ratchet_label_of c) = ratchet_name c.
Proof. destruct c; reflexivity. Qed.
Lemma c75_secret P cs h d s st path c (g : nat) : p_hpke P cs = Ok h -> d <= 31 -> new_secret_tree P cs (2 ^ d) s = Ok st ->
  N.of_nat (length path) = d -> N.of_nat g < 4294967296 ->
  (let* x := node_index (position 0 path) in let* r := derive_ratchet_root P cs st x (ratchet_label_of c) in steps P cs r g) =
  let* b := message_secret h s path c g in Ok (MkRatchet b (N.of_nat g)).
Proof.
  intros K D T L G. destruct (c36_nodes P cs h d s st K D T) as [LT N]. destruct (N path ltac:(lia)) as (b & B & E). rewrite L, N.sub_diag, node_at_leaf in E.
  assert (NI : node_index (position 0 path) = Ok (2 * position 0 path)).
  { unfold node_index, mul32, u32_max. destruct (N.leb_spec (2 * position 0 path) 4294967295) as [_|X]; [reflexivity|exfalso].
    assert (In2 : 2 * position 0 path < slen st). { destruct (N.lt_ge_cases (2 * position 0 path) (slen st)) as [Y|Y]; [exact Y|]. rewrite (sget_beyond _ _ Y) in E. discriminate. }
    unfold slen in In2. rewrite LT in In2. destruct (pow2_bound d D). lia. }
  rewrite NI. cbn [bind]. rewrite (c37_root P cs h st _ _ b K E), label_name. unfold message_secret. rewrite B. cbn [bind].
  destruct (expand_label h b (ratchet_name c) [] (nh h)) as [r|e| |]; cbn [bind]; try reflexivity.
  rewrite (c37_steps P cs h K g (MkRatchet r 0)) by (cbn [rt_generation]; lia). cbn [rt_secret rt_generation]. destruct (ratchet_after h r 0 g); reflexivity.
Qed.
Lemma c75_key P cs h d s st path c (g : nat) : p_hpke P cs = Ok h -> a_key_size h < 65536 -> a_nonce_size h < 65536 -> d <= 31 -> new_secret_tree P cs (2 ^ d) s = Ok st ->
  N.of_nat (length path) = d -> N.of_nat g < 4294967296 ->
  (let* x := node_index (position 0 path) in let* r := derive_ratchet_root P cs st x (ratchet_label_of c) in let* r := steps P cs r g in derive_key P cs r) = message_key h s path c g /\
  (let* x := node_index (position 0 path) in let* r := derive_ratchet_root P cs st x (ratchet_label_of c) in let* r := steps P cs r g in derive_nonce P cs r) = message_nonce h s path c g.
Proof.
  intros K A B D T L G. pose proof (c75_secret P cs h d s st path c g K D T L G) as E. unfold message_key, message_nonce.
  assert (Q : forall (f : ratchet_secret -> res bytes), (let* x := node_index (position 0 path) in let* r := derive_ratchet_root P cs st x (ratchet_label_of c) in let* r := steps P cs r g in f r) =
    let* b := message_secret h s path c g in f (MkRatchet b (N.of_nat g))).
  { intros f. destruct (node_index (position 0 path)) as [x|e| |]; cbn [bind] in *; [|destruct (message_secret h s path c g); cbn [bind] in *; congruence..].
    destruct (derive_ratchet_root P cs st x (ratchet_label_of c)) as [r|e| |]; cbn [bind] in *; [|destruct (message_secret h s path c g); cbn [bind] in *; congruence..].
    rewrite E. destruct (message_secret h s path c g); reflexivity. }
  rewrite !Q. split; (destruct (message_secret h s path c g) as [b|e| |]; [|reflexivity..]); cbn [bind]; apply (c37_keys P cs h (MkRatchet b (N.of_nat g)) K A B).
Qed.
Lemma c75_sender P cs h secret ct : p_hpke P cs = Ok h -> a_key_size h < 65536 -> a_nonce_size h < 65536 -> fits30 (firstn (N.to_nat (k_extract_size h)) ct) ->
  sender_data_key P cs secret ct = expand_label h secret (str "key") (firstn (N.to_nat (k_extract_size h)) ct) (a_key_size h) /\
  sender_data_nonce P cs secret ct = expand_label h secret (str "nonce") (firstn (N.to_nat (k_extract_size h)) ct) (a_nonce_size h).
Proof.
  intros K A B F. assert (SQ : sample_ciphertext P cs ct = Ok (firstn (N.to_nat (k_extract_size h)) ct)).
  { unfold sample_ciphertext. rewrite K. cbn [bind]. destruct (N.ltb_spec (N.of_nat (length ct)) (k_extract_size h)) as [L|_]; [|reflexivity]. rewrite firstn_all2 by lia. reflexivity. }
  unfold sender_data_key, sender_data_nonce. rewrite K, SQ. cbn [bind]. rewrite !N.mod_small by assumption. split; apply c38_expand; first [exact K|exact F|reflexivity].
Qed.

(** ** Different messages, different keys *)
Lemma message_secret_S k e path c g : message_secret k e path c (S g) = let* s := message_secret k e path c g in expand_label k s (str "secret") (be 4 (N.of_nat g)) (nh k).
Proof.
  unfold message_secret. destruct (node_secret k e path) as [s|x| |]; cbn [bind]; try reflexivity. destruct (expand_label k s (ratchet_name c) [] (nh k)) as [r|x| |]; cbn [bind]; try reflexivity.
  assert (Q : forall g s i, ratchet_after k s i (S g) = let* s := ratchet_after k s i g in expand_label k s (str "secret") (be 4 (i + N.of_nat g)) (nh k)).
  { clear. induction g as [|g IH]; intros s i.
    - cbn [ratchet_after bind]. change (N.of_nat 0) with 0. rewrite N.add_0_r. destruct (expand_label k s (str "secret") (be 4 i) (nh k)); reflexivity.
    - cbn [ratchet_after] in IH |- *. destruct (expand_label k s (str "secret") (be 4 i) (nh k)) as [s'|x| |]; cbn [bind]; try reflexivity.
      rewrite IH. destruct (ratchet_after k s' (i + 1) g); cbn [bind]; try reflexivity. do 2 f_equal. lia. }
  rewrite Q. reflexivity.
Qed.
Lemma node_secret_app k e p b : node_secret k e (p ++ [b]) = let* s := node_secret k e p in expand_label k s (str "tree") (if b then str "right" else str "left") (nh k).
Proof.
  revert e. induction p as [|a p IH]; intros e; cbn [node_secret app bind].
  - destruct (expand_label k e (str "tree") (if b then str "right" else str "left") (nh k)); reflexivity.
  - destruct (expand_label k e (str "tree") (if a then str "right" else str "left") (nh k)) as [s|x| |]; cbn [bind]; try reflexivity. apply IH.
Qed.
Lemma nh_small k : nh k < 65536.
Proof. unfold nh. apply N.mod_lt. discriminate. Qed.

(** Equal outputs of two calls: equal arguments, unless they collide. *)
Lemma call_eq k e path c g e' path' c' g' x x' b : kdf_call k e path c g x -> kdf_call k e' path' c' g' x' -> expand3 k x = Ok b -> expand3 k x' = Ok b ->
  x = x' \/ key_collision k e path c g e' path' c' g'.
Proof.
  intros C C' E E'. destruct x as [[s i] n], x' as [[s' i'] n']. destruct (list_eq_dec Byte.byte_eq_dec s s') as [->|Ns]; [destruct ((list_eq_dec Byte.byte_eq_dec) i i') as [->|Ni]; [destruct (N.eq_dec n n') as [->|Nn]|]|].
  - left. reflexivity.
  - right. exists (s', i', n), (s', i', n'), b. repeat split; try assumption. congruence.
  - right. exists (s', i, n), (s', i', n'), b. repeat split; try assumption. congruence.
  - right. exists (s, i, n), (s', i', n'), b. repeat split; try assumption. congruence.
Qed.

Lemma triple (s s' i i' : bytes) (n n' : N) : (s, i, n) = (s', i', n') -> s = s' /\ i = i'.
Proof. intros E. split; congruence. Qed.
Section Pair.
  Variables (k : hpke_alg) (e e' : bytes) (path path' : list bool) (c c' : content_type) (g g' : nat).
  Let coll := key_collision k e path c g e' path' c' g'.
  Lemma nodes_bind : forall p p' b, length p = length p' -> (exists q, path = (p ++ q)%list) -> (exists q, path' = (p' ++ q)%list) ->
    node_secret k e p = Ok b -> node_secret k e' p' = Ok b -> coll \/ (e = e' /\ p = p').
  Proof.
    intros p. induction p as [|a p IH] using rev_ind; intros p' b L (q & Q) (q' & Q') H H'.
    - destruct p' as [|]; [|discriminate]. cbn in H, H'. right. split; [congruence|reflexivity].
    - destruct p' as [|a' p' _] using rev_ind; [rewrite app_length in L; cbn in L; lia|]. rewrite !app_length in L. cbn in L.
      rewrite node_secret_app in H, H'. apply bind_ok in H as (s & S & H). apply bind_ok in H' as (s' & S' & H').
      rewrite <- app_assoc in Q, Q'. cbn in Q, Q'.
      destruct (call_eq k e path c g e' path' c' g' _ _ b (kc_tree k e path c g p a q s Q S) (kc_tree k e' path' c' g' p' a' q' s' Q' S') H H') as [E|C]; [|left; exact C].
      apply triple in E as [E1 E2]. subst s'. apply kdf_label_inj in E2 as (_ & E2 & _); [|destruct a; reflexivity|destruct a; reflexivity|destruct a'; reflexivity|destruct a'; reflexivity|apply nh_small|apply nh_small].
      assert (Ea : a = a') by (destruct a, a'; try reflexivity; discriminate). subst a'.
      destruct (IH p' s ltac:(lia) (ex_intro _ _ Q) (ex_intro _ _ Q') S S') as [C|[-> ->]]; [left; exact C|right; split; reflexivity].
  Qed.
  Lemma secrets_bind : length path = length path' -> forall m m' b, (m <= g)%nat -> (m' <= g')%nat -> m = m' -> N.of_nat g < 4294967296 -> N.of_nat g' < 4294967296 ->
    message_secret k e path c m = Ok b -> message_secret k e' path' c' m' = Ok b -> coll \/ (e = e' /\ path = path' /\ ratchet_name c = ratchet_name c').
  Proof.
    intros L m. induction m as [|m IH]; intros m' b Lm Lm' Em G G' H H'; subst m'.
    - unfold message_secret in H, H'. apply bind_ok in H as (s & S & H). apply bind_ok in H' as (s' & S' & H'). cbn [ratchet_after] in H, H'.
      apply bind_ok in H as (r & R & H). apply bind_ok in H' as (r' & R' & H'). apply Ok_inj in H, H'. subst r r'.
      destruct (call_eq k e path c g e' path' c' g' _ _ b (kc_root k e path c g s S) (kc_root k e' path' c' g' s' S') R R') as [E|C]; [|left; exact C].
      apply triple in E as [E1 E2]. subst s'. apply kdf_label_inj in E2 as (E2 & _); [|destruct c; reflexivity|reflexivity|destruct c'; reflexivity|reflexivity|apply nh_small|apply nh_small].
      destruct (nodes_bind path path' s L (ex_intro _ [] (eq_sym (app_nil_r _))) (ex_intro _ [] (eq_sym (app_nil_r _))) S S') as [C|[-> ->]]; [left; exact C|right; auto].
    - rewrite message_secret_S in H, H'. apply bind_ok in H as (s & S & H). apply bind_ok in H' as (s' & S' & H').
      destruct (call_eq k e path c g e' path' c' g' _ _ b (kc_step k e path c g m s ltac:(lia) S) (kc_step k e' path' c' g' m s' ltac:(lia) S') H H') as [E|C]; [|left; exact C].
      apply triple in E as [E1 _]. subst s'. exact (IH m s ltac:(lia) ltac:(lia) eq_refl G G' S S').
  Qed.
  Lemma c75_distinct b : length path = length path' -> a_key_size k < 65536 -> N.of_nat g < 4294967296 -> N.of_nat g' < 4294967296 ->
    message_key k e path c g = Ok b -> message_key k e' path' c' g' = Ok b -> coll \/ (e = e' /\ path = path' /\ ratchet_name c = ratchet_name c' /\ g = g').
  Proof.
    intros L A G G' H H'. unfold message_key in H, H'. apply bind_ok in H as (s & S & H). apply bind_ok in H' as (s' & S' & H').
    destruct (call_eq k e path c g e' path' c' g' _ _ b (kc_key k e path c g s S) (kc_key k e' path' c' g' s' S') H H') as [E|C]; [|left; exact C].
    apply triple in E as [E1 E2]. subst s'. apply kdf_label_inj in E2 as (_ & E2 & _); [|reflexivity|apply fits30_be4|reflexivity|apply fits30_be4|exact A|exact A].
    apply be4_inj in E2; [|exact G|exact G']. assert (g = g') by lia.
    destruct (secrets_bind L g g' s ltac:(lia) ltac:(lia) H0 G G' S S') as [C|(-> & -> & ->)]; [left; exact C|right; auto].
  Qed.
End Pair.
