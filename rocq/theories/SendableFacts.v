(** Whatever can be signed can be sent. *)
From Verif Require Import SpecMessages SpecSecrets SpecTraffic SpecSendable CodecLib SecretFacts DigestFacts PrivateFacts MessageFacts TrafficFacts SecretTree SpecTree TreeMathProofs TreeOps Passive PassiveFacts KeyFacts ExProvider Examples.
From Coq Require Import ZifyBool ZifyNat ZifyN.
Local Open Scope N_scope.
Local Open Scope list_scope.

Lemma small_fits b n : N.of_nat (length b) < n -> n <= 1073741824 -> fits30 b.
Proof. unfold fits30. lia. Qed.
Lemma sq {a b : res bytes} {x y} : a = Ok x -> b = Ok y -> a +++ b = Ok (x ++ y).
Proof. intros -> ->. reflexivity. Qed.

Lemma tbs_parts w c ctx raw : se_framed_content_tbs (MkTBS MLS10 w c (Some ctx)) = Ok raw -> exists f g a body,
  se_framed_content c = Ok f /\ se_opaque (fc_group_id c) = Ok g /\ se_opaque (fc_auth_data c) = Ok a /\ se_content_body (fc_content c) = Ok body /\ (length body <= length raw)%nat.
Proof.
  unfold se_framed_content_tbs. cbn [tbs_version tbs_wire_format tbs_content tbs_context]. intros H. apply seqw_ok in H as (x1 & y1 & _ & H & ->). apply seqw_ok in H as (x2 & y2 & _ & H & ->).
  apply seqw_ok in H as (f & y3 & F & _ & ->). pose proof F as F0. unfold se_framed_content in F. apply seqw_ok in F as (g & z1 & G & F & ->). apply seqw_ok in F as (e & z2 & _ & F & ->).
  apply seqw_ok in F as (s & z3 & _ & F & ->). apply seqw_ok in F as (a & z4 & A & F & ->). unfold se_content in F. apply seqw_ok in F as (t & body & _ & B & ->).
  exists (g ++ e ++ s ++ a ++ t ++ body), g, a, body. split; [exact F0|]. split; [exact G|]. split; [exact A|]. split; [exact B|]. rewrite !app_length. lia.
Qed.

Lemma signed_iff P cs sk w c ctx : signs P cs sk -> ((exists a, new_auth_content P cs sk w c ctx = Ok a) <-> signable w c ctx 0).
Proof.
  intros (a & A & S). unfold new_auth_content, sign_framed_content, content_tbs, sign_with_label. cbn [ac_wire_format ac_content]. split.
  - intros (x & H). apply bind_ok in H as (s & H & _). apply bind_ok in H as (raw & R & H). apply bind_ok in H as (m & M & _). exists raw. split; [exact R|].
    unfold mls_prefix_label_data in M. apply seqw_ok in M as (y1 & y2 & _ & M & _). apply opaque_fits30 in M. unfold fits30 in M. lia.
  - intros (raw & R & L). rewrite R. cbn [bind]. unfold mls_prefix_label_data. assert (F : fits30 raw) by (unfold fits30; lia). apply DigestFacts.opaque_fits in F as (y & F). rewrite F.
    assert (Q : exists x, se_opaque (mls_prefix ++ str "FramedContentTBS") = Ok x) by (eexists; vm_compute; reflexivity). destruct Q as (x & Q). rewrite Q. unfold seqw. cbn [bind].
    rewrite A. cbn [bind]. destruct (S (x ++ y)) as (s & E & _). rewrite E. eexists. reflexivity.
Qed.
Lemma signed_shape P cs sk w c ctx a : signs P cs sk -> new_auth_content P cs sk w c ctx = Ok a -> exists s, a = MkAuthContent w c (MkAuth s []) /\ N.of_nat (length s) < 65536.
Proof.
  intros (g & A & S) H. unfold new_auth_content in H. apply bind_ok in H as (s & H & E). injection E as <-. exists s. split; [reflexivity|].
  unfold sign_framed_content, sign_with_label in H. apply bind_ok in H as (raw & _ & H). apply bind_ok in H as (m & _ & H). rewrite A in H. cbn [bind] in H.
  destruct (S m) as (s' & E & L). rewrite E in H. injection H as <-. exact L.
Qed.
Lemma vec_len b : (length (vec b) <= length b + 4)%nat.
Proof. unfold vec. rewrite app_length. repeat match goal with |- context [if ?c then _ else _] => destruct c end; rewrite be_length; lia. Qed.
Lemma auth_made ct s : N.of_nat (length s) < 65536 -> exists b, se_auth_data ct (MkAuth s []) = Ok b /\ N.of_nat (length b) < 65545.
Proof.
  intros L. unfold se_auth_data. cbn [ad_signature ad_confirmation_tag]. rewrite (se_opaque_vec s) by (unfold fits30; lia). pose proof (vec_len s).
  destruct ct; (eexists; split; [eapply sq; [reflexivity|vm_compute; reflexivity]|]); rewrite app_length; cbn [length]; lia.
Qed.

Lemma c128_public P cs sk mk c ctx : signs P cs sk -> tags P cs -> ((exists b, send_public P cs ctx sk mk c = Ok b) <-> signable WFPublicMessage c ctx 0).
Proof.
  intros S (h & Hh & T). unfold send_public, new_public_message. split.
  - intros (b & H). apply bind_ok in H as (m & H & _). apply bind_ok in H as (a & H & _). apply (signed_iff P cs sk _ c ctx S). eauto.
  - intros G. pose proof G as (raw & R & L). apply (signed_iff P cs sk _ c ctx S) in G as (a & A). rewrite A. cbn [bind].
    destruct (signed_shape _ _ _ _ _ _ _ S A) as (s & -> & Ls). cbn [ac_content ac_auth]. unfold sign_membership_tag. cbn [pm_content].
    destruct (tbs_parts _ _ _ _ R) as (f & g & ad & body & F & _).
    destruct (auth_made (content_type_of (fc_content c)) s Ls) as (x & X & _).
    destruct (fc_sender c) as [i|i| |] eqn:ES.
    + unfold se_auth_content_tbm, public_tbm, public_auth_content, content_tbs. cbn [tbm_tbs tbm_auth pm_content pm_auth ac_wire_format ac_content tbs_content]. rewrite R, X. unfold seqw at 1. cbn [bind].
      unfold sign_mac. rewrite Hh. cbn [bind]. unfold se_mls_message, se_wire_message, se_public_message. cbn [mm_version mm_wire pm_content pm_auth pm_tag]. rewrite ES, F, X.
      destruct (DigestFacts.opaque_fits (h_mac h mk (raw ++ x))) as (y & Y); [specialize (T mk (raw ++ x)); unfold fits30; lia|]. rewrite Y. eexists. reflexivity.
    + cbn [bind]. unfold se_mls_message, se_wire_message, se_public_message. cbn [mm_version mm_wire pm_content pm_auth pm_tag]. rewrite ES, F, X. eexists. reflexivity.
    + cbn [bind]. unfold se_mls_message, se_wire_message, se_public_message. cbn [mm_version mm_wire pm_content pm_auth pm_tag]. rewrite ES, F, X. eexists. reflexivity.
    + cbn [bind]. unfold se_mls_message, se_wire_message, se_public_message. cbn [mm_version mm_wire pm_content pm_auth pm_tag]. rewrite ES, F, X. eexists. reflexivity.
Qed.

Lemma private_aad_made g e t a x y : se_opaque g = Ok x -> se_opaque a = Ok y -> exists z, se_private_content_aad (MkPrivateAAD g e t a) = Ok z.
Proof. intros X Y. unfold se_private_content_aad. cbn [pa_group_id pa_epoch pa_content_type pa_auth_data]. rewrite X, Y. eexists. reflexivity. Qed.
Lemma sender_aad_made g e t x : se_opaque g = Ok x -> exists z, se_sender_data_aad (MkSenderDataAAD g e t) = Ok z.
Proof. intros X. unfold se_sender_data_aad. cbn [sda_group_id sda_epoch sda_content_type]. rewrite X. eexists. reflexivity. Qed.

Section Seal.
  Variables (P : provider) (cs : cipher_suite) (k : hpke_alg) (sk : bytes).
  Hypotheses (SL : seals P cs k) (SG : signs P cs sk).

  Lemma key_nonce_made r guard : usable k (rt_secret r) -> length guard = 4%nat -> exists key nonce, message_key_nonce P cs r guard = Ok (key, nonce) /\
    N.of_nat (length key) = a_key_size k /\ N.of_nat (length nonce) = a_nonce_size k.
  Proof.
    intros U G. destruct (c37_keys P cs k r (sl_alg _ _ _ SL) (sl_key _ _ _ SL) (proj2 (sl_nonce _ _ _ SL))) as [E1 E2]. unfold message_key_nonce. rewrite E1, E2. unfold expand_label.
    destruct (sl_expand _ _ _ SL (rt_secret r) (kdf_label (str "key") (be 4 (rt_generation r)) (a_key_size k)) (a_key_size k) U ltac:(auto)) as (a & A & LA). rewrite A. cbn [bind].
    destruct (sl_expand _ _ _ SL (rt_secret r) (kdf_label (str "nonce") (be 4 (rt_generation r)) (a_nonce_size k)) (a_nonce_size k) U ltac:(auto)) as (b & B & LB). rewrite B. cbn [bind].
    pose proof (sl_nonce _ _ _ SL) as LN. destruct (Nat.ltb_spec (length b) (length guard)); [lia|]. exists a, (xor_prefix b guard). split; [reflexivity|]. rewrite xor_prefix_length. auto.
  Qed.

  Lemma content_sealed r c ctx guard raw : usable k (rt_secret r) -> length guard = 4%nat ->
    se_framed_content_tbs (MkTBS MLS10 WFPrivateMessage c (Some ctx)) = Ok raw -> N.of_nat (length raw) < 1073741824 ->
    exists ct, encrypt_private_content P cs sk r c ctx guard = Ok ct /\ N.of_nat (length ct) < N.of_nat (length raw) + 131081.
  Proof.
    intros U G R L. destruct (proj2 (signed_iff P cs sk WFPrivateMessage c ctx SG)) as (a & A); [exists raw; split; [exact R|lia]|].
    destruct (signed_shape _ _ _ _ _ _ _ SG A) as (s & -> & Ls). unfold encrypt_private_content. rewrite A. cbn [bind ac_auth].
    destruct (tbs_parts _ _ _ _ R) as (f & g & ad & body & F & EG & EA & EB & LB). destruct (auth_made (content_type_of (fc_content c)) s Ls) as (x & X & LX).
    unfold se_private_content. cbn [pc_content pc_auth]. rewrite (sq EB X). cbn [bind].
    destruct (key_nonce_made r guard U G) as (key & nonce & E & LK & LN). rewrite E. cbn [bind].
    destruct (private_aad_made (fc_group_id c) (fc_epoch c) (content_type_of (fc_content c)) (fc_auth_data c) g ad EG EA) as (aad & AD). rewrite AD. cbn [bind]. rewrite (sl_alg _ _ _ SL). cbn [bind].
    destruct (sl_seal _ _ _ SL key nonce (body ++ x) aad LK LN ltac:(rewrite app_length; lia)) as (ct & C & LC). exists ct. split; [exact C|]. rewrite app_length in LC. lia.
  Qed.

  Lemma sender_sealed sds sd c ct g : usable k sds -> length (sd_reuse_guard sd) = 4%nat -> se_opaque (fc_group_id c) = Ok g ->
    exists esd, encrypt_sender_data P cs sds sd c ct = Ok esd /\ N.of_nat (length esd) < 65548.
  Proof.
    intros U G EG. assert (FF : fits30 (firstn (N.to_nat (k_extract_size k)) ct)). { unfold fits30. pose proof (firstn_le_length (N.to_nat (k_extract_size k)) ct). pose proof (sl_extract _ _ _ SL). lia. }
    destruct (c75_sender P cs k sds ct (sl_alg _ _ _ SL) (sl_key _ _ _ SL) (proj2 (sl_nonce _ _ _ SL)) FF) as [E1 E2]. unfold encrypt_sender_data. rewrite E1, E2. unfold expand_label.
    destruct (sl_expand _ _ _ SL sds (kdf_label (str "key") (firstn (N.to_nat (k_extract_size k)) ct) (a_key_size k)) (a_key_size k) U ltac:(auto)) as (a & A & LA). rewrite A. cbn [bind].
    destruct (sl_expand _ _ _ SL sds (kdf_label (str "nonce") (firstn (N.to_nat (k_extract_size k)) ct) (a_nonce_size k)) (a_nonce_size k) U ltac:(auto)) as (b & B & LB). rewrite B. cbn [bind].
    destruct (sender_aad_made (fc_group_id c) (fc_epoch c) (content_type_of (fc_content c)) g EG) as (aad & AD). rewrite AD. cbn [bind].
    assert (S : exists y, se_sender_data sd = Ok y /\ length y = 12%nat). { unfold se_sender_data. eexists. split; [reflexivity|]. rewrite !app_length, !be_length, G. reflexivity. }
    destruct S as (y & Y & LY). rewrite Y. cbn [bind]. rewrite (sl_alg _ _ _ SL). cbn [bind]. destruct (sl_seal _ _ _ SL a b y aad LA LB ltac:(lia)) as (esd & E & L). exists esd. split; [exact E|lia].
  Qed.

  Lemma c128_message r sds c sd ctx : usable k (rt_secret r) -> usable k sds -> length (sd_reuse_guard sd) = 4%nat ->
    ((exists m, new_private_message P cs sk r sds c sd ctx = Ok m) <-> signable WFPrivateMessage c ctx 0).
  Proof.
    intros U US G. unfold new_private_message. split.
    - intros (m & H). apply bind_ok in H as (ct & H & _). unfold encrypt_private_content in H. apply bind_ok in H as (a & A & _). apply (signed_iff P cs sk _ c ctx SG). eauto.
    - intros (raw & R & L). rewrite N.add_0_r in L. destruct (content_sealed r c ctx (sd_reuse_guard sd) raw U G R L) as (ct & C & _). rewrite C. cbn [bind].
      destruct (tbs_parts _ _ _ _ R) as (f & g & ad & body & F & EG & _). destruct (sender_sealed sds sd c ct g US G EG) as (esd & E & _). rewrite E. eexists. reflexivity.
  Qed.

  Lemma working : working_kdf P cs k.
  Proof. split; [exact (sl_alg _ _ _ SL)|]. intros s info U. destruct (sl_expand _ _ _ SL s info (nh k) U ltac:(auto)) as (b & B & L). exists b. split; [exact B|]. unfold usable. lia. Qed.
  Lemma after_usable : forall m s g, usable k s -> exists b, ratchet_after k s g m = Ok b /\ usable k b.
  Proof.
    induction m as [|m IH]; intros s g U; [exists s; auto|]. cbn [ratchet_after]. destruct (proj2 working s (kdf_label (str "secret") (be 4 g) (nh k)) U) as (b & B & UB).
    unfold expand_label. rewrite B. apply IH, UB.
  Qed.

  Lemma c128_send d encryption sds leaf gen guard c ctx : d <= 31 -> leaf < 2 ^ d -> gen < 4294967296 -> length guard = 4%nat -> usable k encryption -> usable k sds ->
    signable WFPrivateMessage c ctx 131080 ->
    exists st b, new_secret_tree P cs (2 ^ d) encryption = Ok st /\ send P cs ctx sk st sds leaf gen guard c = Ok b.
  Proof.
    intros D Hl Hg G UE US (raw & R & L). destruct (c36_total P cs k d encryption working UE D) as (st & EST & UST). exists st.
    assert (Q : exists s, sget st (2 * leaf) = Some s).
    { destruct (c36_nodes P cs k d encryption st (sl_alg _ _ _ SL) D EST) as [_ K]. destruct (c36_reach d (node_at 0 leaf)) as (path & LP & E).
      - unfold in_tree. rewrite node_at_leaf, N.pow_add_r, N.pow_1_r. lia.
      - destruct (K path LP) as (s & _ & S). exists s. rewrite <- node_at_leaf, E. exact S. }
    destruct Q as (s & S). unfold send. rewrite (node_index_ok d leaf D Hl). cbn [bind]. rewrite (c37_root P cs k st (2 * leaf) _ s (sl_alg _ _ _ SL) S).
    destruct (proj2 working s (kdf_label (ratchet_label_str (ratchet_label_of (content_type_of (fc_content c)))) [] (nh k)) (UST _ _ S)) as (s1 & S1 & U1).
    unfold expand_label. rewrite S1. cbn [bind]. rewrite (c37_steps P cs k (sl_alg _ _ _ SL)) by (cbn [rt_generation]; lia). cbn [rt_secret rt_generation].
    destruct (after_usable (N.to_nat gen) s1 0 U1) as (s2 & S2 & U2). rewrite S2. cbn [bind]. set (r := MkRatchet s2 (0 + N.of_nat (N.to_nat gen))).
    unfold new_private_message. assert (L' : N.of_nat (length raw) < 1073741824) by lia.
    destruct (content_sealed r c ctx guard raw U2 G R L') as (ct & C & LC). cbn [sd_reuse_guard new_sender_data]. rewrite C. cbn [bind].
    destruct (tbs_parts _ _ _ _ R) as (f & g & ad & body & F & EG & EA & _). destruct (sender_sealed sds (new_sender_data leaf gen guard) c ct g US G EG) as (esd & E & LE). rewrite E. cbn [bind].
    unfold se_private_message. cbn [pv_group_id pv_epoch pv_content_type pv_auth_data pv_sender_data pv_ciphertext]. rewrite EG, EA.
    rewrite (se_opaque_vec esd) by (unfold fits30; lia). rewrite (se_opaque_vec ct) by (unfold fits30; lia). eexists. split; [exact EST|reflexivity].
  Qed.
End Seal.

(** ** Delivered *)

Lemma c128_public_delivered P cs ctx sk pk mk c : signs P cs sk -> tags P cs -> key_pair_ok P cs sk pk -> wf_framed_content c -> signable WFPublicMessage c ctx 0 ->
  exists b, send_public P cs ctx sk mk c = Ok b /\ receive_public P cs ctx pk mk b = Ok c.
Proof. intros S T K W G. destruct (proj2 (c128_public P cs sk mk c ctx S T) G) as (b & B). exists b. split; [exact B|]. exact (c92_delivered _ _ _ _ _ _ _ _ K W B). Qed.
Lemma c128_private_delivered P cs k ctx sk pk d encryption sds leaf gen guard c : seals P cs k -> signs P cs sk -> aead_ok P cs -> key_pair_ok P cs sk pk ->
  d <= 31 -> leaf < 2 ^ d -> gen < 4294967296 -> length guard = 4%nat -> usable k encryption -> usable k sds ->
  wf_framed_content c -> fc_sender c = SMember leaf -> signable WFPrivateMessage c ctx 131080 ->
  exists st b a, new_secret_tree P cs (2 ^ d) encryption = Ok st /\ send P cs ctx sk st sds leaf gen guard c = Ok b /\
    receive P cs ctx pk st sds b = Ok a /\ ac_content a = c.
Proof.
  intros SL SG A K D Hl Hg G UE US W M H. destruct (c128_send P cs k sk SL SG d encryption sds leaf gen guard c ctx D Hl Hg G UE US H) as (st & b & T & B).
  destruct (c75_delivered _ _ _ _ _ _ _ _ _ _ _ _ A K W M Hg G B) as (a & R & E). exists st, b, a. auto.
Qed.
Lemma c128_only P cs ctx sk st sds leaf gen guard c b : signs P cs sk -> send P cs ctx sk st sds leaf gen guard c = Ok b -> signable WFPrivateMessage c ctx 0.
Proof.
  intros SG H. unfold send in H. apply bind_ok in H as (x & _ & H). apply bind_ok in H as (r & _ & H). apply bind_ok in H as (r' & _ & H). apply bind_ok in H as (m & H & _).
  unfold new_private_message in H. apply bind_ok in H as (ct & H & _). unfold encrypt_private_content in H. apply bind_ok in H as (a & A & _). apply (signed_iff P cs sk _ c ctx SG). eauto.
Qed.

(** ** A provider of ordinary sizes *)
Definition modest_hpke : hpke_alg :=
  MkHpke (fun ikm => Ok (MkHpkeKeyPair ikm (x01 :: ikm)))
         (fun s i n => Ok (firstn (N.to_nat n) (rev i ++ s ++ repeat x00 (N.to_nat n))))%list
         (fun s salt => Ok (salt ++ s ++ repeat x00 4)%list) 4 4 4
         (fun k n c a => toy_strip (k ++ n ++ firstn 8 a) c)%list
         (fun k n p a => Ok (k ++ n ++ firstn 8 a ++ p))%list.
Definition modest_sig : sig_alg :=
  MkSig ED25519 (fun k m => Ok (firstn 64 (k ++ rev m))%list) (fun k m s => if bytes_eqb s (firstn 64 (k ++ rev m))%list then Ok tt else Err RustCryptoError).
Definition modest : provider :=
  MkProvider (fun cs => match cs with Suite1 => true | _ => false end) [Suite1]
    (fun _ => Ok (MkHash 4 (fun x => firstn 4 x) (fun k m => firstn 16 (k ++ m)%list))) (fun _ => Ok modest_hpke) (fun _ => Ok modest_sig)
    (fun _ pk info e p => Ok (e, pk ++ info ++ e ++ p))%list
    (fun _ sk info kem c => toy_strip ((x01 :: sk) ++ info ++ kem)%list c).
Lemma modest_signs sk : signs modest Suite1 sk.
Proof. exists modest_sig. split; [reflexivity|]. intros m. eexists. split; [reflexivity|]. pose proof (firstn_le_length 64 (sk ++ rev m)). lia. Qed.
Lemma modest_tags : tags modest Suite1.
Proof. eexists. split; [reflexivity|]. intros k m. cbn [h_mac]. pose proof (firstn_le_length 16 (k ++ m)). lia. Qed.
Lemma modest_seals : seals modest Suite1 modest_hpke.
Proof.
  constructor; try reflexivity.
  - split; reflexivity || discriminate.
  - intros s i n _ _. eexists. split; [reflexivity|]. rewrite firstn_length, !app_length, repeat_length. lia.
  - intros key nonce pt aad K L _. cbn [a_key_size a_nonce_size modest_hpke] in K, L. eexists. split; [reflexivity|]. rewrite !app_length. pose proof (firstn_le_length 8 aad). lia.
Qed.
Lemma modest_aead cs : aead_ok modest cs.
Proof.
  intros h k n p ad c H. apply Ok_inj in H. subst h. cbn [a_seal a_open modest_hpke]. intros S. apply Ok_inj in S. subst c.
  replace (k ++ n ++ firstn 8 ad ++ p) with ((k ++ n ++ firstn 8 ad) ++ p) by (rewrite <- !app_assoc; reflexivity). apply toy_strip_app.
Qed.
Lemma modest_keys cs k : key_pair_ok modest cs k k.
Proof. intros a m s H. apply Ok_inj in H. subst a. cbn [s_sign s_verify modest_sig]. intros S. apply Ok_inj in S. subst s. rewrite bytes_eqb_refl. reflexivity. Qed.
Lemma c128_large P cs ctx sk st sds leaf gen guard c b : signs P cs sk -> ~ fits30 (fc_auth_data c) -> send P cs ctx sk st sds leaf gen guard c <> Ok b.
Proof.
  intros S N H. destruct (c128_only _ _ _ _ _ _ _ _ _ _ _ S H) as (raw & R & _). destruct (tbs_parts _ _ _ _ R) as (f & g & a & body & _ & _ & A & _).
  apply N. exact (PassiveFacts.opaque_fits _ _ A).
Qed.
