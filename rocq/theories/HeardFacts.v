(** A commit that is made and sent is accepted. *)
From Verif Require Import SpecHeard SpecRatchet SpecMembers SpecMessages SpecSendable SpecCommit SpecProposals SpecAble SpecSecrets WireWF CodecLib PassiveCommit.
From Verif Require RepeatFacts CostFacts TreeOps.
From Verif Require Import SecretFacts DigestFacts MessageFacts KeyFacts SendableFacts BuildableFacts AbleFacts AbleMore CommitFacts TreeFacts TreeInv HashFacts MemberFacts LeafFacts.
From Verif Require Import Examples ExProvider TreePaths.
From Coq Require Import FinFun ZifyBool ZifyNat ZifyN.
Local Open Scope N_scope.
Local Open Scope list_scope.

Lemma within_seq n m a b : within n a -> within m b -> within (n + m) (a +++ b).
Proof. intros (x & -> & L) (y & -> & M). exists (x ++ y). split; [exact (sq eq_refl eq_refl)|]. rewrite app_length. lia. Qed.
Lemma within_le n m r : n <= m -> within n r -> within m r.
Proof. intros L (b & E & H). exists b. split; [exact E|lia]. Qed.
Lemma within_opaque n b : N.of_nat (length b) <= n -> n < 1073741824 -> within (n + 4) (se_opaque b).
Proof. intros L M. exists (vec b). split; [apply se_opaque_vec; unfold fits30; lia|]. pose proof (vec_len b). lia. Qed.
Lemma within_u8 n : within 1 (put_u8 n). Proof. eexists. split; [reflexivity|]. rewrite be_length. lia. Qed.
Lemma within_u16 n : within 2 (put_u16 n). Proof. eexists. split; [reflexivity|]. rewrite be_length. lia. Qed.
Lemma within_u32 n : within 4 (put_u32 n). Proof. eexists. split; [reflexivity|]. rewrite be_length. lia. Qed.
Lemma within_u64 n : within 8 (put_u64 n). Proof. eexists. split; [reflexivity|]. rewrite be_length. lia. Qed.
Lemma within_left n a b : within n (a +++ b) -> within n a.
Proof. intros (x & E & L). apply seq_ok in E as (y & z & Y & Z & ->). exists y. split; [exact Y|]. rewrite app_length in L. lia. Qed.
Lemma within_right n a b : within n (a +++ b) -> within n b.
Proof. intros (x & E & L). apply seq_ok in E as (y & z & Y & Z & ->). exists z. split; [exact Z|]. rewrite app_length in L. lia. Qed.

(** The leaf with another key and another source. *)
Lemma renewed_size l ek ph n : within n (lasting l) -> N.of_nat (length ek) < 65536 -> N.of_nat (length ph) < 65536 ->
  within (n + 131100) (se_leaf_payload (MkLeafPayload ek (lp_signature_key (ln_payload l)) (lp_credential (ln_payload l)) (lp_capabilities (ln_payload l)) (LSCommit ph) (lp_extensions (ln_payload l)))).
Proof.
  intros H E F. unfold lasting, se_leaf_payload in *. cbn [lp_encryption_key lp_signature_key lp_credential lp_capabilities lp_source lp_extensions].
  destruct H as (x & H & L). apply seq_ok in H as (x2 & y2 & H2 & H & ->). apply seq_ok in H as (x3 & y3 & H3 & H & ->). apply seq_ok in H as (x4 & y4 & H4 & H6 & ->). rewrite H2, H3, H4, H6.
  destruct (opaque_small _ E) as (a & A & LA). destruct (opaque_small _ F) as (b & B & LB). unfold se_leaf_node_source, put_u8. rewrite A, B.
  eexists. split; [unfold seqw; cbn [bind]; reflexivity|]. rewrite !app_length in *. rewrite be_length. lia.
Qed.

(** It can be signed for the group and the place. *)
Lemma renewed_signed P cs sk l ek ph g i : signs P cs sk -> key_pair_ok P cs sk (signature_key l) -> within 134217728 (lasting l) ->
  N.of_nat (length ek) < 65536 -> N.of_nat (length ph) < 65536 -> N.of_nat (length g) <= 134217728 ->
  exists l', renewed l ek l' /\ lp_source (ln_payload l') = LSCommit ph /\ leaf_signed P cs l' g i /\ within 134500000 (se_leaf_node l').
Proof.
  intros (a & A & S) K L E F G. pose proof (renewed_size l ek ph _ L E F) as W.
  set (pl := MkLeafPayload ek _ _ _ _ _) in *.
  assert (T : within (134217728 + 131100 + (134217728 + 4 + 4)) (se_leaf_node_tbs pl (TIUpdateOrCommit g i))).
  { unfold se_leaf_node_tbs. apply within_seq; [exact W|]. cbn [lp_source pl]. apply within_seq; [apply within_opaque; [exact G|lia]|apply within_u32]. }
  destruct T as (tbs & T & LT). destruct (S (mls_label (str "LeafNodeTBS") )) as (_ & _ & _).
  pose proof (label_data_eq (str "LeafNodeTBS") tbs eq_refl) as D. assert (FT : fits30 tbs) by (unfold fits30; lia). specialize (D FT).
  destruct (mls_prefix_label_data (str "LeafNodeTBS") tbs) as [m| | |] eqn:EM; try discriminate. destruct (S m) as (s & SS & LS).
  exists (MkLeafNode pl s). split; [|split; [reflexivity|split]].
  - unfold renewed, encryption_key, signature_key. cbn. repeat split; eauto.
  - exists tbs, m, a. split; [exact T|]. split; [exact EM|]. split; [exact A|]. exact (K a m s A SS).
  - unfold se_leaf_node. cbn [ln_payload ln_signature]. eapply within_le; [|apply within_seq; [exact W|apply (within_opaque 65536); lia]]. lia.
Qed.

Lemma chain_size P cs h t i ph fp : hashes P cs h -> fp <> [] -> hash_chain P cs t i ph fp -> N.of_nat (length ph) < 65536.
Proof.
  intros (H & S) N C. destruct fp as [|x fp]; [contradiction|]. destruct C as (p & s & th & _ & _ & _ & E & _). unfold parent_hash in E.
  apply bind_ok in E as (inp & _ & E). rewrite H in E. cbn [bind] in E. apply Ok_inj in E. subst ph. apply S.
Qed.
Lemma member_small t d i l : good t d -> leaf_at t i = Some l -> i < 2 ^ d.
Proof. intros G L. apply (shaped_member_lt t d i (good_shaped t d G)), (shaped_leaf_at t d i (good_shaped t d G)); eauto. Qed.

Lemma commit_signable ctx i ad ps u w : handy ctx ad ps ->
  opt_P (fun u => within 134500000 (se_leaf_node (up_leaf u)) /\ within 134217728 (se_vector se_update_path_node (up_nodes u))) u -> signable w (commit_of ctx i ad ps u) ctx 0.
Proof.
  intros [(WC & C) D (WP & R)] O.
  assert (U : within 268717740 (se_option se_update_path u)).
  { destruct u as [u|]; [|apply (within_le 1); [lia|apply within_u8]]. destruct O as (L & V). eapply within_le; [|apply within_seq; [apply within_u8|unfold se_update_path; apply within_seq; [exact L|exact V]]]. lia. }
  assert (GI : within 134217728 (se_opaque (gc_group_id ctx))).
  { pose proof C as X. unfold se_group_context in X. do 2 apply within_right in X. apply within_left in X. exact X. }
  assert (Q : within 1073000000 (se_framed_content_tbs (MkTBS MLS10 w (commit_of ctx i ad ps u) (Some ctx)))).
  { unfold se_framed_content_tbs, commit_of. cbn [tbs_version tbs_wire_format tbs_content fc_sender tbs_context]. eapply within_le; [|apply within_seq; [apply within_u16|apply within_seq; [apply within_u16|apply within_seq; [|exact C]]]]; [|].
    2:{ unfold se_framed_content. cbn [fc_group_id fc_epoch fc_sender fc_auth_data fc_content]. apply within_seq; [exact GI|]. apply within_seq; [apply within_u64|]. apply within_seq; [apply within_seq; [apply within_u8|apply within_u32]|].
        apply within_seq; [apply within_opaque; [exact D|lia]|]. apply within_seq; [apply within_u8|]. cbn [se_content_body]. unfold se_commit. cbn [cm_proposals cm_path]. apply within_seq; [exact R|exact U]. }
    lia. }
  destruct Q as (raw & Q & LQ). exists raw. split; [exact Q|lia].
Qed.

Lemma commit_readable ctx i ad ps u : handy ctx ad ps -> is_u32 i -> opt_P wf_update_path u -> wf_framed_content (commit_of ctx i ad ps u).
Proof.
  intros [(WC & _) _ (WP & _)] I U. unfold wf_framed_content, commit_of. cbn [fc_epoch fc_sender fc_content wf_sender wf_content]. split; [apply WC|]. split; [exact I|].
  split; [|exact U]. cbn [cm_proposals]. apply Forall_map. eapply Forall_impl; [|exact WP]. intros p Q. exact Q.
Qed.

Lemma c131_signed P cs sa h k t d ctx epoch mk i l j sk ek ns fp ad ps : p_sig P cs = Ok sa -> hashes P cs h -> tags P cs -> p_hpke P cs = Ok k -> good t d -> encodes t ->
  committer P cs t i l sk -> j <> i -> ~ blank_at t j -> expand_label k epoch (str "membership") [] (nh k) = Ok mk -> handy ctx ad ps ->
  valid_list ps (repeat i (length ps)) i -> (forall p, In p ps -> psk_of p = None) -> (exists t2, tree_apply t ps (repeat i (length ps)) = Ok t2) ->
  filtered_direct_path t (2 * i) = Ok fp -> length ns = length fp -> within 134217728 (se_vector se_update_path_node ns) ->
  N.of_nat (length ek) < 65536 -> unused t ek -> Forall (fun n => fits30 (upn_encryption_key n) /\ unused t (upn_encryption_key n)) ns ->
  exists l' b t', renewed l ek l' /\ send_public P cs ctx sk mk (commit_of ctx i ad ps (Some (MkUpdatePath l' ns))) = Ok b /\
    passive_commit P cs t ctx epoch b = Ok t' /\ merged P cs t d i (MkUpdatePath l' ns) t' /\ good t' d /\ encodes t' /\ leaf_signed P cs l' (gc_group_id ctx) i.
Proof.
  intros A (H & HS) TG K G EN [M S KP CR EX WF SZ] JI NB MK HY VL NP TA FP LN VS LE UE FN.
  assert (Hi : i < 2 ^ d) by exact (member_small t d i l G M). pose proof (good_shaped t d G) as SH.
  assert (FK : Forall (fun n => fits30 (upn_encryption_key n)) ns) by (eapply Forall_impl; [|exact FN]; cbn; tauto).
  assert (FD : forall b, fits30 (h_digest h b)) by (intros b; specialize (HS b); unfold fits30; lia).
  destruct (c127_some P cs h t d i j ns fp G EN Hi JI NB H FD FP LN FK) as (ph & _ & Y).
  assert (LP : N.of_nat (length ph) < 65536).
  { destruct (Y (MkLeafNode (MkLeafPayload [] [] (CredBasic []) (MkCapabilities [] [] [] [] []) (LSCommit ph) []) [])) as (t0 & r & E & Z & _). rewrite (Z eq_refl) in E.
    apply (c25 P cs t d i _ t0 SH Hi) in E. destruct (mg_path _ _ _ _ _ _ _ E) as (fp' & ph' & _ & N & _ & _ & _ & SRC & C). cbn in SRC. injection SRC as <-.
    exact (chain_size P cs h t0 i ph fp' (conj H HS) N C). }
  assert (LG : N.of_nat (length (gc_group_id ctx)) <= 134217728).
  { destruct (hy_context _ _ _ HY) as (_ & C). unfold se_group_context in C. do 2 apply within_right in C. apply within_left in C. destruct C as (x & C & LX).
    pose proof (PassiveFacts.opaque_fits _ _ C) as F. rewrite (se_opaque_vec _ F) in C. apply Ok_inj in C. subst x. unfold vec in LX. rewrite app_length in LX. lia. }
  destruct (renewed_signed P cs sk l ek ph (gc_group_id ctx) i S KP SZ LE LP LG) as (l' & RN & SRC & SG & WL).
  destruct (Y l') as (t' & r & E & Z & _). rewrite (Z SRC) in E. pose proof (proj1 (c25 P cs t d i _ t' SH Hi) E) as MG.
  set (u := MkUpdatePath l' ns) in *.
  destruct RN as (R1 & R2 & R3 & R4 & R5 & R6).
  assert (SGN : signable WFPublicMessage (commit_of ctx i ad ps (Some u)) ctx 0) by (apply commit_signable; [exact HY|split; [exact WL|exact VS]]).
  assert (WFU : wf_update_path u).
  { unfold wf_update_path, wf_leaf_node, wf_leaf_payload in *. cbn [up_leaf u]. rewrite R4, R5, SRC. repeat split; apply WF. }
  assert (I32 : is_u32 i) by (pose proof (shaped_small t d i l SH M); unfold is_u32; lia).
  destruct (proj2 (c128_public P cs sk mk (commit_of ctx i ad ps (Some u)) ctx S TG) SGN) as (b & B).
  exists l', b, t'. split; [repeat split; assumption|]. split; [exact B|]. split; [|split; [exact MG|]].
  - refine (c94_honest P cs sa h k t d ctx epoch sk mk (commit_of ctx i ad ps (Some u)) i l _ ps b t' A H K SH M KP MK _ eq_refl eq_refl eq_refl eq_refl VL NP TA _ B).
    + apply commit_readable; [exact HY|exact I32|exact WFU].
    + cbn [cm_path]. constructor; cbn [up_leaf up_nodes u].
      * exact SG.
      * rewrite R3. exact CR.
      * rewrite R4, R5. exact EX.
      * intros j' m _ Q. rewrite Q. exact R2.
      * intros j' m Lm. rewrite R1. split; [exact (UE j' m Lm)|]. intros n In_n. rewrite Forall_forall in FN. exact (proj2 (FN n In_n) j' m Lm).
      * exact MG.
  - destruct WL as (lb & LB & _). destruct (c127_kept P cs t d i u t' lb G EN Hi E LB) as (G' & EN'). split; [exact G'|]. split; [exact EN'|exact SG].
Qed.
Lemma c131_path P cs sa h k t d ctx epoch mk i l j sk ek ns fp ad ps : p_sig P cs = Ok sa -> hashes P cs h -> tags P cs -> p_hpke P cs = Ok k -> good t d -> encodes t ->
  committer P cs t i l sk -> j <> i -> ~ blank_at t j -> expand_label k epoch (str "membership") [] (nh k) = Ok mk -> handy ctx ad ps ->
  valid_list ps (repeat i (length ps)) i -> (forall p, In p ps -> psk_of p = None) -> (exists t2, tree_apply t ps (repeat i (length ps)) = Ok t2) ->
  filtered_direct_path t (2 * i) = Ok fp -> length ns = length fp -> within 134217728 (se_vector se_update_path_node ns) ->
  N.of_nat (length ek) < 65536 -> unused t ek -> Forall (fun n => fits30 (upn_encryption_key n) /\ unused t (upn_encryption_key n)) ns ->
  exists l' b t', renewed l ek l' /\ send_public P cs ctx sk mk (commit_of ctx i ad ps (Some (MkUpdatePath l' ns))) = Ok b /\
    passive_commit P cs t ctx epoch b = Ok t' /\ merged P cs t d i (MkUpdatePath l' ns) t' /\ good t' d /\ encodes t'.
Proof.
  intros A H TG K G EN C JI NB MK HY VL NP TA FP LN VS LE UE FN.
  destruct (c131_signed P cs sa h k t d ctx epoch mk i l j sk ek ns fp ad ps A H TG K G EN C JI NB MK HY VL NP TA FP LN VS LE UE FN) as (l' & b & t' & R & S & Q & MG & G' & EN' & _).
  exists l', b, t'. auto 10.
Qed.

Lemma c131_plain P cs sa h k t d ctx epoch mk i l sk ad ps : p_sig P cs = Ok sa -> p_hash P cs = Ok h -> tags P cs -> p_hpke P cs = Ok k -> shaped t d ->
  leaf_at t i = Some l -> signs P cs sk -> key_pair_ok P cs sk (signature_key l) -> expand_label k epoch (str "membership") [] (nh k) = Ok mk -> handy ctx ad ps ->
  valid_list ps (repeat i (length ps)) i -> (forall p, In p ps -> psk_of p = None) -> (exists t2, tree_apply t ps (repeat i (length ps)) = Ok t2) ->
  ps <> [] -> (forall p, In p ps -> ~ wants_path p) ->
  exists b, send_public P cs ctx sk mk (commit_of ctx i ad ps None) = Ok b /\ passive_commit P cs t ctx epoch b = Ok t.
Proof.
  intros A H TG K SH M S KP MK HY VL NP TA NE NW.
  assert (I32 : is_u32 i) by (pose proof (shaped_small t d i l SH M); unfold is_u32; lia).
  destruct (proj2 (c128_public P cs sk mk (commit_of ctx i ad ps None) ctx S TG)) as (b & B); [apply commit_signable; [exact HY|exact I]|].
  exists b. split; [exact B|].
  refine (c94_honest P cs sa h k t d ctx epoch sk mk (commit_of ctx i ad ps None) i l _ ps b t A H K SH M KP MK _ eq_refl eq_refl eq_refl eq_refl VL NP TA _ B).
  - apply commit_readable; [exact HY|exact I32|exact I].
  - split; [exact NE|]. split; [exact NW|reflexivity].
Qed.

(** The members go on supporting what they supported. *)
Lemma same_caps t t' i l l' : leaf_at t i = Some l -> leaf_at t' i = Some l' -> lp_capabilities (ln_payload l') = lp_capabilities (ln_payload l) ->
  (forall j, j <> i -> leaf_at t' j = leaf_at t j) -> forall f li ls, leaves_from f t li = Ok ls ->
  exists ls', leaves_from f t' li = Ok ls' /\ map (fun il : N * leaf_node => lp_capabilities (ln_payload (snd il))) ls' = map (fun il : N * leaf_node => lp_capabilities (ln_payload (snd il))) ls.
Proof.
  intros L L' C O. induction f as [|f IH]; intros li ls H; cbn [leaves_from] in *; [apply Ok_inj in H; subst ls; eauto|].
  apply bind_ok in H as (o & H & R). apply bind_ok in R as (r & R & E). destruct (IH _ _ R) as (r' & R' & Q). unfold get_leaf in *. apply bind_ok in H as (x & X & H). rewrite X. cbn [bind]. rewrite R'. cbn [bind].
  assert (x = 2 * li) as -> by (unfold node_index, mul32 in X; destruct (2 * li <=? u32_max); [apply Ok_inj in X; lia|discriminate]).
  fold (leaf_at t li) in H. fold (leaf_at t' li). apply Ok_inj in H, E. subst o ls. eexists. split; [reflexivity|].
  destruct (N.eq_dec li i) as [->|N]; [rewrite L, L'; cbn [map snd]; rewrite C, Q; reflexivity|]. rewrite (O li N). destruct (leaf_at t li); cbn [map snd]; rewrite Q; reflexivity.
Qed.
Lemma fold_caps : forall ls m, fold_left (fun m (il : N * leaf_node) => fold_left (fun m ct => bump ct m) (cap_credentials (lp_capabilities (ln_payload (snd il)))) m) ls m =
  fold_left (fun m c => fold_left (fun m ct => bump ct m) (cap_credentials c) m) (map (fun il : N * leaf_node => lp_capabilities (ln_payload (snd il))) ls) m.
Proof. induction ls as [|x ls IH]; intros m; cbn [fold_left map]; [reflexivity|]. apply IH. Qed.
Lemma same_supported t t' i l l' creds : tlen t' = tlen t -> leaf_at t i = Some l -> leaf_at t' i = Some l' -> lp_capabilities (ln_payload l') = lp_capabilities (ln_payload l) ->
  (forall j, j <> i -> leaf_at t' j = leaf_at t j) -> supported_creds t = Ok creds -> supported_creds t' = Ok creds.
Proof.
  intros T L L' C O H. unfold supported_creds in *. apply bind_ok in H as (ls & H & E). unfold leaves in *. rewrite (RepeatFacts.num_leaves_len t t' T).
  destruct (same_caps t t' i l l' L L' C O _ _ _ H) as (ls' & -> & Q). cbn [bind]. rewrite <- E, !fold_caps, Q. apply (f_equal (@length _)) in Q. rewrite !map_length in Q. rewrite Q. reflexivity.
Qed.

Lemma c131_again P cs t d i l ek l' ns t' sk : committer P cs t i l sk -> renewed l ek l' -> merged P cs t d i (MkUpdatePath l' ns) t' ->
  committer P cs t' i l' sk /\ forall j m skj, j <> i -> committer P cs t j m skj -> committer P cs t' j m skj.
Proof.
  intros [M S KP CR EX WF SZ] (R1 & R2 & R3 & R4 & R5 & (ph & R6)) MG.
  assert (L' : leaf_at t' i = Some l') by (unfold leaf_at; rewrite (mg_leaf _ _ _ _ _ _ _ MG); reflexivity).
  assert (O : forall j, j <> i -> leaf_at t' j = leaf_at t j).
  { intros j N. unfold leaf_at. rewrite (mg_off _ _ _ _ _ _ _ MG); [reflexivity|lia|]. intros Q. exact (TreeOps.on_path_odd d i _ j Q eq_refl). }
  pose proof (fun creds => same_supported t t' i l l' creds (mg_len _ _ _ _ _ _ _ MG) M L' R4 O) as SC.
  split.
  - constructor; try assumption.
    + rewrite R2. exact KP.
    + destruct CR as (creds & C & I). exists creds. rewrite R3. auto.
    + rewrite R4, R5. exact EX.
    + unfold wf_leaf_node, wf_leaf_payload in *. rewrite R4, R5, R6. repeat split; apply WF.
    + unfold lasting in *. unfold signature_key in R2. rewrite R2, R3, R4, R5. exact SZ.
  - intros j m skj N [M2 S2 KP2 (creds & C & I) EX2 WF2 SZ2]. constructor; try assumption; [rewrite (O j N); exact M2|]. exists creds. auto.
Qed.

(** There is always a key that nobody has. *)
Lemma some_other (L : list bytes) : N.of_nat (length L) < 8589934592 -> exists n, n <= N.of_nat (length L) /\ ~ In (be 8 n) L.
Proof.
  intros B. set (ks := map (fun n => be 8 (N.of_nat n)) (seq 0 (S (length L)))).
  assert (ND : NoDup ks).
  { apply (NoDup_map_inv (unbe 0)). unfold ks. rewrite map_map. rewrite (map_ext_in _ N.of_nat); [apply FinFun.Injective_map_NoDup; [intros x y E; lia|apply seq_NoDup]|].
    intros x X. apply in_seq in X. rewrite unbe_be. change (256 ^ N.of_nat 8) with 18446744073709551616. rewrite N.mod_small; lia. }
  destruct (existsb (fun k => negb (mem bytes_eqb k L)) ks) eqn:X.
  - apply existsb_exists in X as (k & I & K). apply in_map_iff in I as (n & <- & I). apply in_seq in I. exists (N.of_nat n). split; [lia|]. intros Q.
    apply (mem_in bytes_eqb bytes_eqb_eq) in Q. rewrite Q in K. discriminate.
  - exfalso. assert (incl ks L).
    { intros k I. destruct (mem bytes_eqb k L) eqn:Q; [apply (mem_in bytes_eqb bytes_eqb_eq), Q|]. assert (existsb (fun k => negb (mem bytes_eqb k L)) ks = true); [|congruence].
      apply existsb_exists. exists k. rewrite Q. auto. }
    pose proof (NoDup_incl_length ND H) as Z. unfold ks in Z. rewrite map_length, seq_length in Z. lia.
Qed.
Lemma some_unused t d : shaped t d -> exists k, length k = 8%nat /\ unused t k.
Proof.
  intros SH. destruct (keys_ok t d (sh_size t d SH) (sh_small t d SH)) as (ss & es & K & _ & ES).
  assert (B : N.of_nat (length es) < 4294967296).
  { unfold keys in K. apply bind_ok in K as (ls & L & K). apply Ok_inj in K. injection K as _ <-. rewrite map_length. apply CostFacts.leaves_from_length in L.
    pose proof (usized_leaves t d (shaped_usized t d SH)) as Q. rewrite Q in L. pose proof (usized_31 t d (shaped_usized t d SH)) as D.
    assert (2 ^ d <= 2 ^ 31) by (apply N.pow_le_mono_r; lia). change (2 ^ 31) with 2147483648 in *. lia. }
  destruct (some_other es ltac:(lia)) as (n & _ & N). exists (be 8 n). split; [apply be_length|]. intros j m L E. apply N, ES. eauto.
Qed.
Lemma fpath_length t : forall m k j, (length (fpath t m k j) <= m)%nat.
Proof. induction m as [|m IH]; intros k j; cbn [fpath]; [reflexivity|]. specialize (IH (k + 1) (j / 2)). destruct (Nat.eqb _ _); cbn [length]; lia. Qed.
Lemma nodes_within k : length k = 8%nat -> forall m, within (20 * N.of_nat m) (se_elems se_update_path_node (repeat (MkUpdatePathNode k []) m)).
Proof.
  intros K. induction m as [|m IH]; cbn [repeat se_elems]; [exists []; split; [reflexivity|cbn; lia]|].
  eapply within_le; [|apply within_seq; [|exact IH]]; [|unfold se_update_path_node; cbn [upn_encryption_key upn_encrypted]; apply within_seq; [apply (within_opaque 8); lia|]].
  2:{ exists [x00]. split; [reflexivity|]. cbn [length]. instantiate (1 := 1). lia. }
  lia.
Qed.
Lemma c131_forever P cs sa h k d a b : p_sig P cs = Ok sa -> hashes P cs h -> tags P cs -> p_hpke P cs = Ok k -> a <> b -> forall rs t, good t d -> encodes t -> ~ blank_at t a -> ~ blank_at t b ->
  Forall (fun r => (exists l, committer P cs t (rd_place r) l (rd_key r)) /\ handy (rd_context r) [] [] /\ exists mk, expand_label k (rd_epoch r) (str "membership") [] (nh k) = Ok mk) rs ->
  exists t', session P cs t rs t'.
Proof.
  intros A H TG K AB. induction rs as [|r rs IH]; intros t G EN NA NB F; [exists t; constructor|]. inversion F as [|? ? ((l & C) & HY & (mk & MK)) F']; subst. set (i := rd_place r) in *.
  assert (Hi : i < 2 ^ d) by exact (member_small t d i l G (ct_member _ _ _ _ _ _ C)). pose proof (good_shaped t d G) as SH.
  assert (Q : exists j, j <> i /\ ~ blank_at t j) by (destruct (N.eq_dec a i) as [->|Z]; [exists b|exists a]; auto). destruct Q as (j & Ji & Nj).
  pose proof (filtered_leaf t d i (good_small t d G) (good_usized t d G) Hi) as EF. pose proof (fpath_length t (N.to_nat d) 0 i) as LF. set (fp := fpath t (N.to_nat d) 0 i) in *.
  destruct (some_unused t d SH) as (key & LK & UK). set (ns := repeat (MkUpdatePathNode key []) (length fp)).
  pose proof (usized_31 t d (good_usized t d G)) as D.
  assert (W : within 134217728 (se_vector se_update_path_node ns)).
  { unfold se_vector. destruct (nodes_within key LK (length fp)) as (x & X & LX). fold ns in X. rewrite X. cbn [bind]. apply (within_le (1000 + 4)); [lia|]. apply within_opaque; lia. }
  destruct (c131_path P cs sa h k t d (rd_context r) (rd_epoch r) mk i l j (rd_key r) key ns fp [] []) as (l' & m & t1 & RN & SP & PC & MG & G1 & EN1); try assumption.
  - constructor; intros; cbn [length repeat] in *; try reflexivity; exfalso; match goal with X : at_ _ _ ?n _ _ |- _ => destruct X as (X & _); destruct n; discriminate X end.
  - intros p [].
  - exists t. reflexivity.
  - apply repeat_length.
  - rewrite LK. cbn. lia.
  - apply Forall_forall. intros n In_. apply repeat_spec in In_. subst n. cbn [upn_encryption_key]. split; [unfold fits30; rewrite LK; cbn; lia|exact UK].
  - destruct (c131_again P cs t d i l key l' ns t1 (rd_key r) C RN MG) as (C1 & CO).
    assert (KB : forall x, ~ blank_at t x -> ~ blank_at t1 x).
    { intros x N. destruct (N.eq_dec x i) as [->|Z]; unfold blank_at in *; [rewrite (mg_leaf _ _ _ _ _ _ _ MG); discriminate|]. rewrite (mg_off _ _ _ _ _ _ _ MG); [exact N|lia|]. intros Q. exact (TreeOps.on_path_odd d i _ x Q eq_refl). }
    destruct (IH t1 G1 EN1 (KB a NA) (KB b NB)) as (t2 & S2).
    { eapply Forall_impl; [|exact F']. intros r' ((l2 & C2) & Y). split; [|exact Y]. destruct (N.eq_dec (rd_place r') i) as [E|N]; [|exists l2; exact (CO _ _ _ N C2)].
      exists l'. destruct C1 as [X1 X2 X3 X4 X5 X6 X7]. rewrite E in *. destruct C2 as [Y1 Y2 Y3 Y4 Y5 Y6 Y7]. constructor; try assumption.
      destruct C as [Z1 _ _ _ _ _ _]. assert (l2 = l) as -> by congruence. destruct RN as (_ & R2 & _). rewrite R2. exact Y3. }
    exists t2. econstructor; eassumption.
Qed.

(** ** Three members *)
Definition hd_leaf (k : byte) : leaf_node :=
  MkLeafNode (MkLeafPayload [k; x11; x12] [k; x21] (CredBasic (str "alice")) ex_caps (LSKeyPackage (MkLifetime 10 20)) [MkExtension (ExtUnknown 0xff01) [x07]]) [x0a; x0b].
Definition hd_three : tree := [Some (Leaf (hd_leaf x01)); None; Some (Leaf (hd_leaf x02)); None; Some (Leaf (hd_leaf x03)); None; None].
Definition hd_ctx (n : N) : group_context := MkGroupContext MLS10 Suite1 (str "group") n [x0a] [x0b; x0c] [].
Definition hd_hash : hash_alg := MkHash 4 (fun x => firstn 4 x) (fun k m => firstn 16 (k ++ m)%list).
Lemma hd_good : good hd_three 2.
Proof.
  assert (H : tree_history toy Suite1 [Some (Leaf (hd_leaf x01))] hd_three).
  { apply (hist _ _ _ [Some (Leaf (hd_leaf x01)); None; Some (Leaf (hd_leaf x02))]).
    - apply (hist _ _ _ [Some (Leaf (hd_leaf x01))]); [constructor|]. apply (ts_add _ _ _ (hd_leaf x02)); [exists 0; left; reflexivity|reflexivity].
    - apply (ts_add _ _ _ (hd_leaf x03)); [exists 1; left; reflexivity|reflexivity]. }
  destruct (history_good toy Suite1 _ 0 hd_three (good_single _) H) as [Q|(d & G)]; [discriminate|].
  assert (d = 2) as <-; [|exact G]. apply (size_unique hd_three); [exact (g_size _ _ G)|left; reflexivity].
Qed.
Lemma hd_encodes : encodes hd_three.
Proof.
  intros x nd E. assert (C : x = 0 \/ x = 1 \/ x = 2 \/ x = 3 \/ x = 4 \/ x = 5 \/ x = 6 \/ 7 <= x) by lia.
  destruct C as [->|[->|[->|[->|[->|[->|[->|C]]]]]]]; try (cbv in E; discriminate E); try (injection E as <-; eexists; vm_compute; reflexivity).
  rewrite tget_beyond in E by exact C. discriminate E.
Qed.
Lemma hd_committer i k : leaf_at hd_three i = Some (hd_leaf k) -> committer modest Suite1 hd_three i (hd_leaf k) [k; x21].
Proof.
  intros L. constructor; [exact L|apply modest_signs|apply modest_keys| | | |].
  - exists [CtBasic; CtX509]. split; [vm_compute; reflexivity|left; reflexivity].
  - intros e [<-|[]]. left. reflexivity.
  - unfold wf_leaf_node, wf_leaf_payload, wf_capabilities, wf_leaf_node_source, wf_lifetime, wf_extensions, wf_extension. ex_wf.
  - eexists. split; [destruct k; vm_compute; reflexivity|vm_compute; discriminate].
Qed.
Lemma hd_handy n : n < 3 -> handy (hd_ctx n) [] [].
Proof.
  intros I. assert (C : n = 0 \/ n = 1 \/ n = 2) by lia. constructor.
  - split; [repeat split; [exists 1; split; reflexivity|unfold is_u64; cbn; lia|constructor]|]. destruct C as [->|[->| ->]]; (eexists; split; [vm_compute; reflexivity|vm_compute; discriminate]).
  - cbn. lia.
  - split; [constructor|]. eexists. split; [vm_compute; reflexivity|vm_compute; discriminate].
Qed.
Lemma hd_member s : exists mk, expand_label modest_hpke (str s) (str "membership") [] (nh modest_hpke) = Ok mk.
Proof. eexists. reflexivity. Qed.
Lemma c131_example : exists t', session modest Suite1 hd_three
  [MkRound 0 [x01; x21] (hd_ctx 0) (str "first"); MkRound 2 [x03; x21] (hd_ctx 1) (str "second"); MkRound 0 [x01; x21] (hd_ctx 2) (str "third")] t'.
Proof.
  apply (c131_forever modest Suite1 modest_sig hd_hash modest_hpke 2 0 1); [reflexivity| |exact modest_tags|reflexivity|discriminate|exact hd_good|exact hd_encodes|vm_compute; discriminate|vm_compute; discriminate|].
  - split; [reflexivity|]. intros b. cbn [h_digest hd_hash]. pose proof (firstn_le_length 4 b). lia.
  - assert (Q : forall i k n e, leaf_at hd_three i = Some (hd_leaf k) -> n < 3 -> (exists l, committer modest Suite1 hd_three i l [k; x21]) /\ handy (hd_ctx n) [] [] /\
      exists mk, expand_label modest_hpke (str e) (str "membership") [] (nh modest_hpke) = Ok mk).
    { intros i k n e L I. split; [exists (hd_leaf k); exact (hd_committer i k L)|]. split; [exact (hd_handy n I)|apply hd_member]. }
    apply Forall_cons; [apply Q; [reflexivity|lia]|]. apply Forall_cons; [apply Q; [reflexivity|lia]|]. apply Forall_cons; [apply Q; [reflexivity|lia]|]. apply Forall_nil.
Qed.

(** The first member adds a fourth one without a path. *)
Definition hd_add : proposal := PAdd (MkAdd (MkKeyPackage (MkKeyPackageTBS MLS10 Suite1 [x04; x55] (hd_leaf x04) []) [x66])).
Lemma hd_handy_add n : n < 3 -> handy (hd_ctx n) [x77] [hd_add].
Proof.
  intros I. constructor; [exact (hy_context _ _ _ (hd_handy n I))|cbn; lia|]. split.
  - apply Forall_cons; [|constructor]. unfold wf_proposal, hd_add, wf_add_proposal, wf_key_package, wf_key_package_tbs, wf_leaf_node, wf_leaf_payload, wf_capabilities, wf_leaf_node_source, wf_lifetime, wf_extensions, wf_extension. ex_wf.
  - eexists. split; [vm_compute; reflexivity|vm_compute; discriminate].
Qed.
Lemma hd_valid i : valid_list [hd_add] [i] i.
Proof. apply ProposalFacts.c48_iff; [|vm_compute; reflexivity]. apply no_psk_wf. intros p [<-|[]]. reflexivity. Qed.
Lemma c131_plain_example : exists mk b, expand_label modest_hpke (str "first") (str "membership") [] (nh modest_hpke) = Ok mk /\
  send_public modest Suite1 (hd_ctx 0) [x01; x21] mk (commit_of (hd_ctx 0) 0 [x77] [hd_add] None) = Ok b /\ passive_commit modest Suite1 hd_three (hd_ctx 0) (str "first") b = Ok hd_three.
Proof.
  destruct (hd_member "first") as (mk & MK). exists mk.
  destruct (c131_plain modest Suite1 modest_sig hd_hash modest_hpke hd_three 2 (hd_ctx 0) (str "first") mk 0 (hd_leaf x01) [x01; x21] [x77] [hd_add]) as (b & S & R);
    [reflexivity|reflexivity|exact modest_tags|reflexivity|exact (good_shaped _ _ hd_good)|reflexivity|apply modest_signs|apply modest_keys|exact MK|apply hd_handy_add; lia|exact (hd_valid 0)| | |discriminate| |exists b; auto].
  - intros p [<-|[]]. reflexivity.
  - eexists. vm_compute. reflexivity.
  - intros p [<-|[]] [].
Qed.
Lemma c131_heard_example : exists mk l' b t', expand_label modest_hpke (str "first") (str "membership") [] (nh modest_hpke) = Ok mk /\ renewed (hd_leaf x03) (str "new key") l' /\
  send_public modest Suite1 (hd_ctx 0) [x03; x21] mk (commit_of (hd_ctx 0) 2 [x77] [hd_add] (Some (MkUpdatePath l' [MkUpdatePathNode (str "root") []]))) = Ok b /\
  passive_commit modest Suite1 hd_three (hd_ctx 0) (str "first") b = Ok t'.
Proof.
  destruct (hd_member "first") as (mk & MK). exists mk.
  assert (U : forall k, length k <> 3%nat -> unused hd_three k).
  { intros k N j m L E. apply N. subst k. unfold leaf_at in L. assert (C : j = 0 \/ j = 1 \/ j = 2 \/ j = 3 \/ 7 <= 2 * j) by lia.
    destruct C as [->|[->|[->|[->|C]]]]; [injection L as <-; reflexivity|injection L as <-; reflexivity|injection L as <-; reflexivity|discriminate L|]. rewrite tget_beyond in L by exact C. discriminate L. }
  destruct (c131_path modest Suite1 modest_sig hd_hash modest_hpke hd_three 2 (hd_ctx 0) (str "first") mk 2 (hd_leaf x03) 0 [x03; x21] (str "new key") [MkUpdatePathNode (str "root") []] [3] [x77] [hd_add])
    as (l' & b & t' & R & S & Q & _); [reflexivity| |exact modest_tags|reflexivity|exact hd_good|exact hd_encodes|apply hd_committer; reflexivity|discriminate|vm_compute; discriminate|exact MK|apply hd_handy_add; lia|exact (hd_valid 2)| | |vm_compute; reflexivity|reflexivity| |reflexivity| | |exists l', b, t'; auto].
  - split; [reflexivity|]. intros b. cbn [h_digest hd_hash]. pose proof (firstn_le_length 4 b). lia.
  - intros p [<-|[]]. reflexivity.
  - eexists. vm_compute. reflexivity.
  - eexists. split; [vm_compute; reflexivity|vm_compute; discriminate].
  - apply U. discriminate.
  - apply Forall_cons; [|constructor]. split; [reflexivity|apply U; discriminate].
Qed.
