From Verif Require Import PassiveFacts AgreeFacts AuthFacts CodecLib WireCodecs CodecFacts KeyStoreFacts MessageFacts TreeFacts TreeInv TreeMore MemberFacts LeafFacts ProposalFacts HashFacts SecretFacts.
From Verif Require Import SpecCommit SpecHashes.
Local Open Scope N_scope.

Lemma inline_iff l : forall ps, inline_proposals l = Ok ps <-> l = map PorProposal ps.
Proof.
  induction l as [|[p|r] l IH]; intros ps; cbn [inline_proposals].
  - split; [intros H; apply Ok_inj in H; subst; reflexivity|]. destruct ps; [reflexivity|discriminate].
  - split.
    + intros H. apply bind_ok in H as (q & Q & H). apply Ok_inj in H. subst ps. cbn [map]. f_equal. apply IH, Q.
    + destruct ps as [|p' ps]; [discriminate|]. cbn [map]. intros H. injection H as -> H. apply IH in H. rewrite H. reflexivity.
  - split; [discriminate|]. destruct ps; discriminate.
Qed.
Lemma no_psk_iff ps : existsb is_psk ps = false <-> forall p, In p ps -> psk_of p = None.
Proof.
  induction ps as [|p ps IH]; cbn [existsb]; [split; [intros _ p []|reflexivity]|]. rewrite orb_false_iff, IH. split.
  - intros [A B] q [<-|I]; [destruct p; try reflexivity; discriminate|apply B, I].
  - intros H. split; [|intros q I; apply H; right; exact I]. specialize (H p (or_introl eq_refl)). destruct p; try reflexivity. discriminate.
Qed.
Lemma no_psk_wf ps : (forall p, In p ps -> psk_of p = None) -> psks_wf ps.
Proof. intros H p x I E. rewrite (H p I) in E. discriminate. Qed.

Lemma derive_eq P cs k s l : p_hpke P cs = Ok k -> fits30 (mls_label l) -> derive_secret P cs s l = expand_label k s l [] (nh k).
Proof. intros K F. unfold derive_secret. rewrite K. cbn [bind]. rewrite (c38_expand P cs k) by (first [exact K|exact F|reflexivity]). reflexivity. Qed.

Lemma path_iff P cs t d ctx i l u t' : shaped t d -> leaf_at t i = Some l ->
  (passive_path P cs t ctx i l u = Ok t' <-> path_ok P cs t d ctx i l u t').
Proof.
  intros G L. destruct (keys_ok t d (sh_size t d G) (sh_small t d G)) as (ss & es & K & SS & ES).
  assert (I : i < 2 ^ d) by (apply (shaped_member_lt t d i G), (shaped_leaf_at t d i G); eauto).
  unfold passive_path. rewrite K. cbn [bind]. split.
  - intros H. apply bind_ok in H as (u0 & A & H). apply bind_ok in H as (creds & C & H). apply bind_ok in H as (u1 & V & H). apply bind_ok in H as (u2 & N & H). destruct u0, u1, u2.
    destruct (merge_update_path P cs t i u) as [t2 r] eqn:M. apply bind_ok in H as (u3 & -> & H). destruct u3. apply Ok_inj in H. subst t2.
    apply (proj1 (assert_ok_unit _)) in V. apply leaf_verify_iff in V as (V1 & V2 & _ & V4 & V5 & V6). cbn [lo_suite lo_group_id lo_leaf_index lo_supported_creds lo_signature_keys lo_encryption_keys] in *.
    apply assert_iff in N. apply negb_true_iff in N. constructor.
    + exact V1.
    + exists creds. auto.
    + exact V4.
    + intros j m Lm E. destruct (bytes_eqb (signature_key m) (signature_key l)) eqn:B; [apply bytes_eqb_eq, B|]. exfalso. apply V5. apply filter_In. split; [apply SS; exists j, m; auto|].
      unfold signature_key in *. rewrite <- E, B. reflexivity.
    + intros j m Lm. split.
      * intros E. apply V6, ES. exists j, m. auto.
      * intros n In_n E. assert (existsb (fun n => mem bytes_eqb (upn_encryption_key n) es) (up_nodes u) = true); [|congruence].
        apply existsb_exists. exists n. split; [exact In_n|]. apply (mem_in bytes_eqb bytes_eqb_eq). apply ES. exists j, m. auto.
    + apply (c25 P cs t d i u t' G I), M.
  - intros [V1 (creds & C & V2) V4 V5 V6 M]. destruct (mg_path _ _ _ _ _ _ _ M) as (fp & ph & _ & _ & _ & _ & _ & Src & _). rewrite Src. cbn [is_commit_source]. cbn [assert bind]. rewrite C. cbn [bind].
    rewrite (proj2 (assert_ok_unit _)); cbn [bind].
    2:{ apply leaf_verify_iff. cbn [lo_suite lo_group_id lo_leaf_index lo_supported_creds lo_signature_keys lo_encryption_keys lo_now]. split; [exact V1|]. split; [exact V2|]. split; [intros; lia|]. split; [exact V4|]. split.
      - intros Q. apply filter_In in Q as (Q & B). apply SS in Q as (j & m & Lm & E). apply negb_true_iff in B. pose proof (V5 j m Lm E) as W. unfold signature_key in *. rewrite <- E, W in B. rewrite (proj2 (bytes_eqb_eq _ _) eq_refl) in B. discriminate.
      - intros Q. apply ES in Q as (j & m & Lm & E). exact (proj1 (V6 j m Lm) E). }
    rewrite (proj2 (assert_iff _)); cbn [bind].
    2:{ apply negb_true_iff. destruct (existsb _ (up_nodes u)) eqn:X; [|reflexivity]. exfalso. apply existsb_exists in X as (n & In_n & Q). apply (mem_in bytes_eqb bytes_eqb_eq) in Q. apply ES in Q as (j & m & Lm & E). exact (proj2 (V6 j m Lm) n In_n E). }
    apply (c25 P cs t d i u t' G I) in M. rewrite M. reflexivity.
Qed.

Lemma get_leaf_iff t d i : shaped t d -> forall l, get_leaf t i = Ok (Some l) <-> i < 2147483648 /\ leaf_at t i = Some l.
Proof.
  intros G l. unfold get_leaf, leaf_at, node_index, mul32. destruct (N.leb_spec (2 * i) u32_max) as [H|H]; unfold u32_max in *.
  - cbn [bind]. destruct (tget t (2 * i)) as [[|]|]; split; try discriminate; try (intros [_ Q]; discriminate); intros Q.
    + apply Ok_inj in Q. injection Q as ->. split; [lia|reflexivity].
    + destruct Q as [_ Q]. injection Q as ->. reflexivity.
  - split; [discriminate|]. intros [Q _]. lia.
Qed.
Lemma shaped_small t d i l : shaped t d -> leaf_at t i = Some l -> i < 2147483648.
Proof.
  intros G L. unfold leaf_at in L. destruct (tget t (2 * i)) as [nd|] eqn:E; [|discriminate]. pose proof (sh_small t d G).
  destruct (N.lt_ge_cases (2 * i) (tlen t)) as [|Q]; [lia|]. rewrite tget_beyond in E by exact Q. discriminate.
Qed.

Lemma public_of_iff b m : public_of b = Ok m <-> exists v rest, de_mls_message b = Ok (MkMLSMessage v (WMPublic m), rest).
Proof.
  unfold public_of. split.
  - intros H. apply bind_ok in H as ([v w] & D & H). cbn [mm_wire] in H. destruct w; try discriminate. apply Ok_inj in H. subst. apply de_exact_some in D as (rest & D). eauto.
  - intros (v & rest & D). unfold de_exact. rewrite D. reflexivity.
Qed.

Lemma c94_accepted P cs sa h k t d ctx epoch b t' : p_sig P cs = Ok sa -> p_hash P cs = Ok h -> p_hpke P cs = Ok k -> shaped t d ->
  (passive_commit P cs t ctx epoch b = Ok t' <->
   exists v m rest i l c ps, de_mls_message b = Ok (MkMLSMessage v (WMPublic m), rest) /\ commit_ok P cs sa h k t d ctx epoch m i l c ps t').
Proof.
  intros A Hh K G. assert (MK : derive_secret P cs epoch label_membership = expand_label k epoch (str "membership") [] (nh k)) by (apply derive_eq; [exact K|reflexivity]).
  unfold passive_commit. split.
  - intros H. apply bind_ok in H as (m & M & H). apply public_of_iff in M as (v & rest & D). apply bind_ok in H as (u0 & E & H). destruct u0. apply assert_iff in E. apply N.eqb_eq in E.
    apply bind_ok in H as (i & S & H). destruct (fc_sender (pm_content m)) as [i0| | |] eqn:Sd; try discriminate. apply Ok_inj in S. subst i0.
    apply bind_ok in H as (nd & L & H). destruct nd as [l|]; [|discriminate]. apply (get_leaf_iff t d i G) in L as (I & L).
    apply bind_ok in H as (u1 & V & H). destruct u1. apply (proj1 (assert_ok_unit _)) in V. apply (verify_iff P cs sa _ _ _ A) in V as (x & S1 & S2). cbn [public_auth_content ac_wire_format ac_content ac_auth] in S1, S2.
    apply bind_ok in H as (mk & DM & H). rewrite MK in DM. apply bind_ok in H as (u2 & T & H). destruct u2. apply (proj1 (assert_ok_unit _)) in T.
    assert (FM : from_member m) by (exists i; exact Sd). apply message_wf in D as WM. destruct WM as (_ & WM). cbn in WM. destruct WM as (_ & _ & WM). rewrite Sd in WM.
    apply (c46_iff P cs h m mk ctx Hh FM) in T as [T|(y & Y & T)]; [contradiction|].
    destruct (fc_content (pm_content m)) as [| |c] eqn:Cn; try discriminate. apply bind_ok in H as (ps & PS & H). apply inline_iff in PS.
    apply bind_ok in H as (u3 & VL & H). destruct u3. apply (proj1 (assert_ok_unit _)) in VL. apply bind_ok in H as (u4 & NP & H). destruct u4. apply assert_iff in NP. apply negb_true_iff in NP. pose proof (proj1 (no_psk_iff _) NP) as NP'. clear NP. rename NP' into NP.
    apply (c48_iff ps _ i (no_psk_wf ps NP)) in VL. apply bind_ok in H as (t2 & AP & H).
    exists v, m, rest, i, l, c, ps. split; [exact D|]. constructor; auto.
    + exists x. auto.
    + exists mk, y. auto.
    + eauto.
    + destruct (cm_path c) as [u|].
      * apply (path_iff P cs t d ctx i l u t' G L), H.
      * apply bind_ok in H as (u5 & NP2 & H). destruct u5. apply Ok_inj in H. apply assert_iff in NP2. apply negb_true_iff in NP2. split; [|split; [|auto]].
        -- intros ->. cbn in NP2. discriminate.
        -- intros p Ip W. assert (proposal_list_needs_path ps = true) by (apply c49_iff; right; eauto). congruence.
  - intros (v & m & rest & i & l & c & ps & D & [E (Sd & L) (x & S1 & S2) (mk & y & DM & Y & T) (Cn & PS) VL NP (t2 & AP) PA]).
    rewrite (proj2 (public_of_iff b m)) by eauto. cbn [bind]. rewrite (proj2 (assert_iff _)) by (apply N.eqb_eq; exact E). cbn [bind]. rewrite Sd. cbn [bind].
    rewrite (proj2 (get_leaf_iff t d i G l)) by (split; [exact (shaped_small t d i l G L)|exact L]). cbn [bind].
    rewrite (proj2 (assert_ok_unit _)) by (apply (verify_iff P cs sa _ _ _ A); exists x; auto). cbn [bind]. rewrite MK, DM. cbn [bind].
    rewrite (proj2 (assert_ok_unit _)) by (apply (c46_iff P cs h m mk ctx Hh); [exists i; exact Sd|right; exists y; auto]). cbn [bind]. rewrite Cn.
    rewrite (proj2 (inline_iff _ _) PS). cbn [bind]. rewrite (proj2 (assert_ok_unit _)) by (apply (c48_iff ps _ i (no_psk_wf ps NP)), VL). cbn [bind].
    rewrite (proj2 (no_psk_iff ps) NP). cbn [negb assert bind]. rewrite AP. cbn [bind]. destruct (cm_path c) as [u|].
    + apply (path_iff P cs t d ctx i l u t' G L), PA.
    + destruct PA as (N0 & NW & ->). destruct (proposal_list_needs_path ps) eqn:Q; [|reflexivity]. exfalso. apply c49_iff in Q as [Q|(p & Ip & W)]; [contradiction|exact (NW p Ip W)].
Qed.

Lemma c94_authentic P cs sa h k t d ctx epoch b t' : p_sig P cs = Ok sa -> p_hash P cs = Ok h -> p_hpke P cs = Ok k -> shaped t d -> wf_group_context ctx ->
  passive_commit P cs t ctx epoch b = Ok t' ->
  exists v m rest i l, de_mls_message b = Ok (MkMLSMessage v (WMPublic m), rest) /\ fc_sender (pm_content m) = SMember i /\ leaf_at t i = Some l /\
    (forall log, only_said P cs (signature_key l) log -> is_said log (SaidContent WFPublicMessage (pm_content m) ctx)) /\
    (leaf_at t' i = Some l \/ exists l', leaf_at t' i = Some l' /\ forall log, only_said P cs (signature_key l') log -> is_said log (SaidLeaf (ln_payload l') (gc_group_id ctx) i)).
Proof.
  intros A Hh K G W H. apply (c94_accepted P cs sa h k t d ctx epoch b t' A Hh K G) in H as (v & m & rest & i & l & c & ps & D & [E (Sd & L) (x & S1 & S2) _ (Cn & PS) VL NP AP PA]).
  pose proof (message_wf _ _ _ D) as (_ & WM). cbn in WM. destruct WM as (WF & _).
  exists v, m, rest, i, l. split; [exact D|]. split; [exact Sd|]. split; [exact L|]. split.
  - intros log O. refine (c85_content P cs _ log (public_auth_content m) ctx O WF W _). apply (verify_iff P cs sa _ _ _ A). exists x. auto.
  - destruct (cm_path c) as [u|] eqn:Pa; [|destruct PA as (_ & _ & ->); auto]. right. destruct PA as [V1 (creds & C & V2) V4 V5 V6 M]. exists (up_leaf u). split; [unfold leaf_at; rewrite (mg_leaf _ _ _ _ _ _ _ M); reflexivity|].
    intros log O. destruct (keys_ok t d (sh_size t d G) (sh_small t d G)) as (ss & es & KK & SS & ES).
    refine (c85_leaf P _ log (up_leaf u) (MkLeafOptions cs (gc_group_id ctx) i creds [] es 0%Z) O _ _ eq_refl _).
    + destruct WF as (_ & _ & WF). rewrite Cn in WF. cbn in WF. destruct WF as (_ & WF). rewrite Pa in WF. apply WF.
    + cbn [lo_leaf_index]. pose proof (shaped_small t d i l G L). lia.
    + apply leaf_verify_iff. cbn [lo_suite lo_group_id lo_leaf_index lo_supported_creds lo_signature_keys lo_encryption_keys lo_now]. split; [exact V1|]. split; [exact V2|]. split; [intros; lia|]. split; [exact V4|]. split; [intros []|].
      intros Q. apply ES in Q as (j & m0 & Lm & Q). exact (proj1 (V6 j m0 Lm) Q).
Qed.

Lemma c94_once P cs sa h k t d ctx epoch t2 d2 ctx2 epoch2 b t' t2' mk mk2 : p_sig P cs = Ok sa -> p_hash P cs = Ok h -> p_hpke P cs = Ok k ->
  shaped t d -> shaped t2 d2 -> wf_group_context ctx -> wf_group_context ctx2 ->
  expand_label k epoch (str "membership") [] (nh k) = Ok mk -> expand_label k epoch2 (str "membership") [] (nh k) = Ok mk2 ->
  passive_commit P cs t ctx epoch b = Ok t' -> passive_commit P cs t2 ctx2 epoch2 b = Ok t2' ->
  ctx = ctx2 \/ tag_collision h b ctx mk ctx2 mk2.
Proof.
  intros A Hh K G G2 W W2 E1 E2 H H2.
  apply (c94_accepted P cs sa h k t d ctx epoch b t' A Hh K G) in H as (v & m & rest & i & l & c & ps & D & CO). destruct (co_sender _ _ _ _ _ _ _ _ _ _ _ _ _ _ _ CO) as (Sd & _). destruct (co_tag _ _ _ _ _ _ _ _ _ _ _ _ _ _ _ CO) as (mk' & x & T1 & X1 & T2).
  apply (c94_accepted P cs sa h k t2 d2 ctx2 epoch2 b t2' A Hh K G2) in H2 as (v' & m' & rest' & i' & l' & c' & ps' & D' & CO'). destruct (co_tag _ _ _ _ _ _ _ _ _ _ _ _ _ _ _ CO') as (mk2' & x2 & T1' & X1' & T2').
  rewrite D in D'. apply Ok_inj in D'. injection D' as <- <- <-. rewrite E1 in T1. apply Ok_inj in T1. subst mk'. rewrite E2 in T1'. apply Ok_inj in T1'. subst mk2'.
  pose proof (message_wf _ _ _ D) as (_ & WM). cbn in WM. destruct WM as (W1 & W3 & _). assert (FM : from_member m) by (exists i; exact Sd).
  rewrite T2 in T2'. injection T2' as T2'. destruct (bytes_eqb x x2) eqn:Q.
  - apply bytes_eqb_eq in Q. subst x2. left. eapply (c46_binds m m ctx ctx2 x FM FM W1 W1 W3 W3 W W2 X1 X1').
  - right. exists v, m, rest, x, x2. repeat split; auto. intros E. apply bytes_eqb_eq in E. congruence.
Qed.

Lemma c94_honest P cs sa h k t d ctx epoch sk mk c i l cm ps b t' : p_sig P cs = Ok sa -> p_hash P cs = Ok h -> p_hpke P cs = Ok k -> shaped t d ->
  leaf_at t i = Some l -> key_pair_ok P cs sk (signature_key l) -> expand_label k epoch (str "membership") [] (nh k) = Ok mk ->
  wf_framed_content c -> fc_epoch c = gc_epoch ctx -> fc_sender c = SMember i -> fc_content c = CCommit cm -> cm_proposals cm = map PorProposal ps ->
  valid_list ps (repeat i (length ps)) i -> (forall p, In p ps -> psk_of p = None) -> (exists t2, tree_apply t ps (repeat i (length ps)) = Ok t2) ->
  match cm_path cm with
  | None => ps <> [] /\ (forall p, In p ps -> ~ wants_path p) /\ t' = t
  | Some u => path_ok P cs t d ctx i l u t'
  end ->
  send_public P cs ctx sk mk c = Ok b -> passive_commit P cs t ctx epoch b = Ok t'.
Proof.
  intros A Hh K G L KP MK W E Sd Cn PS VL NP AP PA H. pose proof (c92_delivered P cs ctx sk _ mk c b KP W H) as R. apply receive_public_inv in R as (v & m & rest & D & C & S & T).
  apply (c94_accepted P cs sa h k t d ctx epoch b t' A Hh K G). exists v, m, rest, i, l, cm, ps. split; [exact D|].
  pose proof (message_wf _ _ _ D) as (_ & WM). cbn in WM. destruct WM as (_ & _ & W3). rewrite C, Sd in W3. assert (FM : from_member m) by (exists i; rewrite C; exact Sd).
  apply (c46_iff P cs h m mk ctx Hh FM) in T as [T|(x & X & T)]; [contradiction|]. apply (verify_iff P cs sa _ _ _ A) in S as (y & Y1 & Y2). cbn [public_auth_content ac_wire_format ac_content ac_auth] in *.
  constructor; rewrite ?C in *; auto.
  - exists y. auto.
  - exists mk, x. auto.
Qed.

(** What an accepted commit leaves of the tree. *)
Lemma c94_others P cs sa h k t d ctx epoch b t' : p_sig P cs = Ok sa -> p_hash P cs = Ok h -> p_hpke P cs = Ok k -> shaped t d ->
  passive_commit P cs t ctx epoch b = Ok t' ->
  exists v m rest i, de_mls_message b = Ok (MkMLSMessage v (WMPublic m), rest) /\ fc_sender (pm_content m) = SMember i /\ forall j, j <> i -> leaf_at t' j = leaf_at t j.
Proof.
  intros A Hh K G H. apply (c94_accepted P cs sa h k t d ctx epoch b t' A Hh K G) in H as (v & m & rest & i & l & c & ps & D & CO). exists v, m, rest, i. split; [exact D|]. split; [apply CO|].
  intros j J. pose proof (co_path _ _ _ _ _ _ _ _ _ _ _ _ _ _ _ CO) as PA. destruct (cm_path c) as [u|]; [|destruct PA as (_ & _ & ->); reflexivity].
  unfold leaf_at. rewrite (mg_off _ _ _ _ _ _ _ (po_merged _ _ _ _ _ _ _ _ _ PA)); [reflexivity|lia|]. apply path_not_leaf.
Qed.
Lemma c94_tree P cs sa h k t d ctx epoch b t' : p_sig P cs = Ok sa -> p_hash P cs = Ok h -> p_hpke P cs = Ok k -> good t d -> distinct_keys t ->
  passive_commit P cs t ctx epoch b = Ok t' ->
  good t' d /\ distinct_keys t' /\
  (verify_parent_hashes P cs t = Ok true -> (exists x, root_tree_hash P cs t' = Ok x) -> (forall i, ~ coincidence P cs t' i) -> verify_parent_hashes P cs t' = Ok true).
Proof.
  intros A Hh K G DK H. apply (c94_accepted P cs sa h k t d ctx epoch b t' A Hh K (good_shaped t d G)) in H as (v & m & rest & i & l & c & ps & D & CO).
  pose proof (co_sender _ _ _ _ _ _ _ _ _ _ _ _ _ _ _ CO) as (_ & L). pose proof (co_path _ _ _ _ _ _ _ _ _ _ _ _ _ _ _ CO) as PA. destruct (cm_path c) as [u|]; [|destruct PA as (_ & _ & ->); auto].
  pose proof (proj2 (path_iff P cs t d ctx i l u t' (good_shaped t d G) L) PA) as PP. unfold passive_path in PP. apply bind_ok in PP as (u0 & _ & PP). apply bind_ok in PP as ((ss, es) & KK & PP). apply bind_ok in PP as (creds & C & PP). apply bind_ok in PP as (u1 & V & PP). destruct u1. apply (proj1 (assert_ok_unit _)) in V. apply bind_ok in PP as (u2 & _ & PP).
  destruct (merge_update_path P cs t i u) as (t2, r) eqn:M. apply bind_ok in PP as ([] & -> & PP). apply Ok_inj in PP. subst t2.
  assert (I : i < 2 ^ d) by (apply (shaped_member_lt t d i (good_shaped t d G)), (shaped_leaf_at t d i (good_shaped t d G)); eauto).
  split; [exact (merge_good P cs t d i u t' G I M)|]. split.
  - apply (checked_distinct P cs t d t' G DK). apply (cs_merge P cs t i u); [|exact M]. eexists ss, es, _. split; [exact KK|]. split; [exact V|]. cbn [lo_signature_keys lo_encryption_keys]. split; [|auto].
    intros q Q. destruct (bytes_eqb q (lp_signature_key (ln_payload l))) eqn:B.
    + right. exists l. split; [exact L|]. symmetry. apply bytes_eqb_eq, B.
    + left. apply filter_In. rewrite B. auto.
  - intros VP (x & RT) NC. apply (c70 P cs t d t' G VP). eapply fh_cons; [apply fh_nil|]. eapply fs_merge; [exact M|exact RT|apply NC].
Qed.
