(** Encodable trees stay encodable. *)
From Verif Require Import AbleFacts TreeHash TreeInv TreeMore TreeFacts Verified SpecRatchet SpecSecrets SpecDigest SecretFacts DigestFacts PrivateFacts HashFacts KnowFacts SpecAble Examples ExProvider KeyFacts.
From Coq Require Import ZifyBool ZifyNat ZifyN.
Local Open Scope N_scope.
Local Open Scope list_scope.

Lemma seqw_both {a b : res bytes} {x y} : a = Ok x -> b = Ok y -> a +++ b = Ok (x ++ y).
Proof. intros -> ->. reflexivity. Qed.
Lemma elems_u32 l : exists raw, se_elems put_u32 l = Ok raw /\ length raw = (4 * length l)%nat.
Proof.
  induction l as [|a l (raw & E & L)]; [exists []; auto|]. cbn [se_elems]. rewrite E. eexists. split; [reflexivity|]. rewrite app_length, L. cbn [length]. rewrite be_length. lia.
Qed.
Lemma below_length l n : NoDup l -> (forall x, In x l -> x < n) -> N.of_nat (length l) <= n.
Proof.
  intros ND B. assert (L : (length (map N.to_nat l) <= length (seq 0 (N.to_nat n)))%nat).
  { apply NoDup_incl_length; [apply FinFun.Injective_map_NoDup; [intros a b; lia|exact ND]|]. intros y Iy. apply in_map_iff in Iy as (x & <- & Ix). apply in_seq. specialize (B x Ix). lia. }
  rewrite map_length, seq_length in L. lia.
Qed.

(** All that can be too long about a well-formed tree of at most 2^27 leaves. *)
Definition fitting (t : tree) : Prop := forall x nd, tget t x = Some nd ->
  match nd with Leaf l => exists b, se_leaf_node l = Ok b | Parent p => fits30 (pn_encryption_key p) /\ fits30 (pn_parent_hash p) end.

Lemma encodes_fitting t : encodes t -> fitting t.
Proof.
  intros EN x [l|p] E; destruct (EN x _ E) as (b & B); [eauto|]. unfold se_parent_node in B. apply seqw_ok in B as (b1 & b2 & B1 & B & _). apply seqw_ok in B as (b3 & b4 & B3 & _ & _).
  split; eapply opaque_fits30; eassumption.
Qed.
Lemma fitting_encodes t d : good t d -> d <= 27 -> fitting t -> encodes t.
Proof.
  intros G D F x [l|p] E; pose proof (F x _ E) as Q; [exact Q|]. destruct Q as [Q1 Q2]. apply opaque_fits in Q1 as (a & Q1). apply opaque_fits in Q2 as (c & Q2).
  destruct (node_decomp x) as (k & j & ->). destruct (good_level t d k j p G E) as [K0 Kd].
  destruct (elems_u32 (pn_unmerged p)) as (raw & R & L).
  assert (LU : N.of_nat (length (pn_unmerged p)) <= 2 ^ d).
  { apply below_length; [apply sorted_NoDup; eapply uo_sorted; [exact (g_unmerged t d G)|exact E]|]. intros u Iu.
    destruct (uo_below t (g_unmerged t d G) k j p u E Iu) as (_ & l & El). apply (not_blank_in t d u G). unfold blank_at. unfold leaf_at in El. intros Z. rewrite Z in El. discriminate. }
  assert (FR : fits30 raw). { unfold fits30. rewrite L. assert (2 ^ d <= 2 ^ 27) by (apply pow2_mono; exact D). change (2 ^ 27) with 134217728 in *. lia. }
  apply opaque_fits in FR as (e & FR). unfold se_parent_node, se_vector. rewrite Q1, Q2, R. cbn [bind]. rewrite FR. eexists. reflexivity.
Qed.

Lemma c127_step P cs t d t' : good t d -> fitting t -> sound_step P cs t t' -> t' = [] \/ (exists d', good t' d') /\ fitting t'.
Proof.
  intros G F S. pose proof (good_usized t d G) as U.
  assert (TS : tree_step P cs t t') by (destruct S; [eapply ts_add|eapply ts_update|eapply ts_remove|eapply ts_merge]; eassumption).
  destruct (step_good P cs t d t' G TS) as [->|G']; [left; reflexivity|]. right. split; [exact G'|]. clear TS.
  destruct S as [t l b t' B R E|t i l b t' B E|t i t' E|t i u b t' B E].
  - destruct (add_added t d l t' G R E) as (d' & i & GG & BL & (A1 & A2 & A3 & A4 & A5)). intros x nd Q. destruct (N.eq_dec x (2 * i)) as [->|Nx].
    + destruct nd as [l'|p]; [|exfalso; exact (g_leaf t' d' GG i p Q)]. unfold get_leaf in A1. exists b. rewrite <- B. f_equal.
      destruct (node_index_cases i) as [Z|[Z _]]; rewrite Z in A1; cbn [bind] in A1; [discriminate|]. rewrite Q in A1. congruence.
    + destruct (on_path_dec d' i x) as [O|O].
      * destruct (tget t x) as [[l'|p]|] eqn:Et.
        -- exfalso. destruct O as (k & j & Lk & -> & _). replace k with (k - 1 + 1) in Et by lia. exact (g_parent t d G _ _ _ Et).
        -- rewrite (A3 x p O Et) in Q. injection Q as <-. exact (F x _ Et).
        -- rewrite (A4 x O Et) in Q. discriminate.
      * rewrite (A5 x Nx O) in Q. exact (F x nd Q).
  - destruct (N.lt_ge_cases i (2 ^ d)) as [Hi|Hi]; [|rewrite (update_out t d) in E by assumption; discriminate].
    destruct (c17 t d i l (g_size t d G) (g_small t d G) Hi) as (t2 & E2 & _ & A1 & A2 & A3). rewrite E in E2. apply Ok_inj in E2. subst t2.
    intros x nd Q. destruct (N.eq_dec x (2 * i)) as [->|Nx].
    + destruct G' as (d' & GG). destruct nd as [l'|p]; [|exfalso; exact (g_leaf t' d' GG i p Q)]. unfold get_leaf in A1. exists b. rewrite <- B. f_equal.
      destruct (node_index_cases i) as [Z|[Z _]]; rewrite Z in A1; cbn [bind] in A1; [discriminate|]. rewrite Q in A1. congruence.
    + destruct (on_path_dec d i x) as [O|O]; [rewrite (A2 x O) in Q; discriminate|]. rewrite (A3 x Nx O) in Q. exact (F x nd Q).
  - destruct (N.lt_ge_cases i (2 ^ d)) as [Hi|Hi]; [|rewrite (remove_out t d) in E by assumption; discriminate].
    destruct (c18 t d i (g_size t d G) (g_small t d G) Hi) as (t2 & E2 & A1 & A2 & _ & A3 & _). rewrite E in E2. apply Ok_inj in E2. subst t2.
    intros x nd Q. destruct (N.lt_ge_cases x (tlen t')) as [L|L]; [|rewrite tget_beyond in Q by exact L; discriminate].
    destruct (N.eq_dec x (2 * i)) as [->|Nx]; [unfold blank_at in A1; congruence|].
    destruct (on_path_dec d i x) as [O|O]; [rewrite (A2 x O) in Q; discriminate|]. rewrite (A3 x L Nx O) in Q. exact (F x nd Q).
  - destruct (N.lt_ge_cases i (2 ^ d)) as [Hi|Hi]; [|rewrite (merge_out P cs t d) in E by assumption; discriminate].
    apply (merge_iff P cs t d i u t' (good_small t d G) U Hi) in E. destruct E as [ML MLf MO (fp & ph & EF' & _ & EL & HK & HB & ES & Ch)].
    intros x nd Q. destruct (N.eq_dec x (2 * i)) as [->|Nx]. { rewrite MLf in Q. injection Q as <-. eauto. }
    destruct (on_path_dec d i x) as [O|O]; [|apply (F x); rewrite <- MO; assumption].
    destruct (in_dec N.eq_dec x fp) as [I|I]; [|rewrite (HB x O I) in Q; discriminate].
    destruct (chain_encodes P cs t' i fp ph Ch x I) as (p & Ep & F1 & F2). rewrite Ep in Q. injection Q as <-. auto.
Qed.
Lemma sound_empty P cs t' : ~ sound_step P cs [] t'.
Proof. intros S. apply (step_empty P cs t'). inversion S; subst; [eapply ts_add|eapply ts_update|eapply ts_remove|eapply ts_merge]; eassumption. Qed.
Lemma c127_history P cs t d t' : good t d -> fitting t -> sound_history P cs t t' -> t' = [] \/ (exists d', good t' d') /\ fitting t'.
Proof.
  intros G F H. induction H as [t|t t1 t2 H IH S]; [eauto|]. destruct (IH G F) as [->|[[d' G'] F']]; [exfalso; eapply sound_empty; eassumption|].
  eapply c127_step; eassumption.
Qed.
Lemma c127_life P cs t d t' d' : good t d -> encodes t -> sound_history P cs t t' -> tsized t' d' -> d' <= 27 -> good t' d' /\ encodes t'.
Proof.
  intros G EN H S D. destruct (c127_history P cs t d t' G (encodes_fitting t EN) H) as [->|[[e GE] F]].
  - exfalso. pose proof (pow2_pos d'). destruct S as [S|S]; unfold full_size, cut_size, tlen in S; rewrite pow2_S in S; cbn in S; lia.
  - assert (e = d') as -> by (apply (size_unique t'); [exact (g_size t' e GE)|exact S]). split; [exact GE|]. eapply fitting_encodes; eassumption.
Qed.

Lemma c127_encodable t : encodes t <-> forall x nd, tget t x = Some nd ->
  match nd with Leaf l => exists b, se_leaf_node l = Ok b
  | Parent p => fits30 (pn_encryption_key p) /\ fits30 (pn_parent_hash p) /\ N.of_nat (length (pn_unmerged p)) < 268435456 end.
Proof.
  split.
  - intros EN x nd E. pose proof (encodes_fitting t EN x nd E) as F. destruct nd as [l|p]; [exact F|]. destruct F as [F1 F2]. split; [exact F1|]. split; [exact F2|].
    destruct (EN x _ E) as (b & B). unfold se_parent_node in B. apply seqw_ok in B as (b1 & b2 & B1 & B & _). apply seqw_ok in B as (b3 & b4 & _ & B4 & _).
    destruct (elems_u32 (pn_unmerged p)) as (raw & R & L). unfold se_vector in B4. rewrite R in B4. cbn [bind] in B4. apply opaque_fits30 in B4. unfold fits30 in B4. rewrite L in B4. lia.
  - intros F x nd E. specialize (F x nd E). destruct nd as [l|p]; [exact F|]. destruct F as (F1 & F2 & F3). apply opaque_fits in F1 as (a & F1). apply opaque_fits in F2 as (c & F2).
    destruct (elems_u32 (pn_unmerged p)) as (raw & R & L). assert (FR : fits30 raw) by (unfold fits30; rewrite L; lia).
    apply opaque_fits in FR as (e & FR). unfold se_parent_node, se_vector. rewrite F1, F2, R. cbn [bind]. rewrite FR. eexists. reflexivity.
Qed.
Lemma single_encodes l b : se_leaf_node l = Ok b -> encodes [Some (Leaf l)].
Proof.
  intros B x nd E. destruct (N.eq_dec x 0) as [->|Z]; [cbv in E; injection E as <-; eauto|]. rewrite tget_beyond in E; [discriminate|]. unfold tlen. cbn [length]. lia.
Qed.
Lemma c127_born P cs l b t' d' i j ns fp h : se_leaf_node l = Ok b -> sound_history P cs [Some (Leaf l)] t' -> tsized t' d' -> d' <= 27 ->
  p_hash P cs = Ok h -> (forall b, fits30 (h_digest h b)) -> ~ blank_at t' i -> j <> i -> ~ blank_at t' j -> filtered_direct_path t' (2 * i) = Ok fp ->
  length ns = length fp -> Forall (fun n => fits30 (upn_encryption_key n)) ns ->
  exists ph, fits30 ph /\ forall l, exists t2 r, merge_update_path P cs t' i (MkUpdatePath l ns) = (t2, r) /\
    (lp_source (ln_payload l) = LSCommit ph -> r = Ok tt) /\ (lp_source (ln_payload l) <> LSCommit ph -> r = Err ParentHashMismatchForUpdatePathLeafNode).
Proof.
  intros B H S D Hh FH NI NE NJ EF EL FK. destruct (c127_life P cs [Some (Leaf l)] 0 t' d' (good_single l) (single_encodes l b B) H S D) as [G EN].
  exact (c127_some P cs h t' d' i j ns fp G EN (not_blank_in t' d' i G NI) NE NJ Hh FH EF EL FK).
Qed.
Lemma c127_born_example : exists b, se_leaf_node (ex_leaf x01) = Ok b /\ sound_history fixed Suite1 [Some (Leaf (ex_leaf x01))] ex_three /\ tsized ex_three 2 /\
  ~ blank_at ex_three 0 /\ ~ blank_at ex_three 2.
Proof.
  eexists. split; [vm_compute; reflexivity|]. split; [|split; [left; reflexivity|split; vm_compute; discriminate]].
  eapply sh_cons; [eapply sh_cons; [apply sh_nil|]|].
  - eapply (ss_add _ _ _ (ex_leaf x02)); [vm_compute; reflexivity|exists 0; left; reflexivity|vm_compute; reflexivity].
  - eapply (ss_add _ _ _ (ex_leaf x03)); [vm_compute; reflexivity|exists 1; left; reflexivity|vm_compute; reflexivity].
Qed.
