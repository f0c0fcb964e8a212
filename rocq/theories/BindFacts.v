(** A committer's leaf commits to the whole tree. *)
From Verif Require Export TreeHash TreePaths TreeInv Merge Verified TreeMore TreeFacts SpecHashes HashFacts.
From Verif Require Import Examples.
From Coq Require Import ZifyBool ZifyNat ZifyN.
Local Open Scope N_scope.

Lemma parent_hash_input_inj k k' p p' s s' b : parent_hash_input k p s = Ok b -> parent_hash_input k' p' s' = Ok b -> k = k' /\ p = p' /\ s = s'.
Proof.
  unfold parent_hash_input. intros H H'. apply seqw_ok in H as (x & y & Hx & Hy & ->). apply seqw_ok in H' as (x' & y' & Hx' & Hy' & E).
  destruct (codec_prefix_free codec_opaque _ _ _ _ _ _ I I Hx Hx' E) as [<- <-]. split; [reflexivity|].
  apply seqw_ok in Hy as (u & v & Hu & Hv & ->). apply seqw_ok in Hy' as (u' & v' & Hu' & Hv' & E').
  destruct (codec_prefix_free codec_opaque _ _ _ _ _ _ I I Hu Hu' E') as [<- <-]. split; [reflexivity|].
  exact (codec_inj codec_opaque _ _ _ I I Hv Hv').
Qed.
Lemma parent_hash_split P cs p th h : parent_hash P cs p th = Ok h -> exists b H, parent_hash_input (pn_encryption_key p) (pn_parent_hash p) th = Ok b /\ p_hash P cs = Ok H /\ h = h_digest H b.
Proof. unfold parent_hash. intros E. apply bind_ok in E as (b & Eb & E). apply bind_ok in E as (H & EH & E). apply Ok_inj in E. exists b, H. auto. Qed.

Lemma parent_hash_binds P cs p p' th th' h : parent_hash P cs p th = Ok h -> parent_hash P cs p' th' = Ok h ->
  (pn_encryption_key p = pn_encryption_key p' /\ pn_parent_hash p = pn_parent_hash p' /\ th = th') \/
  exists H b b', p_hash P cs = Ok H /\ parent_hash_input (pn_encryption_key p) (pn_parent_hash p) th = Ok b /\
    parent_hash_input (pn_encryption_key p') (pn_parent_hash p') th' = Ok b' /\ b <> b' /\ h_digest H b = h_digest H b'.
Proof.
  intros E E'. apply parent_hash_split in E as (b & H & Eb & EH & ->). apply parent_hash_split in E' as (b' & H' & Eb' & EH' & D).
  assert (H' = H) by congruence. subst H'. destruct (bytes_dec b b') as [<-|Ne]; [left; exact (parent_hash_input_inj _ _ _ _ _ _ _ Eb Eb')|right].
  exists H, b, b'. auto.
Qed.

Lemma sib_bound d i k : i < 2 ^ d -> k < d -> d <= 31 -> sib (i / 2 ^ k) < 2 ^ (31 - k).
Proof.
  intros Hi Hk Hd. pose proof (sib_in d i k Hi Hk) as H. unfold in_tree, node_at in H. assert (Q : 2 ^ (d + 1) = 2 ^ (d - k) * 2 ^ (k + 1)) by (rewrite <- N.pow_add_r; f_equal; lia).
  assert (M : 2 ^ (d - k) <= 2 ^ (31 - k)) by (apply pow2_mono; lia). pose proof (pow2_S k). pose proof (pow2_pos k). rewrite Q in H. set (a := 2 ^ (d - k)) in *. destruct (N.lt_ge_cases (sib (i / 2 ^ k)) a); [lia|nia].
Qed.

Section Chain.
  Variables (P : provider) (cs : cipher_suite) (t t' : tree) (d d' i : N).
  Hypotheses (W : nodes_wf t) (W' : nodes_wf t') (D : d <= 31) (D' : d' <= 31) (Hi : i < 2 ^ d) (Hi' : i < 2 ^ d').
  Definition same_step (k : N) : Prop := agree t t' k (sib (i / 2 ^ k)) /\
    exists p p', tget t (node_at (k + 1) (i / 2 ^ (k + 1))) = Some (Parent p) /\ tget t' (node_at (k + 1) (i / 2 ^ (k + 1))) = Some (Parent p') /\
      pn_encryption_key p = pn_encryption_key p' /\ pn_parent_hash p = pn_parent_hash p'.

  Lemma empty_left x p k j th : tget t x = Some (Parent p) -> tree_hash P cs t (node_at k j) [] = Ok th -> parent_hash P cs p th = Ok [] -> parent_collision P cs t t'.
  Proof. intros A B C. apply parent_hash_split in C as (b & H & Eb & EH & Q). exists H. split; [exact EH|]. right. exists x, b. split; [|auto]. left. exists p, k, j, th. auto. Qed.
  Lemma empty_right x p k j th : tget t' x = Some (Parent p) -> tree_hash P cs t' (node_at k j) [] = Ok th -> parent_hash P cs p th = Ok [] -> parent_collision P cs t t'.
  Proof. intros A B C. apply parent_hash_split in C as (b & H & Eb & EH & Q). exists H. split; [exact EH|]. right. exists x, b. split; [|auto]. right. exists p, k, j, th. auto. Qed.

  Lemma chain_binds : forall fp fp' ph, (forall x, In x fp -> on_path d i x) -> (forall x, In x fp' -> on_path d' i x) ->
    hash_chain P cs t i ph fp -> hash_chain P cs t' i ph fp' ->
    (fp = fp' /\ forall k, In (node_at (k + 1) (i / 2 ^ (k + 1))) fp -> same_step k) \/ collision P cs t t' \/ parent_collision P cs t t'.
  Proof.
    induction fp as [|x fp IH]; intros fp' ph O O' C C'; cbn [hash_chain] in C.
    - subst ph. destruct fp' as [|x' fp']; cbn [hash_chain] in C'.
      + left. split; [reflexivity|]. intros k [].
      + destruct C' as (p & s & th & Ep & Os & Eh & EP & _). right. right. destruct (on_path_level _ _ _ (O' x' (or_introl eq_refl))) as (k & Hk & Q). subst x'.
        apply other_child_path in Os. subst s. exact (empty_right _ _ _ _ _ Ep Eh EP).
    - destruct C as (p & s & th & Ep & Os & Eh & EP & C). destruct (on_path_level _ _ _ (O x (or_introl eq_refl))) as (k & Hk & Q). subst x.
      apply other_child_path in Os. subst s. destruct fp' as [|x' fp']; cbn [hash_chain] in C'.
      + subst ph. right. right. exact (empty_left _ _ _ _ _ Ep Eh EP).
      + destruct C' as (p' & s' & th' & Ep' & Os' & Eh' & EP' & C'). destruct (on_path_level _ _ _ (O' x' (or_introl eq_refl))) as (k' & Hk' & Q). subst x'.
        apply other_child_path in Os'. subst s'. destruct (parent_hash_binds P cs p p' th th' ph EP EP') as [(K & PH & <-)|(H & b & b' & EH & Eb & Eb' & Ne & Q)].
        * destruct (hash_binds P cs t t' W W' k k' _ _ th ltac:(lia) ltac:(lia) (sib_bound d i k Hi Hk D) (sib_bound d' i k' Hi' Hk' D') Eh Eh') as [(Ek & _ & A)|CC]; [|right; left; exact CC].
          subst k'. rewrite <- PH in C'. destruct (IH fp' (pn_parent_hash p)) as [[-> S]|B]; [intros y I; apply O; right; exact I|intros y I; apply O'; right; exact I|exact C|exact C'| |right; exact B].
          left. split; [reflexivity|]. intros m [I|I]; [|apply S, I]. apply node_at_inj in I as [I _]. assert (m = k) as -> by lia. split; [exact A|]. exists p, p'. auto.
        * right. right. exists H. split; [exact EH|]. left. exists (node_at (k + 1) (i / 2 ^ (k + 1))), (node_at (k' + 1) (i / 2 ^ (k' + 1))), b, b'.
          split; [|split; [|auto]]; [exists p, k, (sib (i / 2 ^ k)), th|exists p', k', (sib (i / 2 ^ k')), th']; auto.
  Qed.
End Chain.

(** An empty resolution means an empty subtree. *)
Lemma resolution_empty t : (forall i p, tget t (2 * i) <> Some (Parent p)) -> forall k j x, resolution t k j = [] -> inside (N.of_nat k) j x -> tget t x = None.
Proof.
  intros L. induction k as [|k IH]; intros j x E I; cbn [resolution] in E.
  - destruct I as (k' & j' & Lk & -> & Q). assert (k' = 0) as -> by lia. change (2 ^ (N.of_nat 0 - 0)) with 1 in Q. rewrite N.div_1_r in Q. subst j'. change (N.of_nat 0) with 0 in E.
    destruct (tget t (node_at 0 j)) as [[?|?]|]; [discriminate|discriminate|reflexivity].
  - destruct (tget t (node_at (N.of_nat (S k)) j)) as [[?|?]|] eqn:G; [discriminate|discriminate|]. apply app_eq_nil in E as [E1 E2].
    replace (N.of_nat (S k)) with (N.of_nat k + 1) in * by lia. apply inside_cases in I as [->|[I|I]]; [exact G|exact (IH _ _ E1 I)|exact (IH _ _ E2 I)].
Qed.

(** Every place of a tree is the leaf, on its path, or beside the path. *)
Lemma place d i : forall x, i < 2 ^ d -> in_tree d x -> x = 2 * i \/ exists k, k < d /\ (x = node_at (k + 1) (i / 2 ^ (k + 1)) \/ inside k (sib (i / 2 ^ k)) x).
Proof.
  intros x Hi I. apply inside_root in I.
  assert (H : forall m, N.of_nat m <= d -> inside (N.of_nat m) (i / 2 ^ N.of_nat m) x -> x = 2 * i \/ exists k, k < d /\ (x = node_at (k + 1) (i / 2 ^ (k + 1)) \/ inside k (sib (i / 2 ^ k)) x)).
  { induction m as [|m IH]; intros Lm Im.
    - left. destruct Im as (k' & j' & Lk & -> & Q). assert (k' = 0) as -> by lia. change (N.of_nat 0) with 0 in Q. change (2 ^ (0 - 0)) with 1 in Q. change (2 ^ 0) with 1 in Q.
      rewrite !N.div_1_r in Q. subst j'. apply node_at_leaf.
    - replace (N.of_nat (S m)) with (N.of_nat m + 1) in * by lia. destruct (own_child i (N.of_nat m)) as [[Q1 Q2]|[Q1 Q2]];
        (apply inside_cases in Im as [->|[Im|Im]]; [right; exists (N.of_nat m); split; [lia|]; left; reflexivity| |]).
      + rewrite <- Q1 in Im. apply IH; [lia|exact Im].
      + rewrite <- Q2 in Im. right. exists (N.of_nat m). split; [lia|right; exact Im].
      + rewrite <- Q2 in Im. right. exists (N.of_nat m). split; [lia|right; exact Im].
      + rewrite <- Q1 in Im. apply IH; [lia|exact Im]. }
  apply (H (N.to_nat d)); rewrite N2Nat.id; [lia|]. rewrite N.div_small by exact Hi. exact I.
Qed.

Lemma path_nodes P cs t d i u t' : good t d -> i < 2 ^ d -> merge_update_path P cs t i u = (t', Ok tt) ->
  exists fp ph, lp_source (ln_payload (up_leaf u)) = LSCommit ph /\ hash_chain P cs t' i ph fp /\ (forall x, In x fp -> on_path d i x) /\
    tget t' (2 * i) = Some (Leaf (up_leaf u)) /\
    (forall x p, In x fp -> tget t' x = Some (Parent p) -> pn_unmerged p = []) /\
    (forall k, k < d -> ~ In (node_at (k + 1) (i / 2 ^ (k + 1))) fp -> tget t' (node_at (k + 1) (i / 2 ^ (k + 1))) = None /\
      forall x, inside k (sib (i / 2 ^ k)) x -> tget t' x = None).
Proof.
  intros G Hi E. pose proof (good_usized t d G) as U. pose proof (good_small t d G) as SU. apply (merge_iff P cs t d i u t' SU U Hi) in E.
  destruct E as [ML MLf MO (fp & ph & EF & _ & EL & HK & HB & ES & Ch)]. rewrite (filtered_leaf t d i SU U Hi) in EF. apply Ok_inj in EF. subst fp.
  exists (fpath t (N.to_nat d) 0 i), ph. split; [exact ES|]. split; [exact Ch|]. split; [intros x; apply fpath_on_path|]. split; [exact MLf|]. split.
  - intros x p I Ep. destruct (nth_error_pair _ (up_nodes u) _ EL I) as (m & n & A & B). destruct (HK m _ n A B) as [h0 Q]. rewrite Q in Ep. injection Ep as <-. reflexivity.
  - intros k Hk NI. split; [apply HB; [apply level_on_path, Hk|exact NI]|]. intros x I.
    destruct (inside_off_path d _ _ i x (sib_not_covers k i) I) as [A1 A2]. rewrite MO by assumption.
    assert (R : resolution t (N.to_nat k) (sib (i / 2 ^ k)) = []).
    { destruct (resolution t (N.to_nat k) (sib (i / 2 ^ k))) as [|y l] eqn:R; [reflexivity|]. exfalso. apply NI. apply fpath_in. exists k. rewrite N.add_0_l. split; [lia|]. split; [reflexivity|]. rewrite R. discriminate. }
    apply (resolution_empty t (g_leaf t d G) (N.to_nat k) (sib (i / 2 ^ k))); [exact R|rewrite N2Nat.id; exact I].
Qed.

Lemma commit_binds P cs t1 d1 t2 d2 i u1 u2 t1' t2' : good t1 d1 -> good t2 d2 ->
  merge_update_path P cs t1 i u1 = (t1', Ok tt) -> merge_update_path P cs t2 i u2 = (t2', Ok tt) -> nodes_wf t1' -> nodes_wf t2' ->
  up_leaf u1 = up_leaf u2 ->
  (forall x, tget t1' x = tget t2' x) \/ collision P cs t1' t2' \/ parent_collision P cs t1' t2'.
Proof.
  intros G1 G2 E1 E2 W1 W2 EL.
  assert (H1 : i < 2 ^ d1). { destruct (N.lt_ge_cases i (2 ^ d1)) as [H|H]; [exact H|]. rewrite (merge_out P cs t1 d1 i u1 (good_usized t1 d1 G1) H) in E1. discriminate. }
  assert (H2 : i < 2 ^ d2). { destruct (N.lt_ge_cases i (2 ^ d2)) as [H|H]; [exact H|]. rewrite (merge_out P cs t2 d2 i u2 (good_usized t2 d2 G2) H) in E2. discriminate. }
  pose proof (merge_good P cs t1 d1 i u1 t1' G1 H1 E1) as G1'. pose proof (merge_good P cs t2 d2 i u2 t2' G2 H2 E2) as G2'.
  pose proof (usized_31 _ _ (good_usized t1 d1 G1)) as D1. pose proof (usized_31 _ _ (good_usized t2 d2 G2)) as D2.
  destruct (path_nodes P cs t1 d1 i u1 t1' G1 H1 E1) as (fp1 & ph1 & S1 & C1 & O1 & L1 & U1 & B1).
  destruct (path_nodes P cs t2 d2 i u2 t2' G2 H2 E2) as (fp2 & ph2 & S2 & C2 & O2 & L2 & U2 & B2).
  assert (ph2 = ph1) by (rewrite EL in S1; congruence). subst ph2.
  destruct (chain_binds P cs t1' t2' d1 d2 i W1 W2 D1 D2 H1 H2 fp1 fp2 ph1 O1 O2 C1 C2) as [[Q S]|B]; [left|right; exact B]. subst fp2.
  assert (K : forall x, in_tree d1 x \/ in_tree d2 x -> tget t1' x = tget t2' x).
  { assert (Gen : forall x k, (k < d1 \/ k < d2) -> x = node_at (k + 1) (i / 2 ^ (k + 1)) \/ inside k (sib (i / 2 ^ k)) x -> tget t1' x = tget t2' x).
    { intros x k Hk Hx. destruct (in_dec N.eq_dec (node_at (k + 1) (i / 2 ^ (k + 1))) fp1) as [I|NI].
      - destruct (S k I) as (A & p & p' & Ep & Ep' & K1 & K2). destruct Hx as [->|Hx]; [|apply A, Hx]. rewrite Ep, Ep'. do 2 f_equal.
        pose proof (U1 _ _ I Ep). pose proof (U2 _ _ I Ep'). destruct p, p'. cbn in *. congruence.
      - assert (N1 : tget t1' x = None).
        { destruct (N.lt_ge_cases k d1) as [Kd|Kd]; [destruct (B1 k Kd NI) as [Z1 Z2]; destruct Hx as [->|Hx]; auto|].
          destruct (tget t1' x) as [nd|] eqn:X; [|reflexivity]. exfalso. pose proof (g_in _ _ G1' _ _ X) as I.
          destruct (place d1 i x H1 I) as [->|(k0 & Hk0 & [->|Hx0])].
          - destruct Hx as [Hx|Hx]; [rewrite <- node_at_leaf in Hx; apply node_at_inj in Hx; lia|]. destruct (inside_off_path d2 _ _ i _ (sib_not_covers k i) Hx) as [F _]. apply F. reflexivity.
          - destruct Hx as [Hx|Hx]; [apply node_at_inj in Hx; lia|]. destruct (inside_off_path d1 _ _ i _ (sib_not_covers k i) Hx) as [_ F]. apply F. apply level_on_path, Hk0.
          - destruct Hx as [->|Hx].
            + destruct (inside_off_path (k + 1) _ _ i _ (sib_not_covers k0 i) Hx0) as [_ F]. apply F. apply level_on_path. lia.
            + (* both beside the path, at different levels *)
              destruct (node_decomp x) as (kx & jx & ->). apply inside_covers in Hx as [_ Hx]. apply inside_covers in Hx0 as [_ Hx0].
              assert (CC : covers kx jx (jx * 2 ^ kx)) by (rewrite covers_div; apply N.div_mul; pose proof (pow2_pos kx); lia).
              specialize (Hx _ CC). specialize (Hx0 _ CC). rewrite covers_div in Hx, Hx0. set (a := jx * 2 ^ kx) in *.
              assert (Za : a / 2 ^ (k0 + 1) = i / 2 ^ (k0 + 1)). { rewrite !div_half, Hx0. apply sib_half. }
              assert (Zb : a / 2 ^ k = i / 2 ^ k). { replace k with (k0 + 1 + (k - (k0 + 1))) by lia. rewrite N.pow_add_r, <- !N.div_div by (apply N.pow_nonzero; lia). rewrite Za. reflexivity. }
              rewrite Hx in Zb. exact (sib_neq _ Zb). }
        assert (N2 : tget t2' x = None).
        { destruct (N.lt_ge_cases k d2) as [Kd|Kd]; [destruct (B2 k Kd NI) as [Z1 Z2]; destruct Hx as [->|Hx]; auto|].
          destruct (tget t2' x) as [nd|] eqn:X; [|reflexivity]. exfalso. pose proof (g_in _ _ G2' _ _ X) as I.
          destruct (place d2 i x H2 I) as [->|(k0 & Hk0 & [->|Hx0])].
          - destruct Hx as [Hx|Hx]; [rewrite <- node_at_leaf in Hx; apply node_at_inj in Hx; lia|]. destruct (inside_off_path d2 _ _ i _ (sib_not_covers k i) Hx) as [F _]. apply F. reflexivity.
          - destruct Hx as [Hx|Hx]; [apply node_at_inj in Hx; lia|]. destruct (inside_off_path d2 _ _ i _ (sib_not_covers k i) Hx) as [_ F]. apply F. apply level_on_path, Hk0.
          - destruct Hx as [->|Hx].
            + destruct (inside_off_path (k + 1) _ _ i _ (sib_not_covers k0 i) Hx0) as [_ F]. apply F. apply level_on_path. lia.
            + destruct (node_decomp x) as (kx & jx & ->). apply inside_covers in Hx as [_ Hx]. apply inside_covers in Hx0 as [_ Hx0].
              assert (CC : covers kx jx (jx * 2 ^ kx)) by (rewrite covers_div; apply N.div_mul; pose proof (pow2_pos kx); lia).
              specialize (Hx _ CC). specialize (Hx0 _ CC). rewrite covers_div in Hx, Hx0. set (a := jx * 2 ^ kx) in *.
              assert (Za : a / 2 ^ (k0 + 1) = i / 2 ^ (k0 + 1)). { rewrite !div_half, Hx0. apply sib_half. }
              assert (Zb : a / 2 ^ k = i / 2 ^ k). { replace k with (k0 + 1 + (k - (k0 + 1))) by lia. rewrite N.pow_add_r, <- !N.div_div by (apply N.pow_nonzero; lia). rewrite Za. reflexivity. }
              rewrite Hx in Zb. exact (sib_neq _ Zb). }
        congruence. }
    intros x [I|I].
    - destruct (place d1 i x H1 I) as [->|(k & Hk & Hx)]; [congruence|]. exact (Gen x k (or_introl Hk) Hx).
    - destruct (place d2 i x H2 I) as [->|(k & Hk & Hx)]; [congruence|]. exact (Gen x k (or_intror Hk) Hx). }
  intros x. destruct (tget t1' x) as [nd|] eqn:X; [rewrite <- X; apply K; left; exact (g_in _ _ G1' _ _ X)|].
  destruct (tget t2' x) as [nd|] eqn:X'; [|reflexivity]. rewrite <- X, <- X'. apply K. right. exact (g_in _ _ G2' _ _ X').
Qed.

Lemma merge_wf P cs t d i u t' : good t d -> merge_update_path P cs t i u = (t', Ok tt) -> nodes_wf t -> wf_update_path u -> nodes_wf t'.
Proof.
  intros G E W Wu. assert (Hi : i < 2 ^ d). { destruct (N.lt_ge_cases i (2 ^ d)) as [H|H]; [exact H|]. rewrite (merge_out P cs t d i u (good_usized t d G) H) in E. discriminate. }
  pose proof (merge_good P cs t d i u t' G Hi E) as G'. destruct (path_nodes P cs t d i u t' G Hi E) as (fp & ph & _ & _ & O & L & UM & B).
  apply (c25 P cs t d i u t' (good_shaped t d G) Hi) in E. intros x nd X. destruct (N.eq_dec x (2 * i)) as [->|Nx]; [rewrite L in X; injection X as <-; exact Wu|].
  destruct (on_path_dec d i x) as [Ox|Ox]; [|apply (W x); rewrite <- X; symmetry; apply (mg_off _ _ _ _ _ _ _ E); assumption].
  destruct (on_path_level _ _ _ Ox) as (k & Hk & ->). destruct nd as [l|p]; [exfalso; exact (g_parent t' d G' _ _ l X)|]. cbn. unfold wf_parent_node.
  destruct (in_dec N.eq_dec (node_at (k + 1) (i / 2 ^ (k + 1))) fp) as [I|NI]; [rewrite (UM _ _ I X); constructor|]. rewrite (proj1 (B k Hk NI)) in X. discriminate.
Qed.
Lemma c71 P cs t1 d1 t2 d2 i u1 u2 t1' t2' : good t1 d1 -> good t2 d2 -> nodes_wf t1 -> nodes_wf t2 -> wf_update_path u1 ->
  merge_update_path P cs t1 i u1 = (t1', Ok tt) -> merge_update_path P cs t2 i u2 = (t2', Ok tt) -> up_leaf u1 = up_leaf u2 ->
  (forall x, tget t1' x = tget t2' x) \/ collision P cs t1' t2' \/ parent_collision P cs t1' t2'.
Proof.
  intros G1 G2 W1 W2 Wu E1 E2 EL. apply (commit_binds P cs t1 d1 t2 d2 i u1 u2 t1' t2' G1 G2 E1 E2); [exact (merge_wf P cs t1 d1 i u1 t1' G1 E1 W1 Wu)| |exact EL].
  apply (merge_wf P cs t2 d2 i u2 t2' G2 E2 W2). unfold wf_update_path in *. rewrite <- EL. exact Wu.
Qed.
Lemma c71_no_collision P cs t t' : (forall H a b, p_hash P cs = Ok H -> h_digest H a = h_digest H b -> a = b) ->
  (forall H a, p_hash P cs = Ok H -> h_digest H a <> []) -> ~ collision P cs t t' /\ ~ parent_collision P cs t t'.
Proof.
  intros I N. split; [exact (no_collision P cs t t' I)|]. intros (H & EH & [(x & x' & b & b' & _ & _ & Ne & Q)|(x & b & _ & Q)]); [exact (Ne (I H b b' EH Q))|exact (N H b EH Q)].
Qed.
Lemma ex_merged3_wf : nodes_wf ex_merged3.
Proof.
  intros x nd E. assert (C : x = 0 \/ x = 1 \/ x = 2 \/ x = 3 \/ x = 4 \/ x = 5 \/ x = 6 \/ 7 <= x) by lia.
  destruct C as [->|[->|[->|[->|[->|[->|[->|C]]]]]]]; try discriminate E; [..|rewrite tget_beyond in E; [discriminate|exact C]]; injection E as <-;
  first [apply ex_leaf_commit_wf|apply ex_leaf_wf|constructor].
Qed.
Lemma ex_three_wf : nodes_wf ex_three.
Proof.
  intros x nd E. assert (C : x = 0 \/ x = 1 \/ x = 2 \/ x = 3 \/ x = 4 \/ x = 5 \/ x = 6 \/ 7 <= x) by lia.
  destruct C as [->|[->|[->|[->|[->|[->|[->|C]]]]]]]; try discriminate E; [..|rewrite tget_beyond in E; [discriminate|exact C]]; injection E as <-; apply ex_leaf_wf.
Qed.
Lemma c71_example : good ex_three 2 /\ good ex_merged3 2 /\ nodes_wf ex_three /\ nodes_wf ex_merged3 /\ wf_update_path ex_path3 /\ tget ex_three 1 <> tget ex_merged3 1 /\
  merge_update_path toy Suite1 ex_three 0 ex_path3 = (ex_merged3, Ok tt) /\ merge_update_path toy Suite1 ex_merged3 0 ex_path3 = (ex_merged3, Ok tt).
Proof.
  split; [exact ex_three_good|]. split; [exact (merge_good toy Suite1 ex_three 2 0 ex_path3 ex_merged3 ex_three_good eq_refl ex_merge3)|]. split; [exact ex_three_wf|]. split; [exact ex_merged3_wf|].
  split; [apply ex_leaf_commit_wf|]. split; [discriminate|]. split; [exact ex_merge3|]. vm_compute. reflexivity.
Qed.
