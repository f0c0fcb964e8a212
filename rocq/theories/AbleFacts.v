(** Whoever is not alone can commit. *)
From Verif Require Import TreeHash TreeInv TreeMore TreeFacts Verified SpecRatchet SpecSecrets SpecDigest SecretFacts DigestFacts PrivateFacts HashFacts SpecAble Examples ExProvider KeyFacts.
From Coq Require Import ZifyBool ZifyNat ZifyN.
Local Open Scope N_scope.
Local Open Scope list_scope.

Lemma branch_point i j : i <> j -> forall m, i / 2 ^ N.of_nat m = j / 2 ^ N.of_nat m -> exists e, e < N.of_nat m /\ covers e (sib (i / 2 ^ e)) j.
Proof.
  intros NE. induction m as [|m IH]; intros E.
  - change (2 ^ N.of_nat 0) with 1 in E. rewrite !N.div_1_r in E. congruence.
  - destruct (N.eq_dec (i / 2 ^ N.of_nat m) (j / 2 ^ N.of_nat m)) as [Q|Q].
    + destruct (IH Q) as (e & L & C). exists e. split; [lia|exact C].
    + exists (N.of_nat m). split; [lia|]. apply covers_div. replace (N.of_nat (S m)) with (N.of_nat m + 1) in E by lia. rewrite !div_half in E.
      rewrite sib_bit. set (a := i / 2 ^ N.of_nat m) in *. set (b := j / 2 ^ N.of_nat m) in *.
      pose proof (N.div_mod a 2 ltac:(lia)). pose proof (N.mod_lt a 2 ltac:(lia)). pose proof (N.div_mod b 2 ltac:(lia)). pose proof (N.mod_lt b 2 ltac:(lia)).
      destruct (N.eqb_spec (a mod 2) 0); lia.
Qed.
Lemma not_blank_in t d j : good t d -> ~ blank_at t j -> j < 2 ^ d.
Proof.
  intros G NB. unfold blank_at in NB. destruct (tget t (2 * j)) as [nd|] eqn:E; [|congruence]. apply (g_in t d G) in E. unfold in_tree in E. rewrite pow2_S in E. lia.
Qed.
Lemma path_nonempty t d i j : good t d -> i < 2 ^ d -> j <> i -> ~ blank_at t j -> fpath t (N.to_nat d) 0 i <> [].
Proof.
  intros G Hi NE NB. pose proof (not_blank_in t d j G NB) as Hj.
  destruct (branch_point i j ltac:(congruence) (N.to_nat d)) as (e & Le & C). { rewrite N2Nat.id, !N.div_small by assumption. reflexivity. }
  assert (I : In (node_at (0 + e + 1) (i / 2 ^ (e + 1))) (fpath t (N.to_nat d) 0 i)).
  { apply fpath_in. exists e. split; [exact Le|]. split; [reflexivity|]. rewrite N.add_0_l.
    destruct (resolution_covers t d G (N.to_nat e) (sib (i / 2 ^ e)) j) as [Q|(k' & j' & p & Q & _)]; [rewrite N2Nat.id; exact C|exact NB|..]; intros Z; rewrite Z in Q; destruct Q. }
  intros Z. rewrite Z in I. destruct I.
Qed.

Lemma good_hashable t d k j : good t d -> encodes t -> hashable (without t []) k j.
Proof.
  intros G EN k' j' _ _. rewrite without_nil. destruct (tget t (node_at k' j')) as [[l|p]|] eqn:E; [| |exact I].
  - split; [|exact (EN _ _ E)]. destruct (N.eq_dec k' 0) as [Z|Z]; [exact Z|]. exfalso. replace k' with (k' - 1 + 1) in E by lia. exact (g_parent t d G _ _ _ E).
  - split; [|exact (EN _ _ E)]. destruct (N.eq_dec k' 0) as [Z|Z]; [|lia]. exfalso. subst k'. rewrite node_at_leaf in E. exact (g_leaf t d G _ _ E).
Qed.

Section Runs.
  Variables (P : provider) (cs : cipher_suite) (h : hash_alg) (D W : list N) (sn : N).
  Hypotheses (Hh : p_hash P cs = Ok h) (FH : forall b, fits30 (h_digest h b)).

  Lemma parent_hash_made p s : fits30 (pn_encryption_key p) -> fits30 (pn_parent_hash p) -> fits30 s -> exists b, parent_hash P cs p s = Ok b /\ fits30 b.
  Proof.
    intros A B C. apply opaque_fits in A as (a & A). apply opaque_fits in B as (b & B). apply opaque_fits in C as (c & C).
    eexists. split; [unfold parent_hash, parent_hash_input; rewrite A, B, C, Hh; reflexivity|apply FH].
  Qed.

  Definition ready (t : tree) (x : N) : Prop := In x W /\ (exists p, tget t x = Some (Parent p) /\ fits30 (pn_encryption_key p)) /\
    exists l r th, children x = Ok (Some (l, r)) /\ fits30 th /\ forall t', (forall y, ~ In y W -> tget t' y = tget t y) -> tree_hash P cs t' (copath_child D sn l r) [] = Ok th.

  Lemma sph_runs : forall rpath t prev, NoDup rpath -> (forall x, In x rpath -> ready t x) -> fits30 (pref prev) ->
    exists t' o, set_parent_hashes P cs D sn t prev rpath = (t', Ok o) /\ fits30 (pref o) /\ (o = None -> prev = None /\ rpath = []).
  Proof.
    induction rpath as [|x rpath IH]; intros t prev ND R F; cbn [set_parent_hashes].
    - exists t, prev. auto.
    - inversion ND as [|? ? NI ND']; subst. destruct (R x (or_introl eq_refl)) as (Wx & (p & Ep & Fp) & l & r & th & Ec & Fth & Eth). rewrite Ep, Ec, (Eth t (fun _ _ => eq_refl)).
      fold (pref prev). set (q := MkParentNode (pn_encryption_key p) (pref prev) (pn_unmerged p)).
      destruct (parent_hash_made q th Fp F Fth) as (b & Eb & Fb). rewrite Eb.
      destruct (IH (tset t x (Some (Parent q))) (Some b) ND') as (t' & o & E & Fo & Eo).
      + intros y Iy. destruct (R y (or_intror Iy)) as (Wy & (p' & Ep' & Fp') & l' & r' & th' & Ec' & Fth' & Eth'). split; [exact Wy|]. split.
        * exists p'. rewrite tget_tset_other by (intros ->; tauto). auto.
        * exists l', r', th'. split; [exact Ec'|]. split; [exact Fth'|]. intros t'' Q. apply Eth'. intros z Nz. rewrite (Q z Nz). apply tget_tset_other. intros ->. tauto.
      + exact Fb.
      + exists t', o. split; [exact E|]. split; [exact Fo|]. intros Z. destruct (Eo Z). discriminate.
  Qed.
End Runs.

Lemma c127_some P cs h t d i j ns fp : good t d -> encodes t -> i < 2 ^ d -> j <> i -> ~ blank_at t j ->
  p_hash P cs = Ok h -> (forall b, fits30 (h_digest h b)) -> filtered_direct_path t (2 * i) = Ok fp ->
  length ns = length fp -> Forall (fun n => fits30 (upn_encryption_key n)) ns ->
  exists ph, fits30 ph /\ forall l, exists t' r, merge_update_path P cs t i (MkUpdatePath l ns) = (t', r) /\
    (lp_source (ln_payload l) = LSCommit ph -> r = Ok tt) /\ (lp_source (ln_payload l) <> LSCommit ph -> r = Err ParentHashMismatchForUpdatePathLeafNode).
Proof.
  intros G EN Hi NE NB Hh FH EF EL FK. pose proof (good_small t d G) as SU. pose proof (good_usized t d G) as U. pose proof (usized_31 t d U) as D31.
  rewrite (filtered_leaf t d i SU U Hi) in EF. apply Ok_inj in EF. symmetry in EF.
  pose proof (path_nonempty t d i j G Hi NE NB) as NP. rewrite <- EF in NP.
  set (t2 := set_path_keys (fold_left blank (up d i) t) fp ns).
  assert (L2 : exists t3 o, set_parent_hashes P cs (up d i) (2 * i) t2 None (rev fp) = (t3, Ok o) /\ fits30 (pref o) /\ (o = None -> None = @None bytes /\ rev fp = [])).
  { apply (sph_runs P cs h (up d i) (2 * i :: up d i) (2 * i) Hh FH); [apply NoDup_rev; rewrite EF; apply NoDup_fpath| |unfold fits30; cbn; lia].
    intros x Ix. apply in_rev in Ix. assert (O : on_path d i x) by (apply (fpath_on_path t); rewrite <- EF; exact Ix).
    set (u := MkUpdatePath (MkLeafNode (MkLeafPayload [] [] (CredBasic []) (MkCapabilities [] [] [] [] []) LSUpdate []) []) ns).
    assert (Iu : In x (fpath t (N.to_nat d) 0 i)) by (rewrite <- EF; exact Ix).
    split; [right; apply in_up, O|]. split.
    - destruct (nth_error_pair fp ns x (eq_sym EL) Ix) as (m & n & A & B). rewrite EF in A. exists (MkParentNode (upn_encryption_key n) [] []). split.
      + unfold t2. rewrite EF. exact (mg_t2_key t d i u U Hi m x n A B).
      + rewrite Forall_forall in FK. apply FK. eapply nth_error_In; eassumption.
    - destruct (on_path_level d i x O) as (k & Hk & ->). destruct (copath_child_ok d i k (up d i) Hk (fun x => in_up d i x)) as (l & r & Ec & Es). specialize (Ec ltac:(lia)).
      destruct (hash_made_f P cs h t [] Hh FH (N.to_nat k) 33 (sib (i / 2 ^ k)) ltac:(lia) ltac:(lia) (good_hashable t d _ _ G EN)) as (th & Eth & Fth). rewrite N2Nat.id in Eth.
      exists l, r, th. split; [exact Ec|]. split; [exact Fth|]. intros t' Q.
      rewrite (mg_steady P cs t d i U Hi _ Iu l r Ec t' t); [rewrite Es; exact Eth|]. intros y Ny. rewrite (Q y Ny). unfold t2. rewrite EF.
      apply (mg_t2_off t d i u y). intros Oy. apply Ny. right. apply in_up, Oy. }
  destruct L2 as (t3 & o & E3 & Fo & Eo). destruct o as [ph|].
  2:{ destruct (Eo eq_refl) as [_ Z]. exfalso. apply NP. rewrite <- (rev_involutive fp), Z. reflexivity. }
  exists ph. split; [exact Fo|]. intros l. rewrite (mg_eq P cs t d i _ SU U Hi). cbn [up_nodes up_leaf]. rewrite <- EF, EL, Nat.eqb_refl. cbn [negb]. fold t2. rewrite E3. cbn [tbind].
  destruct (lp_source (ln_payload l)) as [lt| |ph'] eqn:ES; try (eexists; eexists; split; [reflexivity|split; [discriminate|reflexivity]]).
  destruct (bytes_eqb ph' ph) eqn:EB; cbn [negb].
  - apply bytes_eqb_eq in EB. subst ph'. eexists; eexists. split; [reflexivity|]. split; [reflexivity|congruence].
  - eexists; eexists. split; [reflexivity|]. split; [|reflexivity]. intros Q. injection Q as ->. rewrite (proj2 (bytes_eqb_eq ph ph) eq_refl) in EB. discriminate.
Qed.

Lemma chain_encodes P cs T i : forall fp ph, hash_chain P cs T i ph fp -> forall x, In x fp -> exists p, tget T x = Some (Parent p) /\ fits30 (pn_encryption_key p) /\ fits30 (pn_parent_hash p).
Proof.
  induction fp as [|y fp IH]; intros ph C x I; [destruct I|]. cbn [hash_chain] in C. destruct C as (p & s & th & Ep & _ & _ & Eh & C). destruct I as [<-|I]; [|eapply IH; eassumption].
  exists p. split; [exact Ep|]. unfold parent_hash, parent_hash_input in Eh. apply bind_ok in Eh as (b & Eb & _). apply seqw_ok in Eb as (b1 & b2 & B1 & Eb & _). apply seqw_ok in Eb as (b3 & b4 & B3 & _ & _).
  split; eapply opaque_fits30; eassumption.
Qed.

Lemma c127_keys P cs t d i u t' fp : good t d -> i < 2 ^ d -> filtered_direct_path t (2 * i) = Ok fp -> merge_update_path P cs t i u = (t', Ok tt) ->
  length (up_nodes u) = length fp /\ Forall (fun n => fits30 (upn_encryption_key n)) (up_nodes u).
Proof.
  intros G Hi EF E. apply (merge_iff P cs t d i u t' (good_small t d G) (good_usized t d G) Hi) in E. destruct E as [ML MLf MO (fp' & ph & EF' & _ & EL & HK & HB & ES & Ch)].
  rewrite EF in EF'. apply Ok_inj in EF'. subst fp'. split; [auto|]. apply Forall_forall. intros n In_.
  destruct (nth_error_pair (up_nodes u) fp n (eq_sym EL) In_) as (m & x & B & A). destruct (HK m x n A B) as (q & Q).
  destruct (chain_encodes P cs t' i fp ph Ch x (nth_error_In _ _ A)) as (p & Ep & F & _). rewrite Q in Ep. injection Ep as <-. exact F.
Qed.

Lemma c127_kept P cs t d i u t' b : good t d -> encodes t -> i < 2 ^ d -> merge_update_path P cs t i u = (t', Ok tt) -> se_leaf_node (up_leaf u) = Ok b ->
  good t' d /\ encodes t'.
Proof.
  intros G EN Hi E EB. split; [exact (merge_good P cs t d i u t' G Hi E)|].
  apply (merge_iff P cs t d i u t' (good_small t d G) (good_usized t d G) Hi) in E. destruct E as [ML MLf MO (fp & ph & EF' & _ & EL & HK & HB & ES & Ch)].
  intros x nd Q. destruct (N.eq_dec x (2 * i)) as [->|Nx]. { rewrite MLf in Q. injection Q as <-. eauto. }
  destruct (on_path_dec d i x) as [O|O]; [|apply (EN x); rewrite <- MO; assumption].
  destruct (in_dec N.eq_dec x fp) as [I|I]; [|rewrite (HB x O I) in Q; discriminate].
  destruct (nth_error_pair fp (up_nodes u) x EL I) as (m & n & A & B). destruct (HK m x n A B) as (q & Q').
  destruct (chain_encodes P cs t' i fp ph Ch x I) as (p & Ep & F1 & F2). rewrite Q' in Ep. injection Ep as <-. rewrite Q' in Q. injection Q as <-.
  cbn [pn_encryption_key pn_parent_hash] in F1, F2. apply opaque_fits in F1 as (a & F1). apply opaque_fits in F2 as (c & F2).
  unfold se_parent_node. cbn [pn_encryption_key pn_parent_hash pn_unmerged]. rewrite F1, F2. eexists. reflexivity.
Qed.

Lemma c127_iff P cs h t d i j ns fp : good t d -> encodes t -> i < 2 ^ d -> j <> i -> ~ blank_at t j ->
  p_hash P cs = Ok h -> (forall b, fits30 (h_digest h b)) -> filtered_direct_path t (2 * i) = Ok fp ->
  ((exists l t', merge_update_path P cs t i (MkUpdatePath l ns) = (t', Ok tt)) <-> length ns = length fp /\ Forall (fun n => fits30 (upn_encryption_key n)) ns).
Proof.
  intros G EN Hi NE NB Hh FH EF. split.
  - intros (l & t' & E). exact (c127_keys P cs t d i _ t' fp G Hi EF E).
  - intros [EL FK]. destruct (c127_some P cs h t d i j ns fp G EN Hi NE NB Hh FH EF EL FK) as (ph & _ & K).
    set (l := MkLeafNode (MkLeafPayload [] [] (CredBasic []) (MkCapabilities [] [] [] [] []) (LSCommit ph) []) []).
    destruct (K l) as (t' & r & E & Y & _). exists l, t'. rewrite (Y eq_refl) in E. exact E.
Qed.

Lemma bare_leaf ph : fits30 ph -> exists b, se_leaf_node (MkLeafNode (MkLeafPayload [] [] (CredBasic []) (MkCapabilities [] [] [] [] []) (LSCommit ph) []) []) = Ok b.
Proof.
  intros F. apply opaque_fits in F as (x & F). unfold se_leaf_node, se_leaf_payload.
  cbn [ln_payload ln_signature lp_source lp_encryption_key lp_signature_key lp_credential lp_capabilities lp_extensions]. unfold se_leaf_node_source. rewrite F.
  eexists. vm_compute. reflexivity.
Qed.

Lemma c127_never P cs h d a b : p_hash P cs = Ok h -> (forall b, fits30 (h_digest h b)) -> a <> b ->
  forall is t, good t d -> encodes t -> ~ blank_at t a -> ~ blank_at t b -> Forall (fun i => i < 2 ^ d) is -> exists t', commits P cs t is t' /\ good t' d /\ encodes t'.
Proof.
  intros Hh FH AB. induction is as [|i is IH]; intros t G EN NA NB F; [exists t; split; [constructor|auto]|]. inversion F as [|? ? Hi F']; subst.
  assert (Q : exists j, j <> i /\ ~ blank_at t j) by (destruct (N.eq_dec a i) as [->|Z]; [exists b|exists a]; auto). destruct Q as (j & Ji & Nj).
  pose proof (filtered_leaf t d i (good_small t d G) (good_usized t d G) Hi) as EF. set (fp := fpath t (N.to_nat d) 0 i) in *.
  set (ns := repeat (MkUpdatePathNode [] []) (length fp)).
  destruct (c127_some P cs h t d i j ns fp G EN Hi Ji Nj Hh FH EF) as (ph & Fph & K).
  { apply repeat_length. } { apply Forall_forall. intros n In_. apply repeat_spec in In_. subst n. unfold fits30. cbn. lia. }
  set (l := MkLeafNode (MkLeafPayload [] [] (CredBasic []) (MkCapabilities [] [] [] [] []) (LSCommit ph) []) []) in *.
  destruct (K l) as (t1 & r & E & Y & _). rewrite (Y eq_refl) in E. destruct (bare_leaf ph Fph) as (eb & EB).
  destruct (c127_kept P cs t d i _ t1 eb G EN Hi E EB) as [G1 EN1].
  assert (KB : forall m, ~ blank_at t m -> ~ blank_at t1 m).
  { intros m NM. apply (merge_iff P cs t d i _ t1 (good_small t d G) (good_usized t d G) Hi) in E. destruct E as [ML MLf MO _]. unfold blank_at in *.
    destruct (N.eq_dec m i) as [->|Z]; [rewrite MLf; discriminate|]. rewrite MO; [exact NM|lia|]. intros O. apply (on_path_odd d i (2 * m) m) in O. congruence. }
  destruct (IH t1 G1 EN1 (KB a NA) (KB b NB) F') as (t' & C & R). exists t'. split; [econstructor; eassumption|exact R].
Qed.

Lemma ex_three_encodes : encodes ex_three.
Proof.
  intros x nd E. assert (C : x = 0 \/ x = 1 \/ x = 2 \/ x = 3 \/ x = 4 \/ x = 5 \/ x = 6 \/ 7 <= x) by lia.
  destruct C as [->|[->|[->|[->|[->|[->|[->|C]]]]]]]; try (cbv in E; discriminate E); try (injection E as <-; eexists; vm_compute; reflexivity).
  rewrite tget_beyond in E by exact C. discriminate E.
Qed.
Lemma fixed_fits b : fits30 (h_digest fixed_hash b).
Proof. unfold fits30. rewrite fixed_size. reflexivity. Qed.
Lemma c127_example : good ex_three 2 /\ encodes ex_three /\ ~ blank_at ex_three 2 /\ p_hash fixed Suite1 = Ok fixed_hash /\ (forall b, fits30 (h_digest fixed_hash b)) /\
  filtered_direct_path ex_three (2 * 0) = Ok [1; 3] /\ exists l t', merge_update_path fixed Suite1 ex_three 0 (MkUpdatePath l [MkUpdatePathNode [x77] []; MkUpdatePathNode [x88] []]) = (t', Ok tt).
Proof.
  assert (A : filtered_direct_path ex_three (2 * 0) = Ok [1; 3]) by (vm_compute; reflexivity).
  assert (B : ~ blank_at ex_three 2) by (vm_compute; discriminate).
  assert (H : p_hash fixed Suite1 = Ok fixed_hash) by reflexivity.
  split; [exact ex_three_good|]. split; [exact ex_three_encodes|]. split; [exact B|]. split; [exact H|]. split; [exact fixed_fits|]. split; [exact A|].
  apply (c127_iff fixed Suite1 fixed_hash ex_three 2 0 2 _ [1; 3] ex_three_good ex_three_encodes); [reflexivity|discriminate|exact B|exact H|exact fixed_fits|exact A|].
  split; [reflexivity|]. repeat constructor.
Qed.
