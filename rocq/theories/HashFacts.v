(** Proofs about parent hashes over the life of a tree. *)
From Coq Require Import ZifyBool ZifyNat ZifyN.
From Verif Require Import CodecLib WireCodecs TreeMore TreeHash Merge Verified TreeFacts SpecHashes.
From Verif Require Import WireWF.
Local Open Scope N_scope.

Definition all_valid (P : provider) (cs : cipher_suite) (t : tree) : Prop :=
  forall k j p, tget t (node_at (k + 1) j) = Some (Parent p) -> hash_valid P cs t k j p.

Lemma good_level31 t d k j p : good t d -> tget t (node_at (k + 1) j) = Some (Parent p) -> k < d /\ d <= 31.
Proof. intros G E. pose proof (good_level t d (k + 1) j p G E). pose proof (usized_31 t d (good_usized t d G)). lia. Qed.

Lemma vph_iff P cs t d : good t d -> (verify_parent_hashes P cs t = Ok true <-> all_valid P cs t).
Proof.
  intros G. pose proof (g_small t d G) as S. pose proof (good_small t d G) as SU. unfold verify_parent_hashes. rewrite verify_hashes_iff by lia. split.
  - intros H k j p E. destruct (good_level31 t d k j p G E) as [A B]. apply check_parent_hash_iff; [exact SU|lia|].
    assert (L : node_at (k + 1) j < tlen t). { destruct (N.lt_ge_cases (node_at (k + 1) j) (tlen t)) as [|Q]; [assumption|]. rewrite tget_beyond in E by exact Q. discriminate. }
    specialize (H _ L). rewrite N.add_0_l, E in H. exact H.
  - intros H x L. rewrite N.add_0_l. destruct (tget t x) as [nd|] eqn:E; [|reflexivity]. destruct (node_decomp x) as (k & j & ->).
    destruct (N.eq_dec k 0) as [->|K].
    + unfold check_parent_hash. rewrite node_at_leaf, Verified.children_leaf. reflexivity.
    + replace k with (k - 1 + 1) in * by lia. destruct nd as [l|p]; [exfalso; eapply g_parent; eassumption|].
      destruct (good_level31 t d _ j p G E) as [A B]. apply check_parent_hash_iff; [exact SU|lia|]. apply H, E.
Qed.

(** ** Subtrees that do not change *)

Lemma linked_agree t t' k c h : unmerged_ok t -> agree t t' k c -> (linked t k c h <-> linked t' k c h).
Proof.
  intros UO A. assert (R : resolution t (N.to_nat k) c = resolution t' (N.to_nat k) c) by (apply resolution_agree; rewrite N2Nat.id; exact A).
  unfold linked. rewrite <- R. assert (I : forall x, In x (resolution t (N.to_nat k) c) -> tget t x = tget t' x).
  { intros x Ix. apply A. apply (resolution_inside t UO) in Ix. rewrite N2Nat.id in Ix. exact Ix. }
  split; intros (x & n & Ix & E & C); exists x, n; (split; [exact Ix|]); (split; [rewrite <- E|exact C]); [symmetry|]; apply I, Ix.
Qed.
Lemma hash_agree P cs t t' k j excl : k <= 31 -> agree t t' k j -> tree_hash P cs t (node_at k j) excl = tree_hash P cs t' (node_at k j) excl.
Proof. intros L A. rewrite <- (N2Nat.id k). apply tree_hash_agree; [lia|]. rewrite N2Nat.id. exact A. Qed.
Lemma valid_agree P cs t t' k j p : unmerged_ok t -> k < 31 -> agree t t' (k + 1) j -> hash_valid P cs t k j p -> hash_valid P cs t' k j p.
Proof.
  intros UO L A (lh & rh & lph & rph & H1 & H2 & H3 & H4 & H5). pose proof (agree_l _ _ _ _ A) as AL. pose proof (agree_r _ _ _ _ A) as AR.
  exists lh, rh, lph, rph. rewrite <- (hash_agree P cs t t' k (2 * j)), <- (hash_agree P cs t t' k (2 * j + 1)) by (assumption || lia).
  rewrite <- (linked_agree t t' k (2 * j)), <- (linked_agree t t' k (2 * j + 1)) by assumption. auto.
Qed.
Lemma all_valid_agree P cs t t' d d' : good t d -> good t' d' -> all_valid P cs t ->
  (forall k j p, tget t' (node_at (k + 1) j) = Some (Parent p) -> agree t t' (k + 1) j) -> all_valid P cs t'.
Proof.
  intros G G' V A k j p E. destruct (good_level31 t' d' k j p G' E) as [L1 L2]. pose proof (A k j p E) as Ag.
  apply (valid_agree P cs t); [exact (g_unmerged t d G)|lia|exact Ag|]. apply V. rewrite (agree_self _ _ _ _ Ag). exact E.
Qed.
Lemma inside_in_tree d k j x : in_tree d (node_at k j) -> inside k j x -> in_tree d x.
Proof.
  intros I (k' & j' & L & -> & D). apply in_tree_iff in I as [I1 I2]. apply in_tree_iff. split; [lia|].
  pose proof (N.div_mod j' (2 ^ (k - k'))) as DM. pose proof (pow2_pos (k - k')) as Pk. pose proof (N.mod_lt j' (2 ^ (k - k'))). rewrite D in DM.
  replace (d - k') with (d - k + (k - k')) by lia. rewrite N.pow_add_r. nia.
Qed.
Lemma in_tree_tlen t d x : tsized t d -> in_tree d x -> x < tlen t.
Proof. intros S I. unfold in_tree in I. pose proof (pow2_S d). destruct S as [S|S]; red in S; lia. Qed.

Lemma update_valid P cs t d i l t' : good t d -> i < 2 ^ d -> tree_update t i l = Ok t' -> all_valid P cs t -> all_valid P cs t'.
Proof.
  intros G Hi E V. pose proof (update_good t d i l t' G Hi E) as G'. destruct (update_ok t d i l (good_usized t d G) Hi) as (t2 & E2 & _ & A).
  rewrite E in E2. apply Ok_inj in E2. subst t2. apply (all_valid_agree P cs t t' d d G G' V). intros k j p Ep x I.
  assert (NC : ~ covers (k + 1) j i).
  { intros C. destruct (good_level31 t' d k j p G' Ep). assert (O : on_path d i (node_at (k + 1) j)) by (exists (k + 1), j; split; [lia|auto]).
    rewrite (proj1 (proj2 (A _)) O) in Ep. discriminate. }
  destruct (inside_off_path d _ _ i x NC I) as [A1 A2]. symmetry. apply A; assumption.
Qed.
Lemma remove_valid P cs t d i t' d' : good t d -> i < 2 ^ d -> tree_remove t i = Ok t' -> good t' d' -> d' <= d -> all_valid P cs t -> all_valid P cs t'.
Proof.
  intros G Hi E G' Ld V. destruct (remove_ok t d i (good_usized t d G) Hi) as (t2 & E2 & _ & B & _ & K & _).
  rewrite E in E2. apply Ok_inj in E2. subst t2. apply (all_valid_agree P cs t t' d d' G G' V). intros k j p Ep x I.
  destruct (good_level31 t' d' k j p G' Ep) as [L1 L2].
  assert (NC : ~ covers (k + 1) j i).
  { intros C. assert (O : on_path d i (node_at (k + 1) j)) by (exists (k + 1), j; split; [lia|auto]). rewrite (B _ O) in Ep. discriminate. }
  destruct (inside_off_path d _ _ i x NC I) as [A1 A2]. symmetry. apply K; try assumption. apply (in_tree_tlen t' d' x (g_size _ _ G')).
  apply (inside_in_tree d' (k + 1) j); [eapply g_in; eassumption|exact I].
Qed.

(** ** A new leaf *)

Section Add.
  Variables (t t' : tree) (d d' i : N) (l : leaf_node).
  Hypothesis (G : good t d) (G' : good t' d') (A : added t t' d' i l) (Bi : blank_at t i) (Li : i < 2 ^ d').
  Hypothesis (NC : forall h, lp_source (ln_payload l) <> LSCommit h).

  Lemma add_leaf : tget t' (2 * i) = Some (Leaf l).
  Proof.
    destruct A as (Q & _). unfold get_leaf in Q. apply bind_ok in Q as (x & X & Q). apply node_index_val in X as [-> _].
    destruct (tget t' (2 * i)) as [[lf|p]|]; cbn in Q; try discriminate. apply Ok_inj in Q. congruence.
  Qed.
  Lemma not_unmerged x p : tget t x = Some (Parent p) -> ~ In i (pn_unmerged p).
  Proof.
    intros E I. destruct (node_decomp x) as (k & j & ->). destruct (uo_below t (g_unmerged t d G) k j p i E I) as [_ [lf M]].
    unfold leaf_at in M. unfold blank_at in Bi. rewrite Bi in M. discriminate.
  Qed.
  Lemma mem_app u excl : u <> i -> mem N.eqb u (excl ++ [i]) = mem N.eqb u excl.
  Proof. intros Ne. unfold mem. rewrite existsb_app. cbn [existsb]. destruct (N.eqb_spec u i); [congruence|]. rewrite !Bool.orb_false_r. reflexivity. Qed.
  Lemma filter_excl excl um : ~ In i um -> filter (fun li => negb (mem N.eqb li (excl ++ [i]))) um = filter (fun li => negb (mem N.eqb li excl)) um.
  Proof. intros NI. apply filter_ext_in. intros u I. rewrite mem_app; [reflexivity|]. intros ->. tauto. Qed.
  Lemma filter_nil_excl um : filter (fun li => negb (mem N.eqb li [])) um = um.
  Proof. induction um as [|u um IH]; [reflexivity|]. cbn. f_equal. exact IH. Qed.
  Lemma parent_eta p : MkParentNode (pn_encryption_key p) (pn_parent_hash p) (pn_unmerged p) = p.
  Proof. destruct p. reflexivity. Qed.
  Lemma hashed_same p um excl : ~ In i (pn_unmerged p) -> um = pn_unmerged p \/ um = (pn_unmerged p ++ [i])%list ->
    hashed_parent (Some (Parent (with_unmerged p um))) (excl ++ [i]) = hashed_parent (Some (Parent p)) excl.
  Proof.
    intros NI U. cbn [hashed_parent]. f_equal. f_equal. unfold with_unmerged. cbn [pn_unmerged pn_encryption_key pn_parent_hash].
    assert (EL : Nat.eqb (length (excl ++ [i])) 0 = false) by (rewrite app_length; cbn; apply Nat.eqb_neq; lia). rewrite EL.
    assert (F : filter (fun li => negb (mem N.eqb li (excl ++ [i]))) um = filter (fun li => negb (mem N.eqb li excl)) (pn_unmerged p)).
    { destruct U as [->| ->]; [apply filter_excl, NI|]. rewrite filter_app, filter_excl by exact NI. cbn [filter].
      assert (M : mem N.eqb i (excl ++ [i]) = true) by (unfold mem; rewrite existsb_app; cbn; rewrite N.eqb_refl; apply Bool.orb_true_r). rewrite M. cbn [negb]. apply app_nil_r. }
    assert (Z : filter (fun li => negb (mem N.eqb li excl)) (pn_unmerged p) = pn_unmerged p \/ (length (pn_unmerged p) <> 0 /\ length excl <> 0)%nat).
    { destruct (pn_unmerged p) as [|u um']; [left; reflexivity|]. destruct excl as [|e excl]; [left; apply filter_nil_excl|right; cbn; lia]. }
    assert (R : (if negb (Nat.eqb (length (pn_unmerged p)) 0) && negb (Nat.eqb (length excl) 0)
                then MkParentNode (pn_encryption_key p) (pn_parent_hash p) (filter (fun li => negb (mem N.eqb li excl)) (pn_unmerged p)) else p)
               = MkParentNode (pn_encryption_key p) (pn_parent_hash p) (filter (fun li => negb (mem N.eqb li excl)) (pn_unmerged p))).
    { destruct Z as [Z|[Z1 Z2]]; [rewrite Z, parent_eta; destruct (_ && _); reflexivity|].
      apply Nat.eqb_neq in Z1, Z2. rewrite Z1, Z2. reflexivity. }
    rewrite R, <- F. cbn [negb]. rewrite Bool.andb_true_r. destruct (Nat.eqb_spec (length um) 0) as [Q|Q]; cbn [negb]; [|reflexivity].
    destruct um as [|u um]; [reflexivity|discriminate].
  Qed.
  Lemma hashed_parent_added k j excl : 0 < k <= d' -> hashed_parent (tget t' (node_at k j)) (excl ++ [i]) = hashed_parent (tget t (node_at k j)) excl.
  Proof.
    intros K. destruct A as (_ & _ & A1 & A2 & A3). destruct (on_path_dec d' i (node_at k j)) as [O|O].
    - destruct (tget t (node_at k j)) as [[lf|p]|] eqn:E.
      + exfalso. replace k with (k - 1 + 1) in E by lia. eapply (g_parent t d G); eassumption.
      + rewrite (A1 _ p O E). apply hashed_same; [eapply not_unmerged; exact E|right; reflexivity].
      + rewrite (A2 _ O E). reflexivity.
    - rewrite A3; [|rewrite <- node_at_leaf; intros Q; apply node_at_inj in Q; lia|exact O].
      destruct (tget t (node_at k j)) as [[lf|p]|] eqn:E; [reflexivity| |reflexivity].
      rewrite <- (hashed_same p (pn_unmerged p) excl); [|eapply not_unmerged; exact E|left; reflexivity]. unfold with_unmerged. rewrite parent_eta. reflexivity.
  Qed.
  Lemma hash_added P cs excl : forall k fuel j, (k <= 31)%nat -> N.of_nat k <= d' ->
    tree_hash_f fuel P cs t' (node_at (N.of_nat k) j) (excl ++ [i]) = tree_hash_f fuel P cs t (node_at (N.of_nat k) j) excl.
  Proof.
    assert (Leaf0 : forall fuel j, tree_hash_f fuel P cs t' (node_at 0 j) (excl ++ [i]) = tree_hash_f fuel P cs t (node_at 0 j) excl).
    { intros fuel j. assert (HL : hashed_leaf (tget t' (node_at 0 j)) (mem N.eqb j (excl ++ [i])) = hashed_leaf (tget t (node_at 0 j)) (mem N.eqb j excl)).
      { rewrite node_at_leaf. destruct (N.eq_dec j i) as [->|Ne].
        - rewrite add_leaf. unfold blank_at in Bi. rewrite Bi. assert (M : mem N.eqb i (excl ++ [i]) = true) by (unfold mem; rewrite existsb_app; cbn; rewrite N.eqb_refl; apply Bool.orb_true_r).
          rewrite M. reflexivity.
        - rewrite mem_app by exact Ne. destruct A as (_ & A1 & _). rewrite A1 by exact Ne. reflexivity. }
      destruct fuel; cbn [tree_hash_f]; rewrite leaf_index_node; change (0 =? 0) with true; cbv iota; rewrite HL; reflexivity. }
    intros k. induction k as [|k IH]; intros fuel j Hk Kd; [apply Leaf0|].
    destruct fuel; cbn [tree_hash_f]; rewrite leaf_index_node; (destruct (N.eqb_spec (N.of_nat (S k)) 0); [lia|]); rewrite ?hashed_parent_added by lia;
      replace (N.of_nat (S k)) with (N.of_nat k + 1) in * by lia; rewrite children_node by lia; cbn [bind]; [reflexivity|].
    rewrite (IH fuel (2 * j)), (IH fuel (2 * j + 1)) by lia. reflexivity.
  Qed.

  Lemma agree_off k j : ~ covers k j i -> agree t t' k j.
  Proof.
    intros N x I. destruct (inside_off_path d' k j i x N I) as [A1 A2]. destruct A as (_ & _ & _ & _ & A3). symmetry. apply A3; assumption.
  Qed.
  Lemma carried_other x n : x <> 2 * i -> tget t x = Some n -> exists n', tget t' x = Some n' /\ carried_hash n' = carried_hash n.
  Proof.
    intros Ne E. destruct A as (_ & _ & A1 & A2 & A3). destruct (on_path_dec d' i x) as [O|O]; [|exists n; rewrite A3 by assumption; auto].
    destruct n as [lf|p].
    - exfalso. destruct O as (k & j & K & -> & _). replace k with (k - 1 + 1) in E by lia. eapply (g_parent t d G); eassumption.
    - exists (Parent (with_unmerged p (pn_unmerged p ++ [i])%list)). split; [apply A1; assumption|reflexivity].
  Qed.
  Lemma carried_other' x n : x <> 2 * i -> tget t' x = Some n -> exists n', tget t x = Some n' /\ carried_hash n' = carried_hash n.
  Proof.
    intros Ne E. destruct (tget t x) as [n0|] eqn:E0.
    - destruct (carried_other x n0 Ne E0) as (n' & E' & C). exists n0. split; [reflexivity|]. congruence.
    - exfalso. destruct A as (_ & _ & A1 & A2 & A3). destruct (on_path_dec d' i x) as [O|O]; [rewrite A2 in E by assumption|rewrite A3 in E by assumption]; congruence.
  Qed.
  Lemma in_res_added : forall k c x, N.of_nat k <= d' -> x <> 2 * i -> (In x (resolution t' k c) <-> In x (resolution t k c)).
  Proof.
    destruct A as (_ & A0 & A1 & A2 & A3). induction k as [|k IH]; intros c x K Ne.
    - cbn [resolution]. change (N.of_nat 0) with 0. rewrite node_at_leaf. destruct (N.eq_dec c i) as [->|Nc].
      + rewrite add_leaf. unfold blank_at in Bi. rewrite Bi. cbn. split; [intros [Q|[]]; congruence|tauto].
      + rewrite A0 by exact Nc. reflexivity.
    - cbn [resolution]. destruct (on_path_dec d' i (node_at (N.of_nat (S k)) c)) as [O|O].
      + destruct (tget t (node_at (N.of_nat (S k)) c)) as [[lf|p]|] eqn:E.
        * exfalso. replace (N.of_nat (S k)) with (N.of_nat k + 1) in E by lia. eapply (g_parent t d G); eassumption.
        * rewrite (A1 _ p O E). unfold with_unmerged. cbn [pn_unmerged]. rewrite map_app. cbn [map In]. rewrite in_app_iff. cbn [In]. split; [|tauto].
          intros [Q|[Q|[Q|[]]]]; auto. congruence.
        * rewrite (A2 _ O E). rewrite !in_app_iff, (IH (2 * c)), (IH (2 * c + 1)) by (assumption || lia). reflexivity.
      + assert (Nn : node_at (N.of_nat (S k)) c <> 2 * i) by (rewrite <- node_at_leaf; intros Q; apply node_at_inj in Q; lia).
        rewrite (A3 _ Nn O). destruct (tget t (node_at (N.of_nat (S k)) c)) as [[lf|p]|]; [reflexivity|reflexivity|].
        rewrite !in_app_iff, (IH (2 * c)), (IH (2 * c + 1)) by (assumption || lia). reflexivity.
  Qed.
  Lemma linked_added k c h : k <= d' -> (linked t' k c h <-> linked t k c h).
  Proof.
    intros K. unfold linked. split; intros (x & n & I & E & C).
    - assert (Ne : x <> 2 * i). { intros ->. rewrite add_leaf in E. injection E as <-. cbn [carried_hash] in C. destruct (lp_source (ln_payload l)) eqn:S; try discriminate. exact (NC _ eq_refl). }
      apply in_res_added in I; [|lia|exact Ne]. destruct (carried_other' x n Ne E) as (n' & E' & C'). exists x, n'. rewrite C'. auto.
    - assert (Ne : x <> 2 * i). { intros ->. unfold blank_at in Bi. congruence. }
      apply in_res_added in I; [|lia|exact Ne]. destruct (carried_other x n Ne E) as (n' & E' & C'). exists x, n'. rewrite C'. auto.
  Qed.
  Lemma add_valid P cs : all_valid P cs t -> all_valid P cs t'.
  Proof.
    intros V k j p E. destruct (good_level31 t' d' k j p G' E) as [L1 L2].
    destruct (on_path_dec d' i (node_at (k + 1) j)) as [O|O].
    - destruct A as (_ & _ & A1 & A2 & A3). destruct (tget t (node_at (k + 1) j)) as [[lf|q]|] eqn:E0; [exfalso; eapply (g_parent t d G); eassumption| |rewrite (A2 _ O E0) in E; discriminate].
      rewrite (A1 _ q O E0) in E. injection E as <-. destruct (V k j q E0) as (lh & rh & lph & rph & H1 & H2 & H3 & H4 & H5).
      exists lh, rh, lph, rph. unfold with_unmerged at 1 2. cbn [pn_unmerged].
      assert (TH : forall c, tree_hash P cs t' (node_at k c) (pn_unmerged q ++ [i]) = tree_hash P cs t (node_at k c) (pn_unmerged q)).
      { intros c. rewrite <- (N2Nat.id k). apply hash_added; lia. }
      rewrite !TH. split; [exact H1|]. split; [exact H2|]. split; [exact H3|]. split; [exact H4|]. rewrite !linked_added by lia. exact H5.
    - assert (NCv : ~ covers (k + 1) j i) by (apply (off_path_covers d'); [lia|exact O]). pose proof (agree_off _ _ NCv) as Ag.
      apply (valid_agree P cs t); [exact (g_unmerged t d G)|lia|exact Ag|]. apply V. rewrite (agree_self _ _ _ _ Ag). exact E.
  Qed.
End Add.

(** ** A merged path *)

Lemma own_child i k : i / 2 ^ k = 2 * (i / 2 ^ (k + 1)) /\ sib (i / 2 ^ k) = 2 * (i / 2 ^ (k + 1)) + 1 \/
                      i / 2 ^ k = 2 * (i / 2 ^ (k + 1)) + 1 /\ sib (i / 2 ^ k) = 2 * (i / 2 ^ (k + 1)).
Proof.
  rewrite div_half, sib_bit. set (q := i / 2 ^ k). pose proof (N.div_mod q 2 ltac:(lia)). pose proof (N.mod_lt q 2 ltac:(lia)).
  destruct (N.eqb_spec (q mod 2) 0); [left|right]; lia.
Qed.
Lemma linked_up t i k h : tget t (node_at (k + 1) (i / 2 ^ (k + 1))) = None -> linked t k (i / 2 ^ k) h -> linked t (k + 1) (i / 2 ^ (k + 1)) h.
Proof.
  intros B (x & n & I & E & C). exists x, n. split; [|auto]. replace (N.to_nat (k + 1)) with (S (N.to_nat k)) by lia. cbn [resolution].
  replace (N.of_nat (S (N.to_nat k))) with (k + 1) by lia. rewrite B. apply in_or_app. destruct (own_child i k) as [[Q _]|[Q _]]; rewrite <- Q; auto.
Qed.
Lemma linked_self t k c p : tget t (node_at (k + 1) c) = Some (Parent p) -> linked t (k + 1) c (pn_parent_hash p).
Proof.
  intros E. exists (node_at (k + 1) c), (Parent p). replace (N.to_nat (k + 1)) with (S (N.to_nat k)) by lia. cbn [resolution].
  replace (N.of_nat (S (N.to_nat k))) with (k + 1) by lia. rewrite E. split; [left; reflexivity|auto].
Qed.

Lemma chain_links P cs t t' d i : (forall x, on_path d i x -> ~ In x (fpath t (N.to_nat d) 0 i) -> tget t' x = None) ->
  forall m k ph, k + N.of_nat m = d -> linked t' k (i / 2 ^ k) ph -> hash_chain P cs t' i ph (fpath t m k (i / 2 ^ k)) ->
  forall e p, k <= e < d -> tget t' (node_at (e + 1) (i / 2 ^ (e + 1))) = Some (Parent p) ->
  exists th h, tree_hash P cs t' (node_at e (sib (i / 2 ^ e))) [] = Ok th /\ parent_hash P cs p th = Ok h /\ linked t' e (i / 2 ^ e) h.
Proof.
  intros HB. induction m as [|m IH]; intros k ph Km Lk Ch e p Le Ep; [lia|]. cbn [fpath] in Ch. rewrite <- div_half in Ch.
  destruct (Nat.eqb_spec (length (resolution t (N.to_nat k) (sib (i / 2 ^ k)))) 0) as [Z|Z].
  - assert (B : tget t' (node_at (k + 1) (i / 2 ^ (k + 1))) = None).
    { apply HB; [apply level_on_path; lia|]. rewrite fpath_in. intros (e' & _ & Q & R). apply node_at_inj in Q as [Q _]. assert (e' = k) by lia. subst e'.
      rewrite N.add_0_l in R. destruct (resolution t (N.to_nat k) (sib (i / 2 ^ k))); [congruence|discriminate]. }
    destruct (N.eq_dec e k) as [->|Ne]; [congruence|]. apply (IH (k + 1) ph); try lia; try assumption. apply linked_up; assumption.
  - cbn [hash_chain] in Ch. destruct Ch as (q & s & th & Eq & Os & Eh & Ep' & Ch). apply other_child_path in Os. subst s.
    destruct (N.eq_dec e k) as [->|Ne].
    + exists th, ph. assert (p = q) by congruence. subst q. auto.
    + apply (IH (k + 1) (pn_parent_hash q)); try lia; try assumption. apply linked_self, Eq.
Qed.

Lemma sub_hash P cs t d h : d <= 31 -> tree_hash P cs t (node_at d 0) [] = Ok h ->
  forall m k j, k + N.of_nat m = d -> j < 2 ^ N.of_nat m -> exists h', tree_hash P cs t (node_at k j) [] = Ok h'.
Proof.
  intros D H. induction m as [|m IH]; intros k j K J.
  - change (2 ^ N.of_nat 0) with 1 in J. assert (j = 0) as -> by lia. assert (k = d) as -> by lia. eauto.
  - destruct (IH (k + 1) (j / 2)) as (h' & H'); [lia| |].
    + replace (N.of_nat (S m)) with (N.of_nat m + 1) in J by lia. rewrite pow2_S in J. apply N.div_lt_upper_bound; lia.
    + apply parent_hash_ok in H'; [|lia]. destruct H' as (lh & rh & p & b & H0 & H1 & H2 & _). pose proof (N.div_mod j 2 ltac:(lia)). pose proof (N.mod_lt j 2 ltac:(lia)).
      destruct (N.eq_dec (j mod 2) 0); [exists lh; replace j with (2 * (j / 2)) at 1 by lia; exact H1|exists rh; replace j with (2 * (j / 2) + 1) at 1 by lia; exact H2].
Qed.

Lemma merge_valid P cs t d i u t' h : good t d -> i < 2 ^ d -> merge_update_path P cs t i u = (t', Ok tt) -> root_tree_hash P cs t' = Ok h ->
  all_valid P cs t -> ~ coincidence P cs t' i -> all_valid P cs t'.
Proof.
  intros G Hi E EH V NCo. pose proof (merge_good P cs t d i u t' G Hi E) as G'. pose proof (good_usized t d G) as U. pose proof (usized_31 t d U) as D31.
  pose proof (good_small t d G) as SU. apply (merge_iff P cs t d i u t' SU U Hi) in E. destruct E as [ML MLf MO (fp & ph & EF & _ & EL & HK & HB & ES & Ch)].
  rewrite (filtered_leaf t d i SU U Hi) in EF. apply Ok_inj in EF. subst fp. rewrite (root_hash_node P cs t' d (good_usized t' d G')) in EH.
  intros k j p Ep. destruct (good_level31 t' d k j p G' Ep) as [Kd _].
  destruct (on_path_dec d i (node_at (k + 1) j)) as [O|O].
  - assert (Ej : j = i / 2 ^ (k + 1)). { destruct O as (k2 & j2 & _ & Q & C). apply node_at_inj in Q as [<- <-]. apply covers_div in C. congruence. } subst j.
    assert (Lf : linked t' 0 (i / 2 ^ 0) ph).
    { change (2 ^ 0) with 1. rewrite N.div_1_r. exists (2 * i), (Leaf (up_leaf u)). change (N.to_nat 0) with 0%nat. cbn [resolution]. change (N.of_nat 0) with 0.
      rewrite node_at_leaf, MLf. split; [left; reflexivity|]. split; [reflexivity|]. cbn [carried_hash]. rewrite ES. reflexivity. }
    assert (Ch' : hash_chain P cs t' i ph (fpath t (N.to_nat d) 0 (i / 2 ^ 0))) by (change (2 ^ 0) with 1; rewrite N.div_1_r; exact Ch).
    destruct (chain_links P cs t t' d i HB (N.to_nat d) 0 ph ltac:(lia) Lf Ch' k p ltac:(lia) Ep) as (th & hh & TH & PH & LK).
    assert (UM : pn_unmerged p = []).
    { destruct (in_dec N.eq_dec (node_at (k + 1) (i / 2 ^ (k + 1))) (fpath t (N.to_nat d) 0 i)) as [I|NI]; [|rewrite (HB _ O NI) in Ep; discriminate].
      destruct (nth_error_pair _ (up_nodes u) _ EL I) as (m & n & A & B). destruct (HK m _ n A B) as [h0 Q]. rewrite Q in Ep. injection Ep as <-. reflexivity. }
    assert (Ij : i / 2 ^ (k + 1) < 2 ^ (d - (k + 1))).
    { apply N.div_lt_upper_bound; [pose proof (pow2_pos (k + 1)); lia|]. rewrite <- N.pow_add_r. replace (k + 1 + (d - (k + 1))) with d by lia. exact Hi. }
    destruct (sub_hash P cs t' d h D31 EH (N.to_nat (d - (k + 1))) (k + 1) (i / 2 ^ (k + 1))) as (nh & NH); [lia|rewrite N2Nat.id; exact Ij|].
    apply parent_hash_ok in NH; [|lia]. destruct NH as (lh & rh & q & b & H0 & HL & HR & _ & HI & HH & _).
    unfold parent_node_hash_input in HI. apply seqw_ok in HI as (b1 & b2 & _ & HI & _). apply seqw_ok in HI as (b3 & b4 & _ & HI & _). apply seqw_ok in HI as (b5 & b6 & SL & SR & _).
    assert (PHok : forall s sb, se_opaque s = Ok sb -> exists hs, parent_hash P cs p s = Ok hs).
    { intros s sb SS. unfold parent_hash in *. apply bind_ok in PH as (inp & PI & _). unfold parent_hash_input in *. apply seqw_ok in PI as (c1 & c2 & C1 & PI & _). apply seqw_ok in PI as (c3 & c4 & C3 & _ & _).
      rewrite C1, C3, SS, HH. unfold seqw. cbn [bind]. eexists. reflexivity. }
    destruct (PHok rh b6 SR) as (lph & LP). destruct (PHok lh b5 SL) as (rph & RP).
    exists lh, rh, lph, rph. rewrite UM. split; [exact HL|]. split; [exact HR|]. split; [exact LP|]. split; [exact RP|].
    destruct (own_child i k) as [[Q1 Q2]|[Q1 Q2]]; rewrite Q1, Q2 in *.
    + left. rewrite HR in TH. apply Ok_inj in TH. subst th. rewrite LP in PH. apply Ok_inj in PH. subst hh. split; [exact LK|]. intros LK'. apply NCo.
      exists k, (2 * (i / 2 ^ (k + 1))), (2 * (i / 2 ^ (k + 1)) + 1), p, lh, rph. rewrite half_l, half_r, !covers_div, Q1. split; [reflexivity|]. split; [lia|]. auto.
    + right. rewrite HL in TH. apply Ok_inj in TH. subst th. rewrite RP in PH. apply Ok_inj in PH. subst hh. split; [|exact LK]. intros LK'. apply NCo.
      exists k, (2 * (i / 2 ^ (k + 1)) + 1), (2 * (i / 2 ^ (k + 1))), p, rh, lph. rewrite half_l, half_r, !covers_div, Q1. split; [reflexivity|]. split; [lia|]. auto.
  - assert (NC : ~ covers (k + 1) j i) by (apply (off_path_covers d); [lia|exact O]).
    assert (Ag : agree t t' (k + 1) j). { intros x I. destruct (inside_off_path d _ _ i x NC I) as [A1 A2]. symmetry. apply MO; assumption. }
    apply (valid_agree P cs t); [exact (g_unmerged t d G)|lia|exact Ag|]. apply V. rewrite (agree_self _ _ _ _ Ag). exact Ep.
Qed.

(** ** Histories *)

Lemma step_valid P cs t d t' : good t d -> fair_step P cs t t' -> all_valid P cs t -> t' = [] \/ exists d', good t' d' /\ all_valid P cs t'.
Proof.
  intros G S V. pose proof (good_usized t d G) as U. destruct S as [t l t' R E NC|t i l t' E|t i t' E|t i u t' h E EH NCo].
  - right. destruct (leftmost_blank t (2 ^ d)) as [A|(i & Li & B & C)].
    + assert (F : full_size t d). { destruct R as (d0 & R). assert (d0 = d). { apply (size_unique t); [|exact (g_size _ _ G)]. destruct R as [R|[R _]]; [left|right]; exact R. } subst d0.
        destruct R as [R|[_ (i & Li & B)]]; [exact R|exfalso; eapply A; eassumption]. }
      pose proof (add_full_good t d l t' G F A E) as G'. exists (d + 1). split; [exact G'|].
      assert (D : d <= 30). { pose proof (usized_31 _ _ (good_usized _ _ G')). lia. }
      destruct (add_full_added t d l F D A) as (t2 & E2 & _ & Ad). rewrite E in E2. apply Ok_inj in E2. subst t2.
      apply (add_valid t t' d (d + 1) (2 ^ d) l G G' Ad); try assumption; [|rewrite pow2_S; pose proof (pow2_pos d); lia].
      apply tget_beyond. red in F. rewrite pow2_S in F. pose proof (pow2_pos d). lia.
    + pose proof (add_found_good t d i l t' G Li B C E) as G'. exists d. split; [exact G'|].
      destruct (add_found_added t d i l U Li B C) as (t2 & E2 & _ & Ad). rewrite E in E2. apply Ok_inj in E2. subst t2.
      apply (add_valid t t' d d i l G G' Ad); assumption.
  - destruct (N.lt_ge_cases i (2 ^ d)) as [L|L]; [|rewrite (update_out t d i l U L) in E; discriminate]. right. exists d. split; [exact (update_good t d i l t' G L E)|exact (update_valid P cs t d i l t' G L E V)].
  - destruct (N.lt_ge_cases i (2 ^ d)) as [L|L]; [|rewrite (remove_out t d i U L) in E; discriminate].
    destruct (remove_good t d i t' G L E) as [->|(e & Le & G')]; [left; reflexivity|right]. exists e. split; [exact G'|exact (remove_valid P cs t d i t' e G L E G' Le V)].
  - destruct (N.lt_ge_cases i (2 ^ d)) as [L|L]; [|rewrite (merge_out P cs t d i u U L) in E; discriminate]. right. exists d. split; [exact (merge_good P cs t d i u t' G L E)|exact (merge_valid P cs t d i u t' h G L E EH V NCo)].
Qed.
Lemma fair_empty P cs t' : ~ fair_step P cs [] t'.
Proof.
  intros S. apply (step_empty P cs t'). inversion S; subst; [eapply ts_add|eapply ts_update|eapply ts_remove|eapply ts_merge]; eassumption.
Qed.
Lemma history_valid P cs t d t' : good t d -> all_valid P cs t -> fair_history P cs t t' -> t' = [] \/ exists d', good t' d' /\ all_valid P cs t'.
Proof.
  intros G V H. induction H as [t|t t1 t2 H IH S]; [right; eauto|]. destruct (IH G V) as [->|(d1 & G1 & V1)]; [exfalso; eapply fair_empty; eassumption|].
  eapply step_valid; eassumption.
Qed.

Lemma c70 P cs t d t' : good t d -> verify_parent_hashes P cs t = Ok true -> fair_history P cs t t' -> verify_parent_hashes P cs t' = Ok true.
Proof.
  intros G V H. apply (vph_iff P cs t d G) in V. destruct (history_valid P cs t d t' G V H) as [->|(d' & G' & V')]; [reflexivity|]. apply (vph_iff P cs t' d' G'), V'.
Qed.
Lemma c70_leaves P cs t d : good t d -> (forall x p, tget t x <> Some (Parent p)) -> verify_parent_hashes P cs t = Ok true.
Proof. intros G N. apply (vph_iff P cs t d G). intros k j p E. exfalso. eapply N, E. Qed.

(** ** Examples *)

From Verif Require Import Examples KeyPackage.
Lemma verified_source P kp ctx : key_package_verify P kp ctx = Ok tt -> forall h, lp_source (ln_payload (kp_leaf (kp_payload kp))) <> LSCommit h.
Proof.
  intros E h S. unfold key_package_verify in E. rewrite S in E. destruct (negb (version_eqb _ _)); [discriminate|]. destruct (negb (suite_eqb _ _)); discriminate.
Qed.

(** Member 0 of three merges a path with two nodes; then a fourth member comes in. *)
Definition ex_top_hash : bytes :=
  ok_or [] (let* th := tree_hash toy Suite1 ex_three 5 [] in parent_hash toy Suite1 (MkParentNode [x88] [] []) th).
Definition ex_low_hash : bytes :=
  ok_or [] (let* th := tree_hash toy Suite1 ex_three 2 [] in parent_hash toy Suite1 (MkParentNode [x77] ex_top_hash []) th).
Definition ex_path3 : update_path := MkUpdatePath (ex_leaf_commit x05 ex_low_hash) [MkUpdatePathNode [x77] []; MkUpdatePathNode [x88] []].
Definition ex_merged3 : tree :=
  [Some (Leaf (ex_leaf_commit x05 ex_low_hash)); Some (Parent (MkParentNode [x77] ex_top_hash [])); Some (Leaf (ex_leaf x02));
   Some (Parent (MkParentNode [x88] [] [])); Some (Leaf (ex_leaf x03)); None; None].
Definition ex_joined3 : tree :=
  [Some (Leaf (ex_leaf_commit x05 ex_low_hash)); Some (Parent (MkParentNode [x77] ex_top_hash [])); Some (Leaf (ex_leaf x02));
   Some (Parent (MkParentNode [x88] [] [3])); Some (Leaf (ex_leaf x03)); None; Some (Leaf (ex_leaf x04))].

Lemma ex_three_good : good ex_three 2.
Proof.
  destruct (history_good toy Suite1 ex_one 0 ex_three (good_single _) ex_three_history) as [Q|(d & G)]; [discriminate|].
  assert (d = 2) as <-; [|exact G]. apply (size_unique ex_three); [exact (g_size _ _ G)|left; reflexivity].
Qed.
Lemma ex_merge3 : merge_update_path toy Suite1 ex_three 0 ex_path3 = (ex_merged3, Ok tt).
Proof. vm_compute. reflexivity. Qed.
Lemma leaf_not_linked t k c h : (forall x n, In x (resolution t (N.to_nat k) c) -> tget t x = Some n -> carried_hash n = None) -> ~ linked t k c h.
Proof. intros H (x & n & I & E & C). rewrite (H x n I E) in C. discriminate. Qed.
Lemma ex_merged3_fair : ~ coincidence toy Suite1 ex_merged3 0.
Proof.
  intros (k & own & far & p & th & h & C1 & C2 & Q & Ep & _ & _ & L). rewrite covers_div in C1, C2. rewrite N.div_small in C1, C2 by (pose proof (pow2_pos k); lia).
  subst own. change (0 / 2) with 0 in *. assert (F : far = 1). { pose proof (N.div_mod far 2 ltac:(lia)). pose proof (N.mod_lt far 2 ltac:(lia)). lia. } subst far.
  assert (K : node_at (k + 1) 0 < 7). { destruct (N.lt_ge_cases (node_at (k + 1) 0) 7) as [|Z]; [assumption|]. rewrite tget_beyond in Ep by exact Z. discriminate. }
  assert (KK : k = 0 \/ k = 1). { destruct (N.le_gt_cases 2 k) as [Z|]; [|lia]. exfalso. assert (2 ^ 3 <= 2 ^ (k + 1)) by (apply pow2_mono; lia). unfold node_at in K. change (2 ^ 3) with 8 in *. lia. }
  destruct KK as [-> | ->]; revert L; apply leaf_not_linked; intros x n I E; vm_compute in I; destruct I as [<-|[]]; vm_compute in E; injection E as <-; reflexivity.
Qed.
Lemma ex_joined3_history : fair_history toy Suite1 ex_three ex_joined3.
Proof.
  apply (fh_cons _ _ _ ex_merged3).
  - apply (fh_cons _ _ _ ex_three); [constructor|]. destruct (root_tree_hash toy Suite1 ex_merged3) as [h|e| |] eqn:E; [|vm_compute in E; discriminate..].
    exact (fs_merge _ _ _ 0 ex_path3 _ h ex_merge3 E ex_merged3_fair).
  - apply (fs_add _ _ _ (ex_leaf x04)); [exists 2; left; reflexivity|vm_compute; reflexivity|discriminate].
Qed.
Lemma ex_three_leaves x p : tget ex_three x <> Some (Parent p).
Proof.
  assert (C : x = 0 \/ x = 1 \/ x = 2 \/ x = 3 \/ x = 4 \/ x = 5 \/ x = 6 \/ 7 <= x) by lia.
  destruct C as [->|[->|[->|[->|[->|[->|[->|C]]]]]]]; try discriminate. rewrite tget_beyond; [discriminate|]. exact C.
Qed.
