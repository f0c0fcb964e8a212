(** verify_integrity accepts exactly the [verified] trees. *)
From Verif Require Export TreeHash.
From Coq Require Import ZifyBool ZifyNat ZifyN.
Local Open Scope N_scope.

Lemma NoDup_map_inj {A B} (f : A -> B) l : NoDup l -> (NoDup (map f l) <-> forall a b, In a l -> In b l -> f a = f b -> a = b).
Proof.
  induction l as [|x l IH]; intros ND; cbn [map]; [split; [intros _ a b []|constructor]|]. inversion ND as [|? ? NI ND']; subst. split.
  - intros N. inversion N as [|? ? NI' N']; subst. intros a b [<-|Ia] [<-|Ib] E; try reflexivity.
    + exfalso. apply NI'. rewrite E. apply in_map, Ib.
    + exfalso. apply NI'. rewrite <- E. apply in_map, Ia.
    + eapply IH; eassumption.
  - intros H. constructor.
    + intros I. apply in_map_iff in I as (y & E & I). rewrite <- (H y x (or_intror I) (or_introl eq_refl) E) in NI. contradiction.
    + apply IH; [exact ND'|]. intros a b Ia Ib. apply H; right; assumption.
Qed.

(** ** Parent hashes *)

Lemma find_parent_hash_iff t l h : find_parent_hash t l h = true <-> exists x n, In x l /\ tget t x = Some n /\ carried_hash n = Some h.
Proof.
  unfold find_parent_hash. rewrite existsb_exists. split.
  - intros (x & I & E). destruct (tget t x) as [[lf|p]|] eqn:T; [|exists x, (Parent p); apply bytes_eqb_eq in E; subst h; auto|discriminate].
    destruct (lp_source (ln_payload lf)) as [lt| |ph] eqn:S; try discriminate. apply bytes_eqb_eq in E. subst h. exists x, (Leaf lf). cbn [carried_hash]. rewrite S. auto.
  - intros (x & n & I & T & C). exists x. split; [exact I|]. rewrite T. destruct n as [lf|p]; cbn [carried_hash] in C.
    + destruct (lp_source (ln_payload lf)) as [lt| |ph]; try discriminate. injection C as ->. apply bytes_eqb_eq. reflexivity.
    + injection C as ->. apply bytes_eqb_eq. reflexivity.
Qed.
Lemma children_leaf i : children (2 * i) = Ok None.
Proof. unfold children, left. rewrite <- node_at_leaf, level_node by lia. reflexivity. Qed.

Lemma bool_xor a b (A B : Prop) : (a = true <-> A) -> (b = true <-> B) ->
  (negb (Bool.eqb a b) = true <-> (A /\ ~ B) \/ (~ A /\ B)).
Proof.
  intros HA HB. destruct a, b; cbn; split; intros H; try discriminate; try reflexivity; intuition (try discriminate).
Qed.
Lemma check_parent_hash_iff P cs t k j p : small_unmerged t -> k < 31 ->
  check_parent_hash P cs t (node_at (k + 1) j) (Some (Parent p)) = Ok true <-> hash_valid P cs t k j p.
Proof.
  intros SU L. unfold check_parent_hash, hash_valid. rewrite children_node by exact L. cbn [bind].
  rewrite !resolve_ok by (assumption || lia). cbn [bind].
  destruct (tree_hash P cs t (node_at k (2 * j)) (pn_unmerged p)) as [lh|e| |]; cbn [ok_or_false]; try (split; [discriminate|intros (? & ? & ? & ? & Q & _); discriminate]).
  destruct (tree_hash P cs t (node_at k (2 * j + 1)) (pn_unmerged p)) as [rh|e| |]; cbn [ok_or_false]; try (split; [discriminate|intros (? & ? & ? & ? & _ & Q & _); discriminate]).
  destruct (parent_hash P cs p rh) as [lph|e| |] eqn:E1; cbn [ok_or_false]; try (split; [discriminate|intros (? & ? & ? & ? & _ & Q & Q' & _); injection Q as <-; congruence]).
  destruct (parent_hash P cs p lh) as [rph|e| |] eqn:E2; cbn [ok_or_false]; try (split; [discriminate|intros (? & ? & ? & ? & Q & _ & _ & Q' & _); injection Q as <-; congruence]).
  pose proof (bool_xor _ _ _ _ (find_parent_hash_iff t (resolution t (N.to_nat k) (2 * j)) lph) (find_parent_hash_iff t (resolution t (N.to_nat k) (2 * j + 1)) rph)) as X.
  split.
  - intros E. apply Ok_inj in E. exists lh, rh, lph, rph. repeat (split; [assumption || reflexivity|]). apply X, E.
  - intros (lh' & rh' & lph' & rph' & Q1 & Q2 & Q3 & Q4 & H). injection Q1 as <-. injection Q2 as <-. rewrite E1 in Q3. rewrite E2 in Q4. injection Q3 as <-. injection Q4 as <-. f_equal. apply X, H.
Qed.

Lemma tget_S nd (t : tree) x : tget (nd :: t) (x + 1) = tget t x.
Proof.
  unfold tget, tlen. cbn [length]. destruct (N.ltb_spec (x + 1) (N.of_nat (S (length t)))), (N.ltb_spec x (N.of_nat (length t))); try lia; [|reflexivity].
  replace (N.to_nat (x + 1)) with (S (N.to_nat x)) by lia. reflexivity.
Qed.
Lemma tget_0 nd (t : tree) : tget (nd :: t) 0 = nd.
Proof. reflexivity. Qed.

Lemma verify_hashes_iff P cs t : forall l i, i + tlen l <= 4294967296 ->
  (verify_parent_hashes_from P cs t i l = Ok true <-> forall x, x < tlen l -> check_parent_hash P cs t (i + x) (tget l x) = Ok true).
Proof.
  induction l as [|nd l IH]; intros i L; cbn [verify_parent_hashes_from].
  - split; [intros _ x H; cbn in H; lia|reflexivity].
  - assert (TL : tlen (nd :: l) = tlen l + 1) by (unfold tlen; cbn [length]; lia). rewrite TL in *. rewrite N.mod_small by lia. split.
    + intros E. apply bind_ok in E as (b & Eb & E). destruct b; [|discriminate]. rewrite IH in E by lia. intros x H.
      destruct (N.eq_dec x 0) as [->|Q]; [rewrite N.add_0_r; exact Eb|]. replace x with (x - 1 + 1) at 2 by lia. rewrite tget_S. replace (i + x) with (i + 1 + (x - 1)) by lia. apply E. lia.
    + intros H. pose proof (H 0 ltac:(lia)) as H0. rewrite N.add_0_r, tget_0 in H0. rewrite H0. cbn [bind]. apply IH; [lia|]. intros x X.
      specialize (H (x + 1) ltac:(lia)). rewrite tget_S in H. replace (i + 1 + x) with (i + (x + 1)) by lia. exact H.
Qed.

(** ** Members *)

Lemma leaf_verify_split P l cs gid i creds sks eks now : leaf_verify P l (MkLeafOptions cs gid i creds sks eks now) = Ok tt <->
  leaf_valid P cs gid creds now i l /\ ~ In (lp_signature_key (ln_payload l)) sks /\ ~ In (lp_encryption_key (ln_payload l)) eks.
Proof. rewrite leaf_verify_iff. unfold leaf_valid. cbn. tauto. Qed.

Definition sk_of (il : N * leaf_node) : bytes := lp_signature_key (ln_payload (snd il)).
Definition ek_of (il : N * leaf_node) : bytes := lp_encryption_key (ln_payload (snd il)).
Lemma verify_leaves_iff P cs gid creds now : forall ls sks eks, NoDup sks -> NoDup eks -> forall r,
  verify_leaves P cs gid creds now sks eks ls = Ok r <->
  r = (rev (map sk_of ls) ++ sks, rev (map ek_of ls) ++ eks)%list /\
  (forall i l, In (i, l) ls -> leaf_valid P cs gid creds (now i) i l) /\ NoDup (rev (map sk_of ls) ++ sks) /\ NoDup (rev (map ek_of ls) ++ eks).
Proof.
  induction ls as [|[i l] ls IH]; intros sks eks N1 N2 r; cbn [verify_leaves map rev app].
  - split; [intros E; apply Ok_inj in E; subst r; split; [reflexivity|split; [intros ? ? []|split; assumption]]|intros (-> & _); reflexivity].
  - change (sk_of (i, l)) with (lp_signature_key (ln_payload l)). change (ek_of (i, l)) with (lp_encryption_key (ln_payload l)). rewrite <- !app_assoc. cbn [app].
    pose proof (leaf_verify_split P l cs gid i creds sks eks (now i)) as S. split.
    + intros E. apply bind_ok in E as ([] & El & E). apply S in El as (V & A & B). rewrite IH in E by (constructor; assumption).
      destruct E as (-> & V' & D1 & D2). split; [reflexivity|]. split; [|auto]. intros i0 l0 [Q|I]; [injection Q as <- <-; exact V|apply V', I].
    + intros (-> & V & D1 & D2). assert (A : ~ In (lp_signature_key (ln_payload l)) sks /\ ~ In (lp_encryption_key (ln_payload l)) eks).
      { split; [apply NoDup_remove_2 in D1|apply NoDup_remove_2 in D2]; intros Q; [apply D1|apply D2]; apply in_or_app; right; exact Q. }
      rewrite (proj2 S) by (split; [apply V; left; reflexivity|exact A]). cbn [bind]. apply IH; [constructor; tauto..|]. split; [reflexivity|]. split; [intros; apply V; right; assumption|auto].
Qed.

(** ** Unmerged leaves *)

Lemma has_unmerged_iff p u : has_unmerged_leaf p u = true <-> In u (pn_unmerged p).
Proof. apply mem_in, N.eqb_eq. Qed.

Lemma covers_step k j i : covers k j i -> covers (k + 1) (j / 2) i.
Proof.
  intros C. apply covers_div in C. apply covers_div. rewrite pow2_S, (N.mul_comm 2), <- N.div_div by (try apply N.pow_nonzero; lia). congruence.
Qed.
Lemma covers_same k j j' i : covers k j i -> covers k j' i -> j = j'.
Proof. intros C C'. apply covers_div in C, C'. congruence. Qed.

Lemma climb_sound n p li t : 0 < n -> n <= 2147483648 -> forall f k j, covers k j li ->
  check_unmerged_climb f t n p li (node_at k j) = Ok tt -> exists K J, k < K /\ p = node_at K J /\ covers K J li.
Proof.
  intros Hn Ln. induction f as [|f IH]; intros k j C E; cbn [check_unmerged_climb] in E;
  (destruct (N.lt_ge_cases k 31) as [Lk|Lk];
    [destruct (N.eq_dec (node_at k j) (node_at (depth n) 0)) as [Q|Q]; [rewrite Q, parent_root in E by assumption; discriminate|rewrite parent_node_gen in E; [|assumption|assumption|assumption|intros [-> ->]; apply Q; reflexivity]]
    |exfalso; destruct (N.eq_dec k 31) as [->|Ne];
      [destruct (N.eq_dec (node_at 31 j) (node_at (depth n) 0)) as [Q|Q]; [rewrite Q, parent_root in E by assumption; discriminate|rewrite parent_top in E; [discriminate|assumption|assumption|intros [X1 X2]; apply Q; rewrite <- X1, X2; reflexivity]]
      |rewrite parent_max in E by (assumption || lia); discriminate]]);
  cbn [bind] in E; unfold step_up in E; pose proof (covers_step k j li C) as C';
  (destruct (N.eqb_spec (node_at (k + 1) (j / 2)) p) as [<-|Np]; [exists (k + 1), (j / 2); split; [lia|auto]|]);
  apply bind_ok in E as ([] & _ & E); [discriminate|]. apply IH in E; [|exact C']. destruct E as (K & J & LK & H). exists K, J. split; [lia|exact H].
Qed.
Lemma climb_iff d t li K J : d <= 31 -> K <= d -> forall f k j, (N.to_nat (d - k) <= f)%nat -> k <= d -> li < 2 ^ d -> covers k j li ->
  (check_unmerged_climb f t (2 ^ d) (node_at K J) li (node_at k j) = Ok tt <->
   k < K /\ covers K J li /\ forall k' j' q, k < k' < K -> covers k' j' li -> tget t (node_at k' j') = Some (Parent q) -> In li (pn_unmerged q)).
Proof.
  intros Hd HK. assert (P1 : 0 < 2 ^ d) by apply pow2_pos. assert (P2 : 2 ^ d <= 2147483648) by (change 2147483648 with (2 ^ 31); apply pow2_mono; exact Hd).
  pose proof (depth_pow2 d) as DP. induction f as [|f IH]; intros k j Hf Hk Hli C; cbn [check_unmerged_climb].
  - assert (k = d) by lia. subst k. assert (j = 0) as -> by (apply covers_div in C; rewrite <- C; apply N.div_small, Hli).
    rewrite <- DP at 2. rewrite parent_root by assumption. cbn [bind]. split; [discriminate|]. intros (L & _). lia.
  - destruct (N.eq_dec k d) as [->|Ne].
    { assert (j = 0) as -> by (apply covers_div in C; rewrite <- C; apply N.div_small, Hli).
      rewrite <- DP at 2. rewrite parent_root by assumption. cbn [bind]. split; [discriminate|]. intros (L & _). lia. }
    rewrite parent_in by (assumption || (rewrite DP; lia)). cbn [bind]. unfold step_up. pose proof (covers_step k j li C) as C'.
    destruct (N.eqb_spec (node_at (k + 1) (j / 2)) (node_at K J)) as [Q|Q].
    + apply node_at_inj in Q as [<- <-]. split; [intros _|reflexivity]. split; [lia|]. split; [exact C'|]. intros; lia.
    + assert (HH : match tget t (node_at (k + 1) (j / 2)) with
                | Some (Parent q) => if has_unmerged_leaf q li then Ok tt else Err NonBlankIntermediateNodeMissingUnmergedLeaf
                | _ => Ok tt end = Ok tt <-> forall q, tget t (node_at (k + 1) (j / 2)) = Some (Parent q) -> In li (pn_unmerged q)).
      { destruct (tget t (node_at (k + 1) (j / 2))) as [[lf|q]|]; [split; [intros _ q0 X; discriminate|reflexivity]| |split; [intros _ q0 X; discriminate|reflexivity]].
        destruct (has_unmerged_leaf q li) eqn:U; [split; [intros _ q0 X; injection X as <-; apply has_unmerged_iff, U|reflexivity]|].
        split; [discriminate|]. intros X. specialize (X q eq_refl). apply has_unmerged_iff in X. congruence. }
      specialize (IH (k + 1) (j / 2) ltac:(lia) ltac:(lia) Hli C'). split.
      * intros E. apply bind_ok in E as ([] & E1 & E). rewrite HH in E1. rewrite IH in E. destruct E as (L & CK & B). split; [lia|]. split; [exact CK|].
        intros k' j' q L' C'' T. destruct (N.eq_dec k' (k + 1)) as [->|]; [|eapply B; [|exact C''|exact T]; lia].
        rewrite (covers_same _ _ _ _ C'' C') in T. apply E1, T.
      * intros (L & CK & B). assert (Ne' : K <> k + 1). { intros ->. apply Q. f_equal. eapply covers_same; eassumption. }
        rewrite (proj2 HH); [cbn [bind]|intros q T; eapply B; [|exact C'|exact T]; lia]. apply IH. split; [lia|]. split; [exact CK|].
        intros k' j' q L' C'' T. eapply B; [|exact C''|exact T]. lia.
Qed.

Lemma check_unmerged_all t n p : forall l, check_unmerged t n p l = Ok tt <->
  forall u, In u l -> exists x, node_index u = Ok x /\ check_unmerged_climb 33 t n p u x = Ok tt.
Proof.
  induction l as [|u l IH]; [split; [intros _ u []|reflexivity]|]. unfold check_unmerged; fold check_unmerged. split.
  - intros E. apply bind_ok in E as (x & Ex & E). apply bind_ok in E as ([] & E1 & E). rewrite IH in E. intros v [<-|I]; [exists x; auto|apply E, I].
  - intros H. destruct (H u (or_introl eq_refl)) as (x & Ex & E1). rewrite Ex. cbn [bind]. rewrite E1. cbn [bind]. apply IH. intros v I. apply H. right. exact I.
Qed.

Definition unmerged_valid (t : tree) (K J : N) (p : parent_node) : Prop :=
  forall u, In u (pn_unmerged p) -> 0 < K /\ covers K J u /\
    forall k' j' q, 0 < k' < K -> covers k' j' u -> tget t (node_at k' j') = Some (Parent q) -> In u (pn_unmerged q).
Lemma covers_lt_tree d k j i : in_tree d (node_at k j) -> covers k j i -> i < 2 ^ d.
Proof.
  unfold in_tree, covers, node_at. intros H [_ C]. pose proof (pow2_S k). pose proof (pow2_S d). pose proof (pow2_pos k).
  destruct (N.le_gt_cases k d) as [L|L].
  - assert (Q : 2 ^ d = 2 ^ (d - k) * 2 ^ k) by (rewrite <- N.pow_add_r; f_equal; lia). set (a := 2 ^ (d - k)) in *. set (b := 2 ^ k) in *.
    assert (j + 1 <= a) by nia. nia.
  - assert (2 ^ (d + 1) <= 2 ^ k) by (apply pow2_mono; lia). nia.
Qed.
Lemma node_index_val u x : node_index u = Ok x -> x = 2 * u /\ u < 2147483648.
Proof. unfold node_index, mul32, u32_max. destruct (N.leb_spec (2 * u) 4294967295); [|discriminate]. intros E. injection E as <-. lia. Qed.
Lemma in_tree_level d k j : in_tree d (node_at k j) -> k <= d.
Proof.
  unfold in_tree, node_at. intros H. destruct (N.le_gt_cases k d) as [L|L]; [exact L|]. assert (2 ^ (d + 1) <= 2 ^ k) by (apply pow2_mono; lia). pose proof (pow2_pos k). nia.
Qed.
Lemma check_unmerged_iff d t K J p : d <= 31 -> in_tree d (node_at K J) ->
  (check_unmerged t (2 ^ d) (node_at K J) (pn_unmerged p) = Ok tt <-> unmerged_valid t K J p).
Proof.
  intros Hd I. assert (P1 : 0 < 2 ^ d) by apply pow2_pos. assert (P2 : 2 ^ d <= 2147483648) by (change 2147483648 with (2 ^ 31); apply pow2_mono; exact Hd).
  pose proof (in_tree_level d K J I) as HK. rewrite check_unmerged_all. unfold unmerged_valid.
  assert (C0 : forall u, covers 0 u u) by (intros u; unfold covers; change (2 ^ 0) with 1; lia).
  split; intros H u Iu; specialize (H u Iu).
  - destruct H as (x & Ex & E). apply node_index_val in Ex as [-> Lu]. rewrite <- node_at_leaf in E.
    assert (Lt : u < 2 ^ d). { destruct (climb_sound _ _ _ _ P1 P2 _ _ _ (C0 u) E) as (K' & J' & _ & Q & C). apply node_at_inj in Q as [<- <-]. eapply covers_lt_tree; eassumption. }
    apply (climb_iff d t u K J Hd HK 33 0 u) in E; [exact E|lia|lia|exact Lt|apply C0].
  - destruct H as (LK & C & B). pose proof (covers_lt_tree d K J u I C) as Lt. exists (2 * u). split; [apply (node_index_ok 31); change (2 ^ 31) with 2147483648; lia|].
    rewrite <- node_at_leaf. apply (climb_iff d t u K J Hd HK 33 0 u); [lia|lia|exact Lt|apply C0|auto].
Qed.

(** ** Parents *)

Fixpoint parents_from (i : N) (l : list (option node)) : list (N * parent_node) :=
  match l with [] => [] | Some (Parent p) :: r => (i, p) :: parents_from (i + 1) r | _ :: r => parents_from (i + 1) r end.
Lemma parents_in l : forall i x p, In (x, p) (parents_from i l) <-> i <= x /\ tget l (x - i) = Some (Parent p).
Proof.
  induction l as [|nd l IH]; intros i x p; cbn [parents_from].
  - split; [intros []|intros [_ E]; rewrite tget_beyond in E by (cbn; lia); discriminate].
  - assert (S : i + 1 <= x /\ tget l (x - (i + 1)) = Some (Parent p) <-> i < x /\ tget (nd :: l) (x - i) = Some (Parent p)).
    { split; intros [A B]; (split; [lia|]); replace (x - i) with (x - (i + 1) + 1) in * by lia; rewrite tget_S in *; exact B. }
    assert (Z : i <= x /\ tget (nd :: l) (x - i) = Some (Parent p) <-> (x = i /\ nd = Some (Parent p)) \/ (i < x /\ tget (nd :: l) (x - i) = Some (Parent p))).
    { split; [intros [A B]; destruct (N.eq_dec x i) as [->|]; [left; rewrite N.sub_diag, tget_0 in B; auto|right; split; [lia|exact B]]|].
      intros [[-> ->]|[A B]]; [rewrite N.sub_diag, tget_0; split; [lia|reflexivity]|split; [lia|exact B]]. }
    rewrite Z, <- S, <- IH. destruct nd as [[lf|q]|]; cbn [In]; intuition (try discriminate; try congruence).
Qed.
Lemma parents_nodup l : forall i, NoDup (parents_from i l).
Proof.
  induction l as [|nd l IH]; intros i; cbn [parents_from]; [constructor|]. destruct nd as [[lf|q]|]; try apply IH. constructor; [|apply IH].
  intros I. apply parents_in in I. lia.
Qed.
Lemma check_parents_iff t n : forall l i eks, i + tlen l <= 4294967296 -> NoDup eks ->
  (check_parents t n i eks l = Ok tt <->
   (forall x p, In (x, p) (parents_from i l) -> check_unmerged t n x (pn_unmerged p) = Ok tt) /\
   NoDup (rev (map (fun xp : N * parent_node => pn_encryption_key (snd xp)) (parents_from i l)) ++ eks)).
Proof.
  induction l as [|nd l IH]; intros i eks L ND; cbn [check_parents parents_from]; [cbn; split; [intros _; split; [intros ? ? []|exact ND]|reflexivity]|].
  assert (TL : tlen (nd :: l) = tlen l + 1) by (unfold tlen; cbn [length]; lia). rewrite TL in L.
  destruct nd as [[lf|q]|]; [apply IH; [lia|exact ND]| |apply IH; [lia|exact ND]].
  rewrite N.mod_small by lia. cbn [map rev snd]. rewrite <- app_assoc. cbn [app]. split.
  - intros E. apply bind_ok in E as ([] & E1 & E). destruct (mem bytes_eqb (pn_encryption_key q) eks) eqn:M; [discriminate|].
    assert (NI : ~ In (pn_encryption_key q) eks) by (intros X; apply (mem_in _ bytes_eqb_eq) in X; congruence).
    rewrite IH in E by (lia || (constructor; assumption)). destruct E as [A B]. split; [|exact B]. intros x p [Q|I]; [injection Q as <- <-; exact E1|apply A, I].
  - intros [A B]. rewrite (A i q) by (left; reflexivity). cbn [bind]. assert (NI : ~ In (pn_encryption_key q) eks).
    { apply NoDup_remove_2 in B. intros X. apply B, in_or_app. right. exact X. }
    destruct (mem bytes_eqb (pn_encryption_key q) eks) eqn:M; [apply (mem_in _ bytes_eqb_eq) in M; contradiction|].
    apply IH; [lia|constructor; assumption|]. split; [|exact B]. intros; apply A; right; assumption.
Qed.

(** ** verify_integrity *)

Lemma root_kinds P cs t : forall k j h, k <= 31 -> tree_hash P cs t (node_at k j) [] = Ok h ->
  forall x, inside k j x -> (forall i p, x = 2 * i -> tget t x <> Some (Parent p)) /\ (forall m i l, x = node_at (m + 1) i -> tget t x <> Some (Leaf l)).
Proof.
  intros k. induction k as [|k IH] using N.peano_ind; intros j h Hk E x I.
  - apply leaf_hash_ok in E as (l & b & H & El & _). change (mem N.eqb j []) with false in El. apply hashed_leaf_nil in El.
    destruct I as (k0 & j0 & L & -> & D). assert (k0 = 0) by lia. subst k0. change (2 ^ (0 - 0)) with 1 in D. rewrite N.div_1_r in D. subst j0. rewrite node_at_leaf.
    split; [intros i p _; rewrite El; destruct l; discriminate|]. intros m i l0 Q. rewrite <- node_at_leaf in Q. apply node_at_inj in Q. lia.
  - rewrite <- N.add_1_r in *. apply parent_hash_ok in E as (lh & rh & p & b & H & Hl & Hr & Ep & _); [|lia]. apply hashed_parent_nil in Ep. apply inside_cases in I as [->|[I|I]].
    + split; [intros i p0 Q; rewrite <- node_at_leaf in Q; apply node_at_inj in Q; lia|]. intros m i l _. rewrite Ep. destruct p; discriminate.
    + eapply IH; [|exact Hl|exact I]. lia.
    + eapply IH; [|exact Hr|exact I]. lia.
Qed.
Lemma valid_kinds P cs t d h : usized t d -> (forall x nd, tget t x = Some nd -> in_tree d x) -> root_tree_hash P cs t = Ok h ->
  (forall i p, tget t (2 * i) <> Some (Parent p)) /\ (forall k j l, tget t (node_at (k + 1) j) <> Some (Leaf l)).
Proof.
  intros U IN E. rewrite (root_hash_node P cs t d U) in E. pose proof (root_kinds P cs t d 0 h (usized_31 t d U) E) as K. split.
  - intros i p T. pose proof (inside_root d _ (IN _ _ T)) as I. apply (proj1 (K _ I) i p eq_refl), T.
  - intros k j l T. pose proof (inside_root d _ (IN _ _ T)) as I. apply (proj2 (K _ I) k j l eq_refl), T.
Qed.

Lemma sorted_pairs_nodup {A} (ls : list (N * A)) : StronglySorted N.lt (map fst ls) -> NoDup ls.
Proof. intros S. apply sorted_NoDup in S. apply NoDup_map_inv in S. exact S. Qed.

Lemma keys_nodup t d ls : usized t d -> (forall x nd, tget t x = Some nd -> in_tree d x) ->
  (forall i p, tget t (2 * i) <> Some (Parent p)) -> (forall k j l, tget t (node_at (k + 1) j) <> Some (Leaf l)) ->
  StronglySorted N.lt (map fst ls) -> (forall i l, In (i, l) ls <-> leaf_at t i = Some l) ->
  (NoDup (rev (map (fun xp : N * parent_node => pn_encryption_key (snd xp)) (parents_from 0 t)) ++ rev (map ek_of ls)) <->
   forall x x' n n', tget t x = Some n -> tget t x' = Some n' -> node_key n = node_key n' -> x = x').
Proof.
  intros U IN K1 K2 S M. set (pk := fun xp : N * parent_node => pn_encryption_key (snd xp)).
  assert (PI : forall x p, In (x, p) (parents_from 0 t) <-> tget t x = Some (Parent p)).
  { intros x p. rewrite parents_in, N.sub_0_r. split; [intros [_ H]; exact H|intros H; split; [lia|exact H]]. }
  assert (LI : forall x l, tget t x = Some (Leaf l) -> exists i, x = 2 * i /\ In (i, l) ls).
  { intros x l T. destruct (node_decomp x) as (k & j & ->). destruct (N.eq_dec k 0) as [->|Q].
    - rewrite node_at_leaf in *. exists j. split; [reflexivity|]. apply M. unfold leaf_at. rewrite T. reflexivity.
    - exfalso. replace k with (k - 1 + 1) in T by lia. eapply K2. exact T. }
  assert (LT : forall i l, In (i, l) ls -> tget t (2 * i) = Some (Leaf l)).
  { intros i l I. apply M in I. unfold leaf_at in I. destruct (tget t (2 * i)) as [[l0|p]|]; try discriminate. congruence. }
  pose proof (NoDup_map_inj pk (parents_from 0 t) (parents_nodup t 0)) as NP. pose proof (NoDup_map_inj ek_of ls (sorted_pairs_nodup ls S)) as NL. split.
  - intros ND x x' n n' T T' E. rewrite <- rev_app_distr in ND. apply NoDup_rev in ND. rewrite rev_involutive in ND.
    assert (A : NoDup (map ek_of ls) /\ NoDup (map pk (parents_from 0 t)) /\ forall b, In b (map ek_of ls) -> In b (map pk (parents_from 0 t)) -> False).
    { clear - ND. induction (map ek_of ls) as [|a l IH]; [split; [constructor|]; split; [exact ND|intros b []]|]. cbn [app] in ND. inversion ND as [|? ? NI ND']; subst.
      destruct (IH ND') as (B & C & D). split; [constructor; [|exact B]|split; [exact C|]].
      - intros I. apply NI, in_or_app. auto.
      - intros b [<-|I] J; [apply NI, in_or_app; auto|eapply D; eassumption]. }
    destruct A as (A & B & C). rewrite NL in A. rewrite NP in B. destruct n as [l|p], n' as [l'|p'].
    + destruct (LI _ _ T) as (i & -> & I). destruct (LI _ _ T') as (i' & -> & I'). pose proof (A (i, l) (i', l') I I' E) as Q. congruence.
    + exfalso. destruct (LI _ _ T) as (i & -> & I). apply (C (pn_encryption_key p')); [|apply (in_map pk _ (x', p')), PI, T']. cbn [node_key] in E. rewrite <- E. apply (in_map ek_of _ (i, l)), I.
    + exfalso. destruct (LI _ _ T') as (i & -> & I). apply (C (pn_encryption_key p)); [|apply (in_map pk _ (x, p)), PI, T]. cbn [node_key] in E. rewrite E. apply (in_map ek_of _ (i, l')), I.
    + pose proof (B (x, p) (x', p') (proj2 (PI _ _) T) (proj2 (PI _ _) T') E) as Q. congruence.
  - intros H. rewrite <- rev_app_distr. apply NoDup_rev. apply NoDup_app_disj.
    + apply NL. intros [i l] [i' l'] I I' E. pose proof (H _ _ _ _ (LT _ _ I) (LT _ _ I') E) as Q. assert (i = i') by lia. subst i'. apply M in I, I'. congruence.
    + apply NP. intros [x p] [x' p'] I I' E. apply PI in I, I'. pose proof (H _ _ _ _ I I' E). congruence.
    + intros b I I'. apply in_map_iff in I as ([i l] & <- & I). apply in_map_iff in I' as ([x p] & E & I'). apply PI in I'. pose proof (LT _ _ I) as T.
      pose proof (H x (2 * i) _ _ I' T E) as Q. rewrite Q in I'. eapply K1. exact I'.
Qed.

Lemma verify_integrity_iff P t ctx now d : tsized t d -> tlen t < 4294967296 -> (forall x nd, tget t x = Some nd -> in_tree d x) ->
  (verify_integrity P t ctx now = Ok tt <-> verified P t ctx now d).
Proof.
  intros S L IN. pose proof (small_usized t d S L) as U. pose proof (usized_31 t d U) as Hd. pose proof (usized_leaves t d U) as NLv.
  destruct (leaves_ok t d U) as (ls & EL & SL & ML). destruct (supported_total t d U) as (ls' & creds & EL' & EC & _).
  assert (PI : forall x p, In (x, p) (parents_from 0 t) <-> tget t x = Some (Parent p)).
  { intros x p. rewrite parents_in, N.sub_0_r. split; [intros [_ H]; exact H|intros H; split; [lia|exact H]]. }
  assert (UV : (forall x p, In (x, p) (parents_from 0 t) -> check_unmerged t (num_leaves t) x (pn_unmerged p) = Ok tt) <->
               (forall k j p, tget t (node_at k j) = Some (Parent p) -> unmerged_valid t k j p)).
  { split; intros H.
    - intros k j p T. pose proof (H _ _ (proj2 (PI _ _) T)) as C. rewrite NLv in C. apply (check_unmerged_iff d) in C; [exact C|exact Hd|eapply IN, T].
    - intros x p I. apply PI in I. destruct (node_decomp x) as (k & j & ->). rewrite NLv. apply (check_unmerged_iff d); [exact Hd|eapply IN, I|apply H, I]. }
  assert (SMALL : (forall k j p, tget t (node_at k j) = Some (Parent p) -> unmerged_valid t k j p) -> small_unmerged t).
  { intros H x p u T I. destruct (node_decomp x) as (k & j & ->). destruct (H _ _ _ T u I) as (_ & C & _). pose proof (covers_lt_tree d k j u (IN _ _ T) C).
    assert (2 ^ d <= 2 ^ 31) by (apply pow2_mono; exact Hd). change (2 ^ 31) with 2147483648 in *. lia. }
  assert (HV : small_unmerged t -> (forall k j l, tget t (node_at (k + 1) j) <> Some (Leaf l)) ->
     (verify_parent_hashes P (gc_suite ctx) t = Ok true <-> forall k j p, tget t (node_at (k + 1) j) = Some (Parent p) -> hash_valid P (gc_suite ctx) t k j p)).
  { intros SU K2. unfold verify_parent_hashes. rewrite verify_hashes_iff by lia. split; intros H.
    - intros k j p T. pose proof (in_tree_level _ _ _ (IN _ _ T)). assert (Lx : node_at (k + 1) j < tlen t) by (destruct (N.lt_ge_cases (node_at (k + 1) j) (tlen t)); [assumption|rewrite tget_beyond in T by assumption; discriminate]).
      specialize (H _ Lx). rewrite N.add_0_l, T in H. apply check_parent_hash_iff in H; [exact H|exact SU|lia].
    - intros x Lx. rewrite N.add_0_l. destruct (tget t x) as [nd|] eqn:T; [|reflexivity]. destruct (node_decomp x) as (k & j & ->). destruct (N.eq_dec k 0) as [->|Q].
      + rewrite node_at_leaf. unfold check_parent_hash. rewrite children_leaf. reflexivity.
      + replace k with (k - 1 + 1) in * by lia. destruct nd as [l|p]; [exfalso; eapply K2, T|]. pose proof (in_tree_level _ _ _ (IN _ _ T)).
        apply check_parent_hash_iff; [exact SU|lia|apply H, T]. }
  unfold verify_integrity. split.
  - intros E. apply bind_ok in E as (h & Eh & E). destruct (negb (bytes_eqb h (gc_tree_hash ctx))) eqn:B; [discriminate|]. apply Bool.negb_false_iff, bytes_eqb_eq in B. subst h.
    destruct (valid_kinds P _ t d _ U IN Eh) as [K1 K2]. apply bind_ok in E as (b & Ev & E). destruct b; [cbn [negb] in E|discriminate].
    rewrite EC in E. cbn [bind] in E. rewrite EL in E. cbn [bind] in E. apply bind_ok in E as ([sks eks] & Vl & E).
    apply verify_leaves_iff in Vl; [|constructor|constructor]. destruct Vl as (Q & VL & D1 & D2). rewrite !app_nil_r in *. injection Q as -> ->.
    apply check_parents_iff in E; [|lia|exact D2]. destruct E as [UM ND]. rewrite UV in UM. apply SMALL in UM as SU. rewrite (HV SU K2) in Ev.
    split; [exact Eh|exact Ev| | | | |].
    + exists creds. split; [exact EC|]. intros i l Li. apply VL, ML, Li.
    + intros i i' l l' Li Li' Q. apply NoDup_rev in D1. rewrite rev_involutive in D1. rewrite (NoDup_map_inj sk_of ls (sorted_pairs_nodup ls SL)) in D1.
      pose proof (D1 (i, l) (i', l') (proj2 (ML _ _) Li) (proj2 (ML _ _) Li') Q) as R. congruence.
    + apply (keys_nodup t d ls U IN K1 K2 SL ML), ND.
    + intros k j p u T I. destruct (UM k j p T u I) as (A & B & _). auto.
    + intros k j p u k' j' p' T I Lk C T'. destruct (UM k j p T u I) as (_ & _ & C'). eapply C'; eassumption.
  - intros [V1 V2 (creds' & EC' & V3) V4 V5 V6 V7]. assert (creds' = creds) by congruence. subst creds'.
    destruct (valid_kinds P _ t d _ U IN V1) as [K1 K2]. rewrite V1. cbn [bind]. rewrite (proj2 (bytes_eqb_eq _ _) eq_refl). cbn [negb].
    assert (UM : forall k j p, tget t (node_at k j) = Some (Parent p) -> unmerged_valid t k j p).
    { intros k j p T u I. destruct (V6 _ _ _ _ T I) as [A B]. split; [exact A|]. split; [exact B|]. intros k' j' q Lk C T'. exact (V7 _ _ _ _ _ _ _ T I Lk C T'). }
    rewrite (proj2 (HV (SMALL UM) K2) V2). cbn [bind negb]. rewrite EC. cbn [bind]. rewrite EL. cbn [bind].
    pose proof (proj2 (keys_nodup t d ls U IN K1 K2 SL ML) V5) as ND.
    assert (D2 : NoDup (rev (map ek_of ls))).
    { clear - ND. induction (rev (map (fun xp : N * parent_node => pn_encryption_key (snd xp)) (parents_from 0 t))) as [|a l IH]; [exact ND|]. cbn [app] in ND. inversion ND; auto. }
    assert (D1 : NoDup (rev (map sk_of ls))).
    { apply NoDup_rev. apply (NoDup_map_inj sk_of ls (sorted_pairs_nodup ls SL)). intros [i l] [i' l'] I I' Q. apply ML in I, I'. pose proof (V4 _ _ _ _ I I' Q). congruence. }
    rewrite (proj2 (verify_leaves_iff P (gc_suite ctx) (gc_group_id ctx) creds now ls [] [] (NoDup_nil _) (NoDup_nil _) (rev (map sk_of ls) ++ [], rev (map ek_of ls) ++ [])%list)).
    + cbn [bind]. rewrite app_nil_r. apply check_parents_iff; [lia|exact D2|]. split; [apply UV, UM|exact ND].
    + split; [reflexivity|]. split; [|rewrite !app_nil_r; auto]. intros i l I. apply V3, ML, I.
Qed.

(** ** Examples *)

Definition ex_v_parent (u : list N) : parent_node := MkParentNode [x77] [] u.
Definition ex_v_leaf1 : leaf_node := ex_signed x02 LSUpdate (str "group") 1.
(** A verified two-member tree with a parent node. *)
Definition ex_v_hash : bytes :=
  ok_or [] (let* th := tree_hash toy Suite1 [None; None; Some (Leaf ex_v_leaf1)] 2 [] in parent_hash toy Suite1 (ex_v_parent []) th).
Definition ex_verified : tree :=
  [Some (Leaf (ex_signed x01 (LSCommit ex_v_hash) (str "group") 0)); Some (Parent (ex_v_parent [])); Some (Leaf ex_v_leaf1)].
Definition ex_context (t : tree) : group_context :=
  MkGroupContext MLS10 Suite1 (str "group") 0 (ok_or [] (root_tree_hash toy Suite1 t)) [] [].
(** A one-member tree whose parent lists the other, blank leaf as unmerged. *)
Definition ex_b_hash : bytes :=
  ok_or [] (let* th := tree_hash toy Suite1 [None; None; None] 2 [] in parent_hash toy Suite1 (ex_v_parent [1]) th).
Definition ex_blank : tree :=
  [Some (Leaf (ex_signed x01 (LSCommit ex_b_hash) (str "group") 0)); Some (Parent (ex_v_parent [1])); None].

Lemma ex_verified_ok : tsized ex_verified 1 /\ (forall x nd, tget ex_verified x = Some nd -> in_tree 1 x) /\ verify_integrity toy ex_verified (ex_context ex_verified) (fun _ => 5000%Z) = Ok tt.
Proof.
  split; [left; reflexivity|]. split; [|vm_compute; reflexivity]. intros x nd E. destruct (N.lt_ge_cases x 3) as [Q|Q]; [exact Q|]. rewrite tget_beyond in E; [discriminate|exact Q].
Qed.
Lemma c24_refuted_blank : exists P t ctx now k j p u, full_size t 1 /\ verify_integrity P t ctx now = Ok tt /\
  tget t (node_at k j) = Some (Parent p) /\ In u (pn_unmerged p) /\ blank_at t u.
Proof.
  exists toy, ex_blank, (ex_context ex_blank), (fun _ => 5000%Z), 1, 0, (ex_v_parent [1]), 1. split; [reflexivity|]. split; [vm_compute; reflexivity|]. split; [reflexivity|]. split; [left; reflexivity|reflexivity].
Qed.
(** A tree received with an unmerged leaf outside it: the check panics. *)
Definition ex_outside : tree :=
  [Some (Leaf (ex_signed x01 (LSCommit (ok_or [] (let* th := tree_hash toy Suite1 [None; None; None] 2 [] in parent_hash toy Suite1 (ex_v_parent [7]) th))) (str "group") 0));
   Some (Parent (ex_v_parent [7])); None].
Lemma c24_refuted_panics : exists P t ctx now b, full_size t 1 /\ se_ratchet_tree t = Ok b /\ de_ratchet_tree b = Ok (t, []) /\ verify_integrity P t ctx now = Panic.
Proof.
  exists toy, ex_outside, (ex_context ex_outside), (fun _ => 5000%Z). eexists. split; [reflexivity|]. split; [vm_compute; reflexivity|]. split; vm_compute; reflexivity.
Qed.
Lemma c24_refuted_empty P ctx now : verify_integrity P [] ctx now = Panic.
Proof. reflexivity. Qed.

Lemma c24_kinds P t ctx now d : tsized t d -> tlen t < 4294967296 -> (forall x nd, tget t x = Some nd -> in_tree d x) -> verify_integrity P t ctx now = Ok tt ->
  (forall i p, tget t (2 * i) <> Some (Parent p)) /\ (forall i l, tget t (2 * i + 1) <> Some (Leaf l)).
Proof.
  intros S L IN E. apply (verify_integrity_iff P t ctx now d S L IN) in E. destruct (valid_kinds P _ t d _ (small_usized t d S L) IN (vf_hash _ _ _ _ _ E)) as [K1 K2].
  split; [exact K1|]. intros i l T. destruct (node_decomp (2 * i + 1)) as (k & j & Q). destruct (N.eq_dec k 0) as [->|].
  - rewrite node_at_leaf in Q. lia.
  - replace k with (k - 1 + 1) in Q by lia. rewrite Q in T. eapply K2, T.
Qed.
