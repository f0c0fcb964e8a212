(** Proofs about when checking a received tree panics. *)
From Verif Require Import CodecLib TreeMathProofs SpecTree SpecRatchet TreePaths TreeFacts Verified SpecCalm CalmFacts CalmTree SpecTreeCrash.
Local Open Scope N_scope.

Lemma climb_outside d t K J u : d <= 31 -> in_tree d (node_at K J) -> (forall x nd, tget t x = Some nd -> in_tree d x) -> 2 ^ d <= u -> u < 2147483648 ->
  forall f k j, (N.to_nat (31 - k) <= f)%nat -> k <= 31 -> covers k j u -> check_unmerged_climb f t (2 ^ d) (node_at K J) u (node_at k j) = Panic.
Proof.
  intros Hd I IN O Lu. assert (P1 : 0 < 2 ^ d) by apply pow2_pos. assert (P2 : 2 ^ d <= 2147483648) by (change 2147483648 with (2 ^ 31); apply pow2_mono; exact Hd).
  pose proof (depth_pow2 d) as DP.
  assert (NR : forall k j, covers k j u -> ~ in_tree d (node_at k j)) by (intros k j C Q; pose proof (covers_lt_tree d k j u Q C); lia).
  assert (NZ : forall k j, covers k j u -> ~ (k = depth (2 ^ d) /\ j = 0)).
  { intros k j C [-> ->]. rewrite DP in C. destruct C as [_ C]. lia. }
  induction f as [|f IH]; intros k j Hf Hk C; cbn [check_unmerged_climb].
  - assert (k = 31) by lia. subst k. rewrite parent_top; [reflexivity|exact P1|exact P2|]. apply NZ, C.
  - destruct (N.eq_dec k 31) as [->|Ne]; [rewrite parent_top; [reflexivity|exact P1|exact P2|apply NZ, C]|].
    rewrite parent_node_gen; [|exact P1|exact P2|lia|apply NZ, C]. cbn [bind]. unfold step_up. pose proof (covers_step k j u C) as C'.
    destruct (N.eqb_spec (node_at (k + 1) (j / 2)) (node_at K J)) as [Q|Q]; [exfalso; apply (NR _ _ C'); rewrite Q; exact I|].
    destruct (tget t (node_at (k + 1) (j / 2))) as [nd|] eqn:T; [exfalso; apply (NR _ _ C'), (IN _ _ T)|]. cbn [bind]. apply IH; [lia|lia|exact C'].
Qed.

Lemma check_one d t K J u : d <= 31 -> in_tree d (node_at K J) -> (forall x nd, tget t x = Some nd -> in_tree d x) ->
  (check_unmerged t (2 ^ d) (node_at K J) [u] = Ok tt <-> unmerged_leaf_ok t (node_at K J) u) /\
  (check_unmerged t (2 ^ d) (node_at K J) [u] = Panic <-> 2 ^ d <= u) /\ check_unmerged t (2 ^ d) (node_at K J) [u] <> Hang.
Proof.
  intros Hd I IN. set (p := MkParentNode [] [] [u]). assert (C0 : covers 0 u u) by (unfold covers; change (2 ^ 0) with 1; lia). split; [|].
  - pose proof (check_unmerged_iff d t K J p Hd I) as E. cbn [pn_unmerged p] in E. rewrite E. unfold unmerged_valid, unmerged_leaf_ok. split.
    + intros H. destruct (H u (or_introl eq_refl)) as (A & B & C). exists K, J. auto.
    + intros (K' & J' & Q & A & B & C) v [<-|[]]. apply node_at_inj in Q as [<- <-]. auto.
  - destruct (N.lt_ge_cases u (2 ^ d)) as [L|L].
    + assert (R : returns (check_unmerged t (2 ^ d) (node_at K J) [u])) by (apply r_check_unmerged; [exact Hd|intros v [<-|[]]; exact L]).
      destruct R as [[a R]|[e R]]; rewrite R; (split; [split; [discriminate|lia]|discriminate]).
    + assert (Q : check_unmerged t (2 ^ d) (node_at K J) [u] = Panic).
      { cbn [check_unmerged]. destruct (N.lt_ge_cases u 2147483648) as [Lu|Lu];
          [|unfold node_index, mul32, u32_max; destruct (N.leb_spec (2 * u) 4294967295); [lia|reflexivity]].
        rewrite (node_index_ok 31) by (change (2 ^ 31) with 2147483648; lia). cbn [bind]. rewrite <- node_at_leaf.
        rewrite climb_outside; [reflexivity|exact Hd|exact I|exact IN|exact L|exact Lu|lia|lia|exact C0]. }
      rewrite Q. split; [split; [intros _; exact L|reflexivity]|discriminate].
Qed.
Lemma check_cons t n x u l : check_unmerged t n x (u :: l) = (let* _ := check_unmerged t n x [u] in check_unmerged t n x l).
Proof.
  cbn [check_unmerged]. destruct (node_index u) as [y| | |]; cbn [bind]; try reflexivity. destruct (check_unmerged_climb _ _ _ _ _ _) as [[]| | |]; reflexivity.
Qed.
Lemma check_list d t K J : d <= 31 -> in_tree d (node_at K J) -> (forall x nd, tget t x = Some nd -> in_tree d x) -> forall l,
  (check_unmerged t (2 ^ d) (node_at K J) l = Ok tt <-> forall u, In u l -> unmerged_leaf_ok t (node_at K J) u) /\
  (check_unmerged t (2 ^ d) (node_at K J) l = Panic <-> exists pre u post, l = (pre ++ u :: post)%list /\ 2 ^ d <= u /\ forall v, In v pre -> unmerged_leaf_ok t (node_at K J) v) /\
  check_unmerged t (2 ^ d) (node_at K J) l <> Hang.
Proof.
  intros Hd I IN. induction l as [|u l IH].
  - split; [split; [intros _ u []|reflexivity]|]. split; [|discriminate]. split; [discriminate|]. intros (pre & u & post & Q & _). destruct pre; discriminate Q.
  - destruct (check_one d t K J u Hd I IN) as (O1 & O2 & O3).
    destruct IH as (L1 & L2 & L3). rewrite check_cons. destruct (check_unmerged t (2 ^ d) (node_at K J) [u]) as [[]|e| |]; cbn [bind].
    + pose proof (proj1 O1 eq_refl) as Ou. split.
      * rewrite L1. split; [intros H v [<-|Iv]; [exact Ou|apply H, Iv]|intros H v Iv; apply H; right; exact Iv].
      * split; [|exact L3]. rewrite L2. split.
        -- intros (pre & w & post & -> & O & A). exists (u :: pre), w, post. split; [reflexivity|]. split; [exact O|]. intros v [<-|Iv]; [exact Ou|apply A, Iv].
        -- intros ([|v pre] & w & post & Q & O & A); cbn [app] in Q; injection Q as -> ->; [exfalso; apply O2 in O; discriminate|].
           exists pre, w, post. split; [reflexivity|]. split; [exact O|]. intros z Iz. apply A. right. exact Iz.
    + split; [split; [discriminate|intros H; exfalso; specialize (H u (or_introl eq_refl)); apply O1 in H; discriminate]|].
      split; [|discriminate]. split; [discriminate|]. intros ([|v pre] & w & post & Q & O & A); cbn [app] in Q; injection Q as -> ->; exfalso; [apply O2 in O; discriminate|].
      specialize (A v (or_introl eq_refl)). apply O1 in A. discriminate.
    + split; [split; [discriminate|intros H; exfalso; specialize (H u (or_introl eq_refl)); apply O1 in H; discriminate]|].
      split; [|discriminate]. split; [|reflexivity]. intros _. exists [], u, l. split; [reflexivity|]. split; [apply O2; reflexivity|intros v []].
    + contradiction.
Qed.

Definition pk (xp : N * parent_node) : bytes := pn_encryption_key (snd xp).
Lemma check_parents_panic t n : forall l i eks, i + tlen l <= 4294967296 -> NoDup eks ->
  (forall x p, In (x, p) (parents_from i l) -> check_unmerged t n x (pn_unmerged p) <> Hang) ->
  (check_parents t n i eks l = Panic <-> exists a x p b, parents_from i l = (a ++ (x, p) :: b)%list /\
     (forall y q, In (y, q) a -> check_unmerged t n y (pn_unmerged q) = Ok tt) /\ NoDup (rev (map pk a) ++ eks) /\ check_unmerged t n x (pn_unmerged p) = Panic) /\
  check_parents t n i eks l <> Hang.
Proof.
  induction l as [|nd l IH]; intros i eks L ND NH; cbn [check_parents parents_from].
  - split; [|discriminate]. split; [discriminate|]. intros (a & x & p & b & Q & _). destruct a; discriminate Q.
  - assert (TL : tlen (nd :: l) = tlen l + 1) by (unfold tlen; cbn [length]; lia). rewrite TL in L.
    destruct nd as [[lf|q]|]; [apply IH; [lia|exact ND|exact NH]| |apply IH; [lia|exact ND|exact NH]].
    rewrite N.mod_small by lia. cbn [parents_from] in NH.
    destruct (check_unmerged t n i (pn_unmerged q)) as [[]|e| |] eqn:C; cbn [bind].
    + destruct (mem bytes_eqb (pn_encryption_key q) eks) eqn:M.
      * split; [|discriminate]. split; [discriminate|]. intros (a & x & p & b & Q & A & N1 & Z). destruct a as [|[y q'] a]; cbn [app] in Q; injection Q as <- <- Q.
        -- congruence.
        -- cbn [map rev pk snd] in N1. rewrite <- app_assoc in N1. cbn [app] in N1. apply NoDup_remove_2 in N1. exfalso. apply N1, in_or_app. right. apply (mem_in _ bytes_eqb_eq), M.
      * assert (NI : ~ In (pn_encryption_key q) eks) by (intros X; apply (mem_in _ bytes_eqb_eq) in X; congruence).
        destruct (IH (i + 1) (pn_encryption_key q :: eks)) as [I1 I2]; [lia|constructor; assumption|intros x p I; apply NH; right; exact I|]. split; [|exact I2]. rewrite I1. split.
        -- intros (a & x & p & b & -> & A & N1 & Z). exists ((i, q) :: a), x, p, b. split; [reflexivity|]. split; [intros y q' [Q|I]; [injection Q as <- <-; exact C|apply A, I]|].
           split; [|exact Z]. cbn [map rev pk snd]. rewrite <- app_assoc. exact N1.
        -- intros (a & x & p & b & Q & A & N1 & Z). destruct a as [|[y q'] a]; cbn [app] in Q; injection Q as <- <- Q; [congruence|].
           exists a, x, p, b. split; [exact Q|]. split; [intros; apply A; right; assumption|]. split; [|exact Z]. cbn [map rev pk snd] in N1. rewrite <- app_assoc in N1. exact N1.
    + split; [|discriminate]. split; [discriminate|]. intros (a & x & p & b & Q & A & _ & Z). destruct a as [|[y q'] a]; cbn [app] in Q; injection Q as <- <- Q; [congruence|].
      rewrite (A i q (or_introl eq_refl)) in C. discriminate.
    + split; [|discriminate]. split; [|reflexivity]. intros _. exists [], i, q, (parents_from (i + 1) l). split; [reflexivity|]. split; [intros ? ? []|]. split; [exact ND|exact C].
    + exfalso. apply (NH i q (or_introl eq_refl) C).
Qed.

Lemma parents_sorted l : forall i, StronglySorted N.lt (map fst (parents_from i l)).
Proof.
  induction l as [|nd l IH]; intros i; cbn [parents_from]; [constructor|]. destruct nd as [[lf|q]|]; try apply IH. cbn [map fst]. constructor; [apply IH|].
  apply Forall_forall. intros y I. apply in_map_iff in I as ([z p] & <- & I). apply parents_in in I. cbn [fst]. lia.
Qed.
Lemma sorted_split (a b : list (N * parent_node)) x p : StronglySorted N.lt (map fst (a ++ (x, p) :: b)) -> forall y q,
  In (y, q) a <-> In (y, q) (a ++ (x, p) :: b) /\ y < x.
Proof.
  induction a as [|[z r] a IH]; cbn [app map fst]; intros S y q; inversion S as [|? ? S' F]; subst; rewrite Forall_forall in F.
  - split; [intros []|]. intros [[Q|I] L]; [injection Q as <- <-; lia|]. specialize (F y (in_map fst _ _ I)). lia.
  - split.
    + intros [Q|I]; [injection Q as <- <-; split; [left; reflexivity|]|].
      * apply F. apply in_map_iff. exists (x, p). split; [reflexivity|]. apply in_or_app. right. left. reflexivity.
      * apply (IH S') in I as [I L]. split; [right; exact I|exact L].
    + intros [[Q|I] L]; [left; exact Q|right; apply (IH S'); auto].
Qed.
Lemma parents_split t x p : tget t x = Some (Parent p) -> exists a b, parents_from 0 t = (a ++ (x, p) :: b)%list.
Proof. intros T. apply in_split. apply parents_in. rewrite N.sub_0_r. split; [lia|exact T]. Qed.

Lemma keys_nodup_before t d x a ls : usized t d ->
  (forall i p, tget t (2 * i) <> Some (Parent p)) -> (forall k j l, tget t (node_at (k + 1) j) <> Some (Leaf l)) ->
  StronglySorted N.lt (map fst ls) -> (forall i l, In (i, l) ls <-> leaf_at t i = Some l) -> NoDup a -> (forall y q, In (y, q) a <-> tget t y = Some (Parent q) /\ y < x) ->
  (NoDup (rev (map pk a) ++ rev (map ek_of ls)) <->
   forall y y' n n', tget t y = Some n -> tget t y' = Some n' -> seen_before x y n -> seen_before x y' n' -> node_key n = node_key n' -> y = y').
Proof.
  intros U K1 K2 S M NA PI.
  assert (LI : forall x l, tget t x = Some (Leaf l) -> exists i, x = 2 * i /\ In (i, l) ls).
  { intros y l T. destruct (node_decomp y) as (k & j & ->). destruct (N.eq_dec k 0) as [->|Q].
    - rewrite node_at_leaf in *. exists j. split; [reflexivity|]. apply M. unfold leaf_at. rewrite T. reflexivity.
    - exfalso. replace k with (k - 1 + 1) in T by lia. eapply K2. exact T. }
  assert (LT : forall i l, In (i, l) ls -> tget t (2 * i) = Some (Leaf l)).
  { intros i l I. apply M in I. unfold leaf_at in I. destruct (tget t (2 * i)) as [[l0|p]|]; try discriminate. congruence. }
  assert (PB : forall y q, tget t y = Some (Parent q) -> seen_before x y (Parent q) -> In (y, q) a).
  { intros y q T [[l Q]|L]; [discriminate Q|]. apply PI. auto. }
  pose proof (NoDup_map_inj pk a NA) as NP. pose proof (NoDup_map_inj ek_of ls (sorted_pairs_nodup ls S)) as NL. split.
  - intros ND y y' n n' T T' B B' E. rewrite <- rev_app_distr in ND. apply NoDup_rev in ND. rewrite rev_involutive in ND.
    assert (A : NoDup (map ek_of ls) /\ NoDup (map pk a) /\ forall b, In b (map ek_of ls) -> In b (map pk a) -> False).
    { clear - ND. induction (map ek_of ls) as [|e l IH]; [split; [constructor|]; split; [exact ND|intros b []]|]. cbn [app] in ND. inversion ND as [|? ? NI ND']; subst.
      destruct (IH ND') as (B & C & D). split; [constructor; [|exact B]|split; [exact C|]].
      - intros I. apply NI, in_or_app. auto.
      - intros b [<-|I] J; [apply NI, in_or_app; auto|eapply D; eassumption]. }
    destruct A as (A & C & D). rewrite NL in A. rewrite NP in C. destruct n as [l|p], n' as [l'|p'].
    + destruct (LI _ _ T) as (i & -> & I). destruct (LI _ _ T') as (i' & -> & I'). pose proof (A (i, l) (i', l') I I' E) as Q. congruence.
    + exfalso. destruct (LI _ _ T) as (i & -> & I). apply (D (pn_encryption_key p')); [|apply (in_map pk _ (y', p')), PB; assumption]. cbn [node_key] in E. rewrite <- E. apply (in_map ek_of _ (i, l)), I.
    + exfalso. destruct (LI _ _ T') as (i & -> & I). apply (D (pn_encryption_key p)); [|apply (in_map pk _ (y, p)), PB; assumption]. cbn [node_key] in E. rewrite E. apply (in_map ek_of _ (i, l')), I.
    + pose proof (C (y, p) (y', p') (PB _ _ T B) (PB _ _ T' B') E) as Q. congruence.
  - intros H. rewrite <- rev_app_distr. apply NoDup_rev. apply NoDup_app_disj.
    + apply NL. intros [i l] [i' l'] I I' E. pose proof (H _ _ _ _ (LT _ _ I) (LT _ _ I') (or_introl (ex_intro _ l eq_refl)) (or_introl (ex_intro _ l' eq_refl)) E) as Q. assert (i = i') by lia. subst i'. apply M in I, I'. congruence.
    + apply NP. intros [y p] [y' p'] I I' E. apply PI in I as [I B], I' as [I' B']. pose proof (H _ _ _ _ I I' (or_intror B) (or_intror B') E). congruence.
    + intros b I I'. apply in_map_iff in I as ([i l] & <- & I). apply in_map_iff in I' as ([y p] & E & I'). apply PI in I' as [I' B]. pose proof (LT _ _ I) as T.
      pose proof (H y (2 * i) _ _ I' T (or_intror B) (or_introl (ex_intro _ l eq_refl)) E) as Q. rewrite Q in I'. eapply K1. exact I'.
Qed.


(** ** Resolving *)
Lemma node_indices_cases l : (exists u, In u l /\ 2147483648 <= u) /\ node_indices l = Panic \/ (forall u, In u l -> u < 2147483648) /\ node_indices l = Ok (map (fun u => 2 * u) l).
Proof.
  induction l as [|u l IH]; cbn [node_indices]; [right; split; [intros u []|reflexivity]|].
  unfold node_index, mul32, u32_max. destruct (N.leb_spec (2 * u) 4294967295); cbn [bind]; [|left; split; [exists u; split; [left; reflexivity|lia]|reflexivity]].
  destruct IH as [[(v & I & B) E]|[B E]]; rewrite E; cbn [bind]; [left; split; [exists v; split; [right; exact I|exact B]|reflexivity]|].
  right. split; [intros v [<-|I]; [lia|apply B, I]|reflexivity].
Qed.
Lemma reached_filled t k j q n : reached t k j q -> tget t (node_at k j) = Some n -> n = Parent q.
Proof. intros R T. inversion R; subst; congruence. Qed.
Lemma overlong_parent t k j p : tget t (node_at k j) = Some (Parent p) -> (overlong t k j <-> exists u, In u (pn_unmerged p) /\ 2147483648 <= u).
Proof.
  intros T. split.
  - intros (q & u & R & I & B). pose proof (reached_filled _ _ _ _ _ R T) as Q. injection Q as <-. eauto.
  - intros (u & I & B). exists p, u. split; [apply reached_here, T|auto].
Qed.
Lemma overlong_leaf t k j l : tget t (node_at k j) = Some (Leaf l) -> ~ overlong t k j.
Proof. intros T (q & u & R & _). pose proof (reached_filled _ _ _ _ _ R T) as Q. discriminate Q. Qed.
Lemma overlong_bottom t j : tget t (node_at 0 j) = None -> ~ overlong t 0 j.
Proof. intros T (q & u & R & _). inversion R; subst; [congruence|lia|lia]. Qed.
Lemma overlong_blank t k j : tget t (node_at (k + 1) j) = None -> (overlong t (k + 1) j <-> overlong t k (2 * j) \/ overlong t k (2 * j + 1)).
Proof.
  intros T. split.
  - intros (q & u & R & I & B). inversion R as [? ? ? X|k' ? ? _ X Q|k' ? ? _ X Q]; subst; [congruence| |]; (assert (k' = k) by lia; subst k'); [left|right]; exists q, u; auto.
  - intros [(q & u & R & I & B)|(q & u & R & I & B)]; exists q, u; (split; [|auto]); [apply reached_left|apply reached_right]; assumption.
Qed.
Lemma resolve_f_cases t : forall k fuel j, (k <= 31)%nat -> (k <= fuel)%nat ->
  overlong t (N.of_nat k) j /\ resolve_f fuel t (node_at (N.of_nat k) j) = Panic \/
  ~ overlong t (N.of_nat k) j /\ resolve_f fuel t (node_at (N.of_nat k) j) = Ok (resolution t k j).
Proof.
  induction k as [|k IH]; intros fuel j Hk Hf.
  - assert (Z : overlong t 0 j /\ resolve_f fuel t (node_at 0 j) = Panic \/ ~ overlong t 0 j /\ resolve_f fuel t (node_at 0 j) = Ok (resolution t 0 j)); [|exact Z].
    destruct fuel; cbn [resolve_f resolution]; change (N.of_nat 0) with 0; destruct (tget t (node_at 0 j)) as [[l|p]|] eqn:G;
      try (right; split; [exact (overlong_leaf t _ _ _ G)|reflexivity]);
      try (rewrite TreeMathProofs.children_leaf; right; split; [exact (overlong_bottom t _ G)|reflexivity]);
      rewrite (overlong_parent t _ _ _ G); (destruct (node_indices_cases (pn_unmerged p)) as [[B E]|[B E]]; rewrite E; cbn [bind]; [left; auto|right; split; [|reflexivity]; intros (u & I & X); specialize (B u I); lia]).
  - destruct fuel as [|fuel]; [lia|]. cbn [resolve_f resolution]. destruct (tget t (node_at (N.of_nat (S k)) j)) as [[l|p]|] eqn:G.
    + right. split; [exact (overlong_leaf t _ _ _ G)|reflexivity].
    + rewrite (overlong_parent t _ _ _ G). destruct (node_indices_cases (pn_unmerged p)) as [[B E]|[B E]]; rewrite E; cbn [bind]; [left; auto|right; split; [|reflexivity]; intros (u & I & X); specialize (B u I); lia].
    + replace (N.of_nat (S k)) with (N.of_nat k + 1) in * by lia. rewrite children_node by lia. cbn [bind]. rewrite (overlong_blank t _ _ G).
      destruct (IH fuel (2 * j) ltac:(lia) ltac:(lia)) as [[A ->]|[A ->]]; cbn [bind]; [left; auto|].
      destruct (IH fuel (2 * j + 1) ltac:(lia) ltac:(lia)) as [[B ->]|[B ->]]; cbn [bind]; [left; auto|]. right. split; [tauto|reflexivity].
Qed.
Lemma resolve_cases t k j : k <= 31 -> overlong t k j /\ resolve t (node_at k j) = Panic \/ ~ overlong t k j /\ resolve t (node_at k j) = Ok (resolution t (N.to_nat k) j).
Proof. intros H. unfold resolve. pose proof (resolve_f_cases t (N.to_nat k) 33 j ltac:(lia) ltac:(lia)) as Q. rewrite N2Nat.id in Q. exact Q. Qed.

(** ** One parent hash *)
Definition computed (P : provider) (cs : cipher_suite) (t : tree) (k j : N) (p : parent_node) : Prop := exists lh rh lph rph,
  tree_hash P cs t (node_at k (2 * j)) (pn_unmerged p) = Ok lh /\ tree_hash P cs t (node_at k (2 * j + 1)) (pn_unmerged p) = Ok rh /\
  parent_hash P cs p rh = Ok lph /\ parent_hash P cs p lh = Ok rph.
Definition fits (t : tree) (k j : N) : Prop := ~ overlong t k (2 * j) /\ ~ overlong t k (2 * j + 1).
Lemma check_hash_cases P cs t k j p : steady P cs -> k < 31 ->
  (check_parent_hash P cs t (node_at (k + 1) j) (Some (Parent p)) = Ok true <-> hash_valid P cs t k j p /\ fits t k j) /\
  (check_parent_hash P cs t (node_at (k + 1) j) (Some (Parent p)) = Panic <-> computed P cs t k j p /\ (overlong t k (2 * j) \/ overlong t k (2 * j + 1))) /\
  (forall e, check_parent_hash P cs t (node_at (k + 1) j) (Some (Parent p)) <> Err e) /\ check_parent_hash P cs t (node_at (k + 1) j) (Some (Parent p)) <> Hang.
Proof.
  intros H L. unfold check_parent_hash, hash_valid, computed, fits. rewrite children_node by exact L. cbn [bind].
  destruct (r_tree_hash P cs t k (2 * j) (pn_unmerged p) H ltac:(lia)) as [[lh El]|[e El]]; rewrite El; cbn [ok_or_false].
  2:{ split; [split; [discriminate|intros [(? & ? & ? & ? & Q & _) _]; discriminate]|]. split; [split; [discriminate|intros [(? & ? & ? & ? & Q & _) _]; discriminate]|]. split; discriminate. }
  destruct (r_tree_hash P cs t k (2 * j + 1) (pn_unmerged p) H ltac:(lia)) as [[rh Er]|[e Er]]; rewrite Er; cbn [ok_or_false].
  2:{ split; [split; [discriminate|intros [(? & ? & ? & ? & _ & Q & _) _]; discriminate]|]. split; [split; [discriminate|intros [(? & ? & ? & ? & _ & Q & _) _]; discriminate]|]. split; discriminate. }
  destruct (r_parent_hash P cs p rh H) as [[lph E1]|[e E1]]; rewrite E1; cbn [ok_or_false].
  2:{ split; [split; [discriminate|intros [(? & ? & ? & ? & _ & Q & Q' & _) _]; injection Q as <-; congruence]|].
      split; [split; [discriminate|intros [(? & ? & ? & ? & _ & Q & Q' & _) _]; injection Q as <-; congruence]|]. split; discriminate. }
  destruct (r_parent_hash P cs p lh H) as [[rph E2]|[e E2]]; rewrite E2; cbn [ok_or_false].
  2:{ split; [split; [discriminate|intros [(? & ? & ? & ? & Q & _ & _ & Q' & _) _]; injection Q as <-; congruence]|].
      split; [split; [discriminate|intros [(? & ? & ? & ? & Q & _ & _ & Q') _]; injection Q as <-; congruence]|]. split; discriminate. }
  assert (C : exists lh0 rh0 lph0 rph0, Ok lh = Ok lh0 /\ Ok rh = Ok rh0 /\ parent_hash P cs p rh0 = Ok lph0 /\ parent_hash P cs p lh0 = Ok rph0).
  { exists lh, rh, lph, rph. auto. }
  destruct (resolve_cases t k (2 * j) ltac:(lia)) as [[A EA]|[A EA]]; rewrite EA; cbn [bind]; [split; [split; [discriminate|tauto]|]; split; [split; [auto|reflexivity]|]; split; discriminate|].
  destruct (resolve_cases t k (2 * j + 1) ltac:(lia)) as [[B EB]|[B EB]]; rewrite EB; cbn [bind]; [split; [split; [discriminate|tauto]|]; split; [split; [auto|reflexivity]|]; split; discriminate|].
  pose proof (bool_xor _ _ _ _ (find_parent_hash_iff t (resolution t (N.to_nat k) (2 * j)) lph) (find_parent_hash_iff t (resolution t (N.to_nat k) (2 * j + 1)) rph)) as X.
  split; [|split; [split; [discriminate|tauto]|split; discriminate]]. split.
  - intros E. apply Ok_inj in E. split; [|auto]. exists lh, rh, lph, rph. repeat (split; [assumption || reflexivity|]). apply X, E.
  - intros [(lh' & rh' & lph' & rph' & Q1 & Q2 & Q3 & Q4 & Y) _]. injection Q1 as <-. injection Q2 as <-. rewrite E1 in Q3. rewrite E2 in Q4. injection Q3 as <-. injection Q4 as <-. f_equal. apply X, Y.
Qed.

(** ** All parent hashes *)
Lemma verify_hashes_cases P cs t : forall l i, i + tlen l <= 4294967296 ->
  (forall x, x < tlen l -> (forall e, check_parent_hash P cs t (i + x) (tget l x) <> Err e) /\ check_parent_hash P cs t (i + x) (tget l x) <> Hang) ->
  (verify_parent_hashes_from P cs t i l = Panic <-> exists x, x < tlen l /\ check_parent_hash P cs t (i + x) (tget l x) = Panic /\
     forall y, y < x -> check_parent_hash P cs t (i + y) (tget l y) = Ok true) /\
  (forall e, verify_parent_hashes_from P cs t i l <> Err e) /\ verify_parent_hashes_from P cs t i l <> Hang.
Proof.
  induction l as [|nd l IH]; intros i L R; cbn [verify_parent_hashes_from].
  - split; [|split; discriminate]. split; [discriminate|]. intros (x & Lx & _). cbn in Lx. lia.
  - assert (TL : tlen (nd :: l) = tlen l + 1) by (unfold tlen; cbn [length]; lia). rewrite TL in *. rewrite N.mod_small by lia.
    assert (Sh : forall x, 0 < x -> check_parent_hash P cs t (i + x) (tget (nd :: l) x) = check_parent_hash P cs t (i + 1 + (x - 1)) (tget l (x - 1))).
    { intros x Px. replace (i + 1 + (x - 1)) with (i + x) by lia. f_equal. replace x with (x - 1 + 1) at 1 by lia. apply tget_S. }
    destruct (R 0 ltac:(lia)) as [R1 R2]. rewrite N.add_0_r, tget_0 in R1, R2.
    destruct (IH (i + 1) ltac:(lia)) as (I1 & I2 & I3).
    { intros x Lx. specialize (R (x + 1) ltac:(lia)). rewrite Sh in R by lia. replace (x + 1 - 1) with x in R by lia. exact R. }
    destruct (check_parent_hash P cs t i nd) as [[]|e| |] eqn:C; cbn [bind].
    + split; [|auto]. rewrite I1. split.
      * intros (x & Lx & Z & A). exists (x + 1). split; [lia|]. rewrite Sh by lia. replace (x + 1 - 1) with x by lia. split; [exact Z|]. intros y Ly.
        destruct (N.eq_dec y 0) as [->|]; [rewrite N.add_0_r; exact C|]. rewrite Sh by lia. apply A. lia.
      * intros (x & Lx & Z & A). destruct (N.eq_dec x 0) as [->|Nx]; [rewrite N.add_0_r, tget_0 in Z; congruence|]. exists (x - 1). split; [lia|]. rewrite Sh in Z by lia. split; [exact Z|].
        intros y Ly. specialize (A (y + 1) ltac:(lia)). rewrite Sh in A by lia. replace (y + 1 - 1) with y in A by lia. exact A.
    + split; [|split; discriminate]. split; [discriminate|]. intros (x & Lx & Z & A). destruct (N.eq_dec x 0) as [->|Nx]; [rewrite N.add_0_r, tget_0 in Z; congruence|].
      specialize (A 0 ltac:(lia)). rewrite N.add_0_r, tget_0 in A. congruence.
    + exfalso. exact (R1 e eq_refl).
    + split; [|split; discriminate]. split; [|reflexivity]. intros _. exists 0. split; [lia|]. rewrite N.add_0_r, tget_0. split; [exact C|]. intros y Ly. lia.
    + exfalso. exact (R2 eq_refl).
Qed.

Lemma c24_panics P t ctx now d : steady P (gc_suite ctx) -> tsized t d -> tlen t < 4294967296 -> (forall x nd, tget t x = Some nd -> in_tree d x) ->
  (verify_integrity P t ctx now = Panic <-> (exists k j p, overflows P t ctx k j p) \/ (exists x p pre u, crashes P t ctx now d x p pre u)) /\ verify_integrity P t ctx now <> Hang.
Proof.
  intros H S L IN. pose proof (small_usized t d S L) as U. pose proof (usized_31 t d U) as Hd. pose proof (usized_leaves t d U) as NLv.
  destruct (leaves_ok t d U) as (ls & EL & SL & ML). destruct (supported_total t d U) as (ls' & creds & EL' & EC & _).
  assert (PI : forall x p, In (x, p) (parents_from 0 t) <-> tget t x = Some (Parent p)).
  { intros x p. rewrite parents_in, N.sub_0_r. split; [intros [_ Q]; exact Q|intros Q; split; [lia|exact Q]]. }
  assert (HC : (forall k j l, tget t (node_at (k + 1) j) <> Some (Leaf l)) -> forall x, x < tlen t ->
     check_parent_hash P (gc_suite ctx) t x (tget t x) = Ok true /\ (forall k j p, x = node_at (k + 1) j -> tget t x <> Some (Parent p)) \/
     exists k j p, k < 31 /\ x = node_at (k + 1) j /\ tget t x = Some (Parent p)).
  { intros K2 x Lx. destruct (tget t x) as [nd|] eqn:T; [|left; split; [reflexivity|discriminate]]. destruct (node_decomp x) as (k & j & ->). destruct (N.eq_dec k 0) as [->|Z].
    - left. split; [rewrite node_at_leaf; unfold check_parent_hash; rewrite Verified.children_leaf; reflexivity|]. intros k j' p Q. apply node_at_inj in Q as [Q _]. lia.
    - right. replace k with (k - 1 + 1) in * by lia. destruct nd as [l|p]; [exfalso; eapply K2, T|]. pose proof (in_tree_level _ _ _ (IN _ _ T)). exists (k - 1), j, p. split; [lia|]. auto. }
  assert (TX : forall x nd, tget t x = Some nd -> x < tlen t).
  { intros x nd T. destruct (N.lt_ge_cases x (tlen t)); [assumption|rewrite tget_beyond in T by assumption; discriminate]. }
  assert (CV : (forall k j l, tget t (node_at (k + 1) j) <> Some (Leaf l)) -> forall n, n <= tlen t ->
     ((forall x, x < n -> check_parent_hash P (gc_suite ctx) t x (tget t x) = Ok true) <->
      forall k j p, node_at (k + 1) j < n -> tget t (node_at (k + 1) j) = Some (Parent p) -> hash_valid P (gc_suite ctx) t k j p /\ fits t k j)).
  { intros K2 n Ln. split; intros Q.
    - intros k j p Lx T. pose proof (in_tree_level _ _ _ (IN _ _ T)). specialize (Q _ Lx). rewrite T in Q. apply check_hash_cases in Q; [exact Q|exact H|lia].
    - intros x Lx. destruct (HC K2 x ltac:(lia)) as [[Z _]|(k & j & p & Lk & -> & T)]; [exact Z|]. rewrite T. apply check_hash_cases; [exact H|exact Lk|]. apply Q; assumption. }
  assert (HV : (forall k j l, tget t (node_at (k + 1) j) <> Some (Leaf l)) ->
     (verify_parent_hashes P (gc_suite ctx) t = Ok true <-> forall k j p, tget t (node_at (k + 1) j) = Some (Parent p) -> hash_valid P (gc_suite ctx) t k j p /\ fits t k j) /\
     (verify_parent_hashes P (gc_suite ctx) t = Panic <-> exists k j p, tget t (node_at (k + 1) j) = Some (Parent p) /\ computed P (gc_suite ctx) t k j p /\
        (overlong t k (2 * j) \/ overlong t k (2 * j + 1)) /\
        forall k' j' q, node_at (k' + 1) j' < node_at (k + 1) j -> tget t (node_at (k' + 1) j') = Some (Parent q) -> hash_valid P (gc_suite ctx) t k' j' q /\ fits t k' j') /\
     (forall e, verify_parent_hashes P (gc_suite ctx) t <> Err e) /\ verify_parent_hashes P (gc_suite ctx) t <> Hang).
  { intros K2. unfold verify_parent_hashes. split.
    - rewrite verify_hashes_iff by lia. pose proof (CV K2 (tlen t) (N.le_refl _)) as [Q1 Q2]. split; intros Y.
      + intros k j p T. apply Q1; [|eapply TX, T|exact T]. intros x Lx. specialize (Y x Lx). rewrite N.add_0_l in Y. exact Y.
      + intros x Lx. rewrite N.add_0_l. apply Q2; [|exact Lx]. intros k j p _. apply Y.
    - destruct (verify_hashes_cases P (gc_suite ctx) t t 0) as (V1 & V2 & V3); [lia| |].
      { intros x Lx. rewrite N.add_0_l. destruct (HC K2 x Lx) as [[Z _]|(k & j & p & Lk & -> & T)]; [rewrite Z; split; discriminate|]. rewrite T. apply check_hash_cases; assumption. }
      split; [|auto]. rewrite V1. split.
      + intros (x & Lx & Z & A). rewrite N.add_0_l in Z. destruct (HC K2 x Lx) as [[Z' _]|(k & j & p & Lk & -> & T)]; [congruence|]. rewrite T in Z. apply check_hash_cases in Z as [C O]; [|exact H|exact Lk].
        exists k, j, p. split; [exact T|]. split; [exact C|]. split; [exact O|]. apply (CV K2 (node_at (k + 1) j)); [apply N.lt_le_incl; exact Lx|]. intros y Ly. specialize (A y Ly). rewrite N.add_0_l in A. exact A.
      + intros (k & j & p & T & C & O & A). exists (node_at (k + 1) j). pose proof (TX _ _ T) as Lx. split; [exact Lx|]. split; [|intros y Ly; rewrite N.add_0_l; revert y Ly; apply (CV K2 (node_at (k + 1) j)); [apply N.lt_le_incl; exact Lx|exact A]].
        rewrite N.add_0_l, T. pose proof (in_tree_level _ _ _ (IN _ _ T)). apply check_hash_cases; [exact H|lia|auto]. }
  assert (CL : forall x p, tget t x = Some (Parent p) ->
     (check_unmerged t (num_leaves t) x (pn_unmerged p) = Ok tt <-> forall u, In u (pn_unmerged p) -> unmerged_leaf_ok t x u) /\
     (check_unmerged t (num_leaves t) x (pn_unmerged p) = Panic <-> exists pre u post, pn_unmerged p = (pre ++ u :: post)%list /\ 2 ^ d <= u /\ forall v, In v pre -> unmerged_leaf_ok t x v) /\
     check_unmerged t (num_leaves t) x (pn_unmerged p) <> Hang).
  { intros x p T. rewrite NLv. destruct (node_decomp x) as (k & j & ->). apply check_list; [exact Hd|eapply IN, T|exact IN]. }
  assert (NH : forall x p, In (x, p) (parents_from 0 t) -> check_unmerged t (num_leaves t) x (pn_unmerged p) <> Hang) by (intros x p I; apply CL, PI, I).
  assert (SP : forall x p a b, parents_from 0 t = (a ++ (x, p) :: b)%list -> NoDup a /\ forall y q, In (y, q) a <-> tget t y = Some (Parent q) /\ y < x).
  { intros x p a b Q. pose proof (parents_sorted t 0) as W. rewrite Q in W. split.
    - pose proof (parents_nodup t 0) as N0. rewrite Q in N0. clear - N0. induction a as [|z a IH]; [constructor|]. cbn [app] in N0. inversion N0 as [|? ? NI N1]; subst. constructor; [intros I; apply NI, in_or_app; auto|apply IH, N1].
    - intros y q. rewrite (sorted_split a b x p W), <- Q, PI. reflexivity. }
  assert (RH : returns (root_tree_hash P (gc_suite ctx) t)) by (eapply r_root_hash; [exact H|exact U]).
  unfold verify_integrity. destruct RH as [[h Eh]|[e Eh]]; rewrite Eh; cbn [bind].
  2:{ split; [|discriminate]. split; [discriminate|]. intros [(k & j & p & C)|(x & p & pre & u & C)]; [pose proof (ov_hash _ _ _ _ _ _ C)|pose proof (cr_hash _ _ _ _ _ _ _ _ _ C)]; congruence. }
  destruct (negb (bytes_eqb h (gc_tree_hash ctx))) eqn:B.
  { split; [|discriminate]. split; [discriminate|]. intros W. assert (Q : root_tree_hash P (gc_suite ctx) t = Ok (gc_tree_hash ctx)).
    { destruct W as [(k & j & p & C)|(x & p & pre & u & C)]; [exact (ov_hash _ _ _ _ _ _ C)|exact (cr_hash _ _ _ _ _ _ _ _ _ C)]. }
    rewrite Eh in Q. injection Q as ->. rewrite (proj2 (bytes_eqb_eq _ _) eq_refl) in B. discriminate B. }
  apply Bool.negb_false_iff, bytes_eqb_eq in B. subst h. destruct (valid_kinds P _ t d _ U IN Eh) as [K1 K2]. destruct (HV K2) as (HV1 & HV2 & HV3 & HV4).
  assert (OV : (exists k j p, overflows P t ctx k j p) <-> verify_parent_hashes P (gc_suite ctx) t = Panic).
  { rewrite HV2. split.
    - intros (k & j & p & [V1 V2 V3 V4 V5]). exists k, j, p. split; [exact V3|]. split; [exact V4|]. split; [exact V5|exact V2].
    - intros (k & j & p & T & C & O & A). exists k, j, p. split; assumption. }
  assert (CR : forall x p pre u, crashes P t ctx now d x p pre u -> verify_parent_hashes P (gc_suite ctx) t = Ok true).
  { intros x p pre u C. apply HV1. intros k j q T. split; [exact (cr_parent_hashes _ _ _ _ _ _ _ _ _ C k j q T)|exact (cr_resolutions _ _ _ _ _ _ _ _ _ C k j q T)]. }
  rewrite OV. destruct (verify_parent_hashes P (gc_suite ctx) t) as [b|e| |] eqn:Ev; cbn [bind].
  2:{ exfalso. exact (HV3 e eq_refl). }
  2:{ split; [split; [left; reflexivity|reflexivity]|discriminate]. }
  2:{ exfalso. exact (HV4 eq_refl). }
  destruct b; cbn [negb].
  2:{ split; [|discriminate]. split; [discriminate|]. intros [Q|(x & p & pre & u & C)]; [discriminate Q|]. pose proof (CR _ _ _ _ C). congruence. }
  assert (OR : forall A : Prop, (@Ok bool true = Panic \/ A) <-> A) by (intros A; split; [intros [Q|Q]; [discriminate Q|exact Q]|auto]). rewrite OR.
  pose proof (proj1 HV1 eq_refl) as Ev'. clear Ev. rename Ev' into Ev. rewrite EC. cbn [bind]. rewrite EL. cbn [bind].
  pose proof (fun r => verify_leaves_iff P (gc_suite ctx) (gc_group_id ctx) creds now ls [] [] (NoDup_nil _) (NoDup_nil _) r) as VL.
  assert (LV : forall x p pre u, crashes P t ctx now d x p pre u -> verify_leaves P (gc_suite ctx) (gc_group_id ctx) creds now [] [] ls = Ok (rev (map sk_of ls), rev (map ek_of ls)) /\ NoDup (rev (map ek_of ls))).
  { intros x p pre u [V1 V2 V2' (creds' & EC' & V3) V4 V5 V6 V7 V8 V9 V10]. assert (creds' = creds) by congruence. subst creds'.
    destruct (parents_split t x p V7) as (a & b & Q). destruct (SP _ _ _ _ Q) as [NA PA].
    pose proof (proj2 (keys_nodup_before t d x a ls U K1 K2 SL ML NA PA) V5) as ND.
    assert (D2 : NoDup (rev (map ek_of ls))).
    { clear - ND. induction (rev (map pk a)) as [|z l IH]; [exact ND|]. cbn [app] in ND. inversion ND; auto. }
    assert (D1 : NoDup (rev (map sk_of ls))).
    { apply NoDup_rev. apply (NoDup_map_inj sk_of ls (sorted_pairs_nodup ls SL)). intros [i l] [i' l'] I I' Q'. apply ML in I, I'. pose proof (V4 _ _ _ _ I I' Q'). congruence. }
    split; [|exact D2]. apply VL. rewrite !app_nil_r. split; [reflexivity|]. split; [|auto]. intros i l I. apply V3, ML, I. }
  destruct (r_verify_leaves P (gc_suite ctx) (gc_group_id ctx) creds now ls H [] []) as [[[sks eks] Vl]|[e Vl]]; rewrite Vl; cbn [bind].
  2:{ split; [|discriminate]. split; [discriminate|]. intros (x & p & pre & u & C). destruct (LV _ _ _ _ C) as [Q _]. congruence. }
  apply VL in Vl. destruct Vl as (Q & VLs & D1 & D2). rewrite !app_nil_r in *. injection Q as -> ->.
  destruct (check_parents_panic t (num_leaves t) t 0 (rev (map ek_of ls))) as [CP1 CP2]; [lia|exact D2|exact NH|]. split; [|exact CP2]. rewrite CP1. split.
  - intros (a & x & p & b & Q & A & ND & Z). destruct (SP _ _ _ _ Q) as [NA PA].
    assert (T : tget t x = Some (Parent p)) by (apply PI; rewrite Q; apply in_or_app; right; left; reflexivity).
    destruct (CL x p T) as (_ & CLP & _). apply CLP in Z as (pre & u & post & Ql & O & Pre). exists x, p, pre, u. split.
    + exact Eh.
    + intros k j q Tq. apply (Ev k j q Tq).
    + intros k j q Tq. apply (Ev k j q Tq).
    + exists creds. split; [exact EC|]. intros i l Li. apply VLs, ML, Li.
    + intros i i' l l' Li Li' Q'. apply NoDup_rev in D1. rewrite rev_involutive in D1. rewrite (NoDup_map_inj sk_of ls (sorted_pairs_nodup ls SL)) in D1.
      pose proof (D1 (i, l) (i', l') (proj2 (ML _ _) Li) (proj2 (ML _ _) Li') Q') as R. congruence.
    + apply (keys_nodup_before t d x a ls U K1 K2 SL ML NA PA), ND.
    + intros y q v Ly Ty Iv. apply (proj1 (CL y q Ty)); [|exact Iv]. apply A, PA. auto.
    + exact T.
    + exists post. exact Ql.
    + exact Pre.
    + exact O.
  - intros (x & p & pre & u & [V1 V2 V2' V3 V4 V5 V6 V7 (post & V8) V9 V10]). destruct (parents_split t x p V7) as (a & b & Q). destruct (SP _ _ _ _ Q) as [NA PA].
    exists a, x, p, b. split; [exact Q|]. split.
    + intros y q I. apply PA in I as [Ty Ly]. apply (proj1 (CL y q Ty)). intros v Iv. exact (V6 y q v Ly Ty Iv).
    + split; [apply (keys_nodup_before t d x a ls U K1 K2 SL ML NA PA), V5|]. apply (CL x p V7). exists pre, u, post. auto.
Qed.

Lemma reached_in t k j q : reached t k j q -> exists x, tget t x = Some (Parent q).
Proof. induction 1; eauto. Qed.
Lemma c24_panics_small P t ctx now d : steady P (gc_suite ctx) -> tsized t d -> tlen t < 4294967296 -> (forall x nd, tget t x = Some nd -> in_tree d x) ->
  (forall x p u, tget t x = Some (Parent p) -> In u (pn_unmerged p) -> u < 2147483648) ->
  (verify_integrity P t ctx now = Panic <-> exists x p pre u, crashes P t ctx now d x p pre u).
Proof.
  intros H S L IN SU. rewrite (proj1 (c24_panics P t ctx now d H S L IN)). split; [|auto]. intros [(k & j & p & O)|C]; [exfalso|exact C].
  destruct (ov_here_overlong _ _ _ _ _ _ O) as [(q & u & R & I & B)|(q & u & R & I & B)]; apply reached_in in R as (x & T); specialize (SU x q u T I); lia.
Qed.

(** ** Example *)
Definition ex_wide : tree :=
  [Some (Leaf (ex_leaf x01)); None; Some (Leaf (ex_leaf x02)); Some (Parent (MkParentNode [x88] [] [])); Some (Leaf (ex_leaf x03));
   Some (Parent (MkParentNode [x77] [] [2147483648])); Some (Leaf (ex_leaf x04))].
Lemma ex_wide_overflows : verify_integrity toy ex_wide (ex_context ex_wide) (fun _ => 5000%Z) = Panic /\ exists p, overflows toy ex_wide (ex_context ex_wide) 1 0 p.
Proof.
  split; [vm_compute; reflexivity|]. exists (MkParentNode [x88] [] []). split.
  - vm_compute. reflexivity.
  - intros k j q Lx T. exfalso. change (node_at (1 + 1) 0) with 3 in Lx. set (x := node_at (k + 1) j) in *. clearbody x.
    assert (C : x = 0 \/ x = 1 \/ x = 2) by lia. destruct C as [-> |[-> | ->]]; discriminate T.
  - reflexivity.
  - eexists _, _, _, _. split; [vm_compute; reflexivity|]. split; [vm_compute; reflexivity|]. split; vm_compute; reflexivity.
  - right. exists (MkParentNode [x77] [] [2147483648]), 2147483648. split; [apply reached_here; reflexivity|]. split; [left; reflexivity|]. lia.
Qed.
