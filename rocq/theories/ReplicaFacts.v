(** The same operations on a tree and on the tree as it was received. *)
From Coq Require Import ZifyBool ZifyNat ZifyN.
From Verif Require Import CodecLib WireCodecs CodecFacts TreeMore TreeHash TreePaths Merge Verified TreeInv TreeFacts HashFacts MemberFacts BuildFacts Examples.
From Verif Require Import SpecJoin JoinFacts.
Local Open Scope N_scope.

(** ** Functions that only look at nodes *)

Lemma resolve_f_same t t' : same_tree t t' -> forall f x, resolve_f f t' x = resolve_f f t x.
Proof.
  intros Q. induction f as [|f IH]; intros x; cbn [resolve_f]; rewrite Q; [reflexivity|]. destruct (tget t x) as [[l|p]|]; try reflexivity.
  destruct (children x) as [[[l r]|]|e| |]; cbn [bind]; try reflexivity. rewrite !IH. reflexivity.
Qed.
Lemma tree_hash_f_same t t' P cs : same_tree t t' -> forall f x excl, tree_hash_f f P cs t' x excl = tree_hash_f f P cs t x excl.
Proof.
  intros Q. induction f as [|f IH]; intros x excl; cbn [tree_hash_f]; rewrite Q; [reflexivity|]. f_equal. destruct (leaf_index x); [reflexivity|].
  destruct (children x) as [[[l r]|]|e| |]; cbn [bind]; try reflexivity. rewrite !IH. reflexivity.
Qed.
Lemma resolve_same t t' x : same_tree t t' -> resolve t' x = resolve t x.
Proof. intros Q. apply (resolve_f_same t t' Q). Qed.
Lemma filtered_path_f_same t t' n : same_tree t t' -> forall f x, filtered_path_f f t' n x = filtered_path_f f t n x.
Proof.
  intros Q. induction f as [|f IH]; intros x; cbn [filtered_path_f]; (destruct (parent n x) as [[p|]|e| |]; cbn [bind]; [|reflexivity..]);
    (destruct (sibling n x) as [[s|]|e| |]; cbn [bind]; [rewrite (resolve_same t t' s Q)|reflexivity..]).
  - reflexivity.
  - rewrite IH. reflexivity.
Qed.

(** ** One blank node more *)

Definition pad (t : tree) : tree := (t ++ [None])%list.
Lemma tget_pad t x : tget (pad t) x = tget t x.
Proof. apply (tget_app_blank t 1). Qed.
Lemma pad_same t : same_tree (pad t) t.
Proof. intros x. symmetry. apply tget_pad. Qed.
Lemma tlen_pad t : tlen (pad t) = tlen t + 1.
Proof. unfold tlen, pad. rewrite app_length. cbn [length]. lia. Qed.
Lemma tset_pad t x v : x < tlen t -> tset (pad t) x v = pad (tset t x v).
Proof.
  intros L. unfold tset. rewrite tlen_pad. destruct (N.ltb_spec x (tlen t + 1)); [|lia]. destruct (N.ltb_spec x (tlen t)); [|lia]. unfold pad, tlen in *.
  rewrite firstn_app, skipn_app. replace (N.to_nat x - length t)%nat with 0%nat by lia. replace (S (N.to_nat x) - length t)%nat with 0%nat by lia. cbn [firstn skipn].
  rewrite app_nil_r, <- app_assoc. reflexivity.
Qed.
Lemma fold_blank_pad path : forall t, (forall x, In x path -> x < tlen t) -> fold_left blank path (pad t) = pad (fold_left blank path t).
Proof.
  induction path as [|p path IH]; intros t L; cbn [fold_left]; [reflexivity|]. unfold blank at 2 4. rewrite tset_pad by (apply L; left; reflexivity).
  apply IH. intros x I. rewrite tlen_tset. apply L. right. exact I.
Qed.
Lemma push_pad li t p : p < tlen t -> push_unmerged li (pad t) p = pad (push_unmerged li t p).
Proof. intros L. unfold push_unmerged. rewrite tget_pad. destruct (tget t p) as [[l|q]|]; try reflexivity. apply tset_pad, L. Qed.
Lemma fold_push_pad li path : forall t, (forall x, In x path -> x < tlen t) -> fold_left (push_unmerged li) path (pad t) = pad (fold_left (push_unmerged li) path t).
Proof.
  induction path as [|p path IH]; intros t L; cbn [fold_left]; [reflexivity|]. rewrite push_pad by (apply L; left; reflexivity).
  apply IH. intros x I. rewrite push_len. apply L. right. exact I.
Qed.
Lemma set_keys_pad path : forall t nodes, (forall x, In x path -> x < tlen t) -> set_path_keys (pad t) path nodes = pad (set_path_keys t path nodes).
Proof.
  induction path as [|p path IH]; intros t [|u nodes] L; cbn [set_path_keys]; try reflexivity. rewrite tset_pad by (apply L; left; reflexivity).
  apply IH. intros x I. rewrite tlen_tset. apply L. right. exact I.
Qed.
Lemma set_keys_len path : forall t nodes, tlen (set_path_keys t path nodes) = tlen t.
Proof. induction path as [|p path IH]; intros t [|u nodes]; cbn [set_path_keys]; try reflexivity. rewrite IH. apply tlen_tset. Qed.
Lemma set_hashes_pad P cs direct s path : forall t prev, (forall x, In x path -> x < tlen t) ->
  set_parent_hashes P cs direct s (pad t) prev path = (let (t', r) := set_parent_hashes P cs direct s t prev path in (pad t', r)) /\ tlen (fst (set_parent_hashes P cs direct s t prev path)) = tlen t.
Proof.
  induction path as [|p path IH]; intros t prev L; cbn [set_parent_hashes]; [split; reflexivity|].
  assert (L' : forall x, In x path -> x < tlen t) by (intros x I; apply L; right; exact I). rewrite tget_pad.
  destruct (tget t p) as [[l|q]|]; [apply IH, L'| |apply IH, L']. destruct (children p) as [[[l r]|]|e| |]; try (split; reflexivity).
  unfold tree_hash. rewrite <- (tree_hash_f_same (pad t) t P cs (pad_same t)).
  destruct (tree_hash_f 33 P cs t (copath_child direct s l r) []) as [th|e| |]; try (split; reflexivity). rewrite tset_pad by (apply L; left; reflexivity).
  set (t1 := tset t p _). assert (T : tlen t1 = tlen t) by apply tlen_tset. destruct (parent_hash P cs _ th) as [h|e| |]; try (split; [reflexivity|exact T]).
  destruct (IH t1 (Some h)) as [A B]; [intros x I; rewrite T; apply L', I|]. split; [exact A|]. rewrite B. exact T.
Qed.

Section Twin.
  Variables (t : tree) (d : N).
  Hypotheses (F : full_size t d) (D : d <= 30).
  Lemma twin_usized : usized t d.
  Proof. left. split; [exact F|lia]. Qed.
  Lemma twin_cut : cut_size (pad t) d.
  Proof. red in F |- *. rewrite tlen_pad, F. pose proof (pow2_pos (d + 1)). lia. Qed.
  Lemma twin_pad_usized : usized (pad t) d.
  Proof. right. split; [exact twin_cut|exact D]. Qed.
  Lemma twin_leaves : num_leaves (pad t) = num_leaves t.
  Proof. rewrite (usized_leaves _ d twin_usized), (usized_leaves _ d twin_pad_usized). reflexivity. Qed.
  Lemma twin_path i x : i < 2 ^ d -> In x (up d i) -> x < tlen t.
  Proof. intros L I. apply in_up in I. apply (on_path_in d i x L) in I. red in I, F. rewrite F. exact I. Qed.
  Lemma twin_leaf i : i < 2 ^ d -> 2 * i < tlen t.
  Proof. intros L. exact (leaf_in_tlen t d i twin_usized L). Qed.

  Lemma twin_update i l : i < 2 ^ d -> exists t', tree_update t i l = Ok t' /\ tree_update (pad t) i l = Ok (pad t').
  Proof.
    intros L. unfold tree_update. rewrite (node_index_ok d i) by (eauto using usized_31; lia). cbn [bind]. rewrite tset_pad by (apply twin_leaf, L).
    set (t1 := tset t (2 * i) _). assert (T : tlen t1 = tlen t) by apply tlen_tset.
    assert (U1 : usized t1 d) by (eapply usized_same; [exact T|exact twin_usized]).
    assert (U2 : usized (pad t1) d) by (eapply usized_same; [|exact twin_pad_usized]; rewrite !tlen_pad, T; reflexivity).
    rewrite (climb_leaf t1 d i U1 L), (climb_leaf (pad t1) d i U2 L). cbn [bind]. eexists. split; [reflexivity|]. rewrite fold_blank_pad; [reflexivity|].
    intros x I. rewrite T. exact (twin_path i x L I).
  Qed.

  Lemma scan_twin (a : tree) : forall k lp lp',
    (scan_down k (pad a) lp = Ok (Some lp) /\ scan_down k a lp' = Ok (Some lp')) \/
    (exists q, q <= 2 * N.of_nat k /\ scan_down k (pad a) lp = Ok (Some q) /\ scan_down k a lp' = Ok (Some q)) \/
    (scan_down k (pad a) lp = Ok None /\ scan_down k a lp' = Ok None) \/ (scan_down k (pad a) lp = Panic /\ scan_down k a lp' = Panic).
  Proof.
    induction k as [|k IH]; intros lp lp'; cbn [scan_down]; rewrite ?tget_pad.
    { change (node_index (N.of_nat 0)) with (Ok 0). cbn [bind]. rewrite tget_pad. destruct (tget a 0); [left; split; reflexivity|right; right; left; split; reflexivity]. }
    destruct (node_index_cases (N.of_nat (S k))) as [->|[-> _]]; cbn [bind]; [right; right; right; split; reflexivity|].
    rewrite tget_pad. destruct (tget a (2 * N.of_nat (S k))); [left; split; reflexivity|].
    destruct (is_power_of_two (2 * N.of_nat (S k))) eqn:E.
    - destruct (IH (2 * N.of_nat (S k)) (2 * N.of_nat (S k))) as [[A B]|[(q & L & A & B)|C]].
      + right. left. exists (2 * N.of_nat (S k)). split; [lia|]. split; assumption.
      + right. left. exists q. split; [lia|]. split; assumption.
      + right. right. exact C.
    - destruct (IH lp lp') as [A|[(q & L & A & B)|C]]; [left; exact A|right; left; exists q; split; [lia|]; split; assumption|right; right; exact C].
  Qed.
  Lemma twin_remove i : i < 2 ^ d -> (exists t', tree_remove t i = Ok t' /\ (tree_remove (pad t) i = Ok (pad t') /\ tlen t' = tlen t \/ tree_remove (pad t) i = Ok t')).
  Proof.
    intros L. unfold tree_remove. rewrite (node_index_ok d i) by (eauto using usized_31; lia). cbn [bind]. rewrite twin_leaves.
    rewrite (climb_leaf t d i twin_usized L). cbn [bind].
    rewrite fold_blank_pad by (intros x [<-|I]; [apply twin_leaf, L|exact (twin_path i x L I)]).
    set (a := fold_left blank _ t). assert (T : tlen a = tlen t) by apply fold_blank_len. rewrite (usized_leaves t d twin_usized).
    pose proof (pow2_pos d) as P0. unfold sub32. destruct (N.ltb_spec (2 ^ d) 1) as [X|_]; [lia|]. cbn [bind].
    assert (S1 : 2 ^ (d + 1) = 2 * 2 ^ d) by apply pow2_S. red in F.
    destruct (scan_twin a (N.to_nat (2 ^ d - 1)) (tlen (pad a)) (tlen a)) as [[A B]|[(q & Lq & A & B)|[[A B]|[A B]]]].
    - rewrite A, B. cbn [bind]. eexists. split; [reflexivity|]. left. rewrite !N.ltb_irrefl. split; [reflexivity|exact T].
    - rewrite A, B. cbn [bind]. eexists. split; [reflexivity|]. right. rewrite tlen_pad. destruct (N.ltb_spec q (tlen a)) as [_|X]; [|lia]. destruct (N.ltb_spec q (tlen a + 1)) as [_|X]; [|lia].
      unfold pad. rewrite firstn_app. unfold tlen in *. replace (N.to_nat q - length a)%nat with 0%nat by lia. cbn [firstn]. rewrite app_nil_r. reflexivity.
    - rewrite A, B. cbn [bind]. eexists. split; [reflexivity|]. right. reflexivity.
    - exfalso. destruct (c18 t d i (or_introl F) ltac:(assert (2 ^ (d + 1) <= 2 ^ 32) by (apply pow2_mono; lia); change (2 ^ 32) with 4294967296 in *; lia) L) as (t2 & E2 & _).
      unfold tree_remove in E2. rewrite (node_index_ok d i) in E2 by (eauto using usized_31; lia). cbn [bind] in E2. rewrite (climb_leaf t d i twin_usized L) in E2. cbn [bind] in E2.
      fold a in E2. rewrite (usized_leaves t d twin_usized) in E2. unfold sub32 in E2. destruct (N.ltb_spec (2 ^ d) 1); [lia|]. cbn [bind] in E2. rewrite B in E2. discriminate.
  Qed.
  Lemma twin_add i l : i < 2 ^ d -> blank_at t i -> exists t', tree_add t l = Ok t' /\ tree_add (pad t) l = Ok (pad t') /\ tlen t' = tlen t.
  Proof.
    intros L B. destruct (leftmost_blank t (2 ^ d)) as [A|(j & Lj & Bj & C)]; [exfalso; exact (A i L B)|].
    assert (Bj' : blank_at (pad t) j) by (red; rewrite tget_pad; exact Bj). assert (C' : forall m, m < j -> ~ blank_at (pad t) m) by (intros m Lm; unfold blank_at; rewrite tget_pad; apply C, Lm).
    unfold tree_add. pose proof (twin_leaf j Lj) as X. unfold tlen in X.
    rewrite (find_blank_found t d j twin_usized Lj Bj C j 0) by lia. rewrite (find_blank_found (pad t) d j twin_pad_usized Lj Bj' C' j 0) by (unfold pad; rewrite ?app_length; lia).
    cbn [bind]. rewrite (climb_leaf t d j twin_usized Lj), (climb_leaf (pad t) d j twin_pad_usized Lj). cbn [bind].
    eexists. split; [reflexivity|]. rewrite fold_push_pad by (intros x I; exact (twin_path j x Lj I)). rewrite tset_pad by (rewrite fold_push_len; apply twin_leaf, Lj).
    split; [reflexivity|]. rewrite tlen_tset. apply fold_push_len.
  Qed.
  Lemma twin_merge P cs i u : i < 2 ^ d -> small_unmerged t ->
    merge_update_path P cs (pad t) i u = (let (t', r) := merge_update_path P cs t i u in (pad t', r)) /\ tlen (fst (merge_update_path P cs t i u)) = tlen t.
  Proof.
    intros L SU. unfold merge_update_path. rewrite (node_index_ok d i) by (eauto using usized_31; lia). cbn [tbind]. rewrite twin_leaves. unfold direct_path.
    rewrite (climb_leaf t d i twin_usized L). cbn [tbind]. assert (Lp : forall x, In x (up d i) -> x < tlen t) by (intros x I; exact (twin_path i x L I)).
    rewrite (fold_blank_pad _ t Lp). set (a := fold_left blank (up d i) t). assert (T : tlen a = tlen t) by apply fold_blank_len.
    assert (U1 : usized a d) by (eapply usized_same; [exact T|exact twin_usized]).
    assert (E1 : filtered_direct_path (pad a) (2 * i) = filtered_direct_path a (2 * i)).
    { unfold filtered_direct_path. rewrite <- (filtered_path_f_same (pad a) a _ (pad_same a)). f_equal. rewrite (usized_leaves a d U1). apply usized_leaves.
      eapply usized_same; [|exact twin_pad_usized]; rewrite !tlen_pad, T; reflexivity. }
    rewrite E1. assert (SU1 : small_unmerged a) by (apply small_blank, SU). rewrite (filtered_leaf a d i SU1 U1 L). cbn [tbind].
    assert (Lf : forall x, In x (fpath a (N.to_nat d) 0 i) -> x < tlen a) by (intros x I; rewrite T; apply (twin_path i x L), in_up, (fpath_on_path a d i x I)).
    destruct (negb _); [split; [reflexivity|exact T]|]. rewrite (set_keys_pad _ a (up_nodes u) Lf). set (b := set_path_keys a _ _). assert (Tb : tlen b = tlen t) by (unfold b; rewrite set_keys_len; exact T).
    assert (Lb : forall x, In x (rev (fpath a (N.to_nat d) 0 i)) -> x < tlen b) by (intros x I; rewrite Tb, <- T; apply Lf, in_rev, I).
    destruct (set_hashes_pad P cs (up d i) (2 * i) _ b None Lb) as [H1 H2]. rewrite H1. destruct (set_parent_hashes P cs (up d i) (2 * i) b None _) as [c r]. cbn [fst] in H2.
    destruct r as [pr|e| |]; cbn [tbind]; try (split; [reflexivity|cbn [fst]; congruence]).
    destruct (lp_source _) as [| |ph]; destruct pr as [h|]; try (split; [reflexivity|cbn [fst]; congruence]). destruct (negb _); [split; [reflexivity|cbn [fst]; congruence]|].
    rewrite tset_pad by (rewrite H2, Tb; apply twin_leaf, L). split; [reflexivity|]. cbn [fst]. rewrite tlen_tset. congruence.
  Qed.
End Twin.

(** ** Copies *)

Lemma copy_same t t' : copy_of t t' -> same_tree t t'.
Proof. intros [->|[_ ->]] x; [reflexivity|]. symmetry. apply (tget_pad t' x). Qed.
Lemma outcome_refl r : same_outcome r r.
Proof. destruct r; cbn; auto. left. reflexivity. Qed.
Lemma good_depth t d : good (pad t) d -> full_size t d -> d <= 30.
Proof.
  intros G F. pose proof (g_small _ _ G) as S. rewrite tlen_pad in S. red in F. rewrite F in S. pose proof (pow2_pos (d + 1)). destruct (N.le_gt_cases d 30) as [B|B]; [exact B|].
  assert (2 ^ 32 <= 2 ^ (d + 1)) by (apply pow2_mono; lia). change (2 ^ 32) with 4294967296 in *. lia.
Qed.
Lemma pad_size t d d' : good (pad t) d -> full_size t d' -> d' = d.
Proof.
  intros G F. apply (size_unique (pad t)); [|exact (g_size _ _ G)]. right. red in F |- *. rewrite tlen_pad, F. pose proof (pow2_pos (d' + 1)). lia.
Qed.
Lemma c74_step P cs t d t' o : good t d -> copy_of t t' -> (forall l, o = OpAdd l -> has_room t) -> same_outcome (perform P cs t o) (perform P cs t' o).
Proof.
  intros G [->|[(d' & F) ->]] R; [apply outcome_refl|]. change (t' ++ [None])%list with (pad t') in *. pose proof (pad_size t' d d' G F) as ->. pose proof (good_depth t' d G F) as D.
  pose proof (twin_usized t' d F D) as U. pose proof (twin_pad_usized t' d F D) as U'.
  assert (CP : forall a, tlen a = tlen t' -> copy_of (pad a) a). { intros a T. right. split; [|reflexivity]. exists d. red in F |- *. congruence. }
  destruct o as [l|i l|i|i u]; cbn [perform].
  - destruct (R l eq_refl) as (e & [R1|[R1 (i & Li & B)]]).
    + exfalso. pose proof (twin_cut t' d F) as C. red in R1, C. rewrite R1 in C. pose proof (pow2_S e). pose proof (pow2_S d). pose proof (pow2_pos e). lia.
    + assert (e = d) as -> by (apply (size_unique (pad t')); [right; exact R1|exact (g_size _ _ G)]). red in B. rewrite tget_pad in B.
      destruct (twin_add t' d F D i l Li B) as (a & E1 & E2 & T). rewrite E1, E2. cbn. apply CP, T.
  - destruct (N.lt_ge_cases i (2 ^ d)) as [L|L]; [|rewrite (update_out _ d i l U L), (update_out _ d i l U' L); exact I].
    destruct (twin_update t' d F D i l L) as (a & E1 & E2). rewrite E1, E2. cbn. apply CP. destruct (update_ok t' d i l U L) as (b & E & T & _). rewrite E1 in E. apply Ok_inj in E. subst b. exact T.
  - destruct (N.lt_ge_cases i (2 ^ d)) as [L|L]; [|rewrite (remove_out _ d i U L), (remove_out _ d i U' L); exact I].
    destruct (twin_remove t' d F D i L) as (a & E1 & [[E2 T]|E2]); rewrite E1, E2; cbn; [apply CP, T|left; reflexivity].
  - destruct (N.lt_ge_cases i (2 ^ d)) as [L|L]; [|rewrite (merge_out P cs _ d i u U L), (merge_out P cs _ d i u U' L); exact I].
    assert (SU : small_unmerged t').
    { pose proof (good_small _ _ G) as S. intros x p v E. apply (S x p v). rewrite tget_pad. exact E. }
    destruct (twin_merge t' d F D P cs i u L SU) as [E T]. rewrite E. destruct (merge_update_path P cs t' i u) as [a [[]|e| |]]; cbn; auto.
Qed.

Lemma perform_step P cs t o t' : perform P cs t o = Ok t' -> (forall l, o = OpAdd l -> has_room t) -> tree_step P cs t t'.
Proof.
  intros E R. destruct o as [l|i l|i|i u]; cbn [perform] in E.
  - exact (ts_add P cs t l t' (R l eq_refl) E).
  - exact (ts_update P cs t i l t' E).
  - exact (ts_remove P cs t i t' E).
  - destruct (merge_update_path P cs t i u) as [a [[]|e| |]] eqn:M; try discriminate. apply Ok_inj in E. subst a. exact (ts_merge P cs t i u t' M).
Qed.
Lemma copy_room t t' d : good t d -> copy_of t t' -> has_room t -> has_room t'.
Proof. intros G [->|[(d' & F) ->]] R; [exact R|]. exists d'. left. exact F. Qed.
Lemma c74_steps P cs t os a : performed P cs t os a -> forall d t', good t d -> copy_of t t' -> exists b, performed P cs t' os b /\ copy_of a b.
Proof.
  induction 1 as [t|t o t1 os t2 E R H IH]; intros d t' G C; [exists t'; split; [constructor|exact C]|].
  pose proof (c74_step P cs t d t' o G C R) as S. rewrite E in S. cbn in S. destruct (perform P cs t' o) as [t1'|e| |] eqn:E'; try contradiction.
  assert (R' : forall l, o = OpAdd l -> has_room t') by (intros l Q; exact (copy_room t t' d G C (R l Q))).
  destruct (step_good P cs t d t1 G (perform_step P cs t o t1 E R)) as [->|(d1 & G1)].
  - inversion H as [x Hx|x o' t3 os' t4 E2 R2 H2]; subst.
    + exists t1'. split; [|exact S]. eapply pf_cons; [exact E'|exact R'|constructor].
    + exfalso. exact (step_empty P cs t3 (perform_step P cs [] o' t3 E2 R2)).
  - destruct (IH d1 t1' G1 S) as (b & B1 & B2). exists b. split; [|exact B2]. eapply pf_cons; [exact E'|exact R'|exact B1].
Qed.
Lemma received_copy t d t' : good t d -> full_size t' d -> same_tree t t' -> copy_of t t'.
Proof.
  intros G F Q. destruct (g_size _ _ G) as [S|S]; red in S, F.
  - left. apply (nth_ext _ _ None None); [unfold tlen in *; lia|]. intros n Hn. specialize (Q (N.of_nat n)). unfold tget in Q. rewrite Nat2N.id in Q. unfold tlen in *.
    destruct (N.ltb_spec (N.of_nat n) (N.of_nat (length t))); [|lia]. destruct (N.ltb_spec (N.of_nat n) (N.of_nat (length t'))); [|lia]. symmetry. exact Q.
  - right. split; [exists d; exact F|]. pose proof (pow2_pos (d + 1)) as P0. assert (LN : length t = (1 + length t')%nat) by (unfold tlen in *; lia).
    apply (nth_ext _ _ None None); [rewrite app_length; cbn [length]; lia|]. intros n Hn. change (t' ++ [None])%list with (pad t').
    specialize (Q (N.of_nat n)). rewrite <- tget_pad in Q. unfold tget in Q. rewrite Nat2N.id, tlen_pad in Q. unfold tlen in *.
    destruct (N.ltb_spec (N.of_nat n) (N.of_nat (length t))); [|lia]. destruct (N.ltb_spec (N.of_nat n) (N.of_nat (length t') + 1)); [|lia]. symmetry. exact Q.
Qed.
Lemma c74_received P cs t p rest : reachable P cs t -> wf_tree t -> se_ratchet_tree t = Ok p ->
  exists t', de_ratchet_tree (p ++ rest) = Ok (t', rest) /\ copy_of t t' /\
    forall os a, performed P cs t os a -> exists b, performed P cs t' os b /\ copy_of a b.
Proof.
  intros R W S. destruct (reachable_tight P cs t R) as (d & G & T). destruct (travel t d p rest G T W S) as (t' & D & F & Q). exists t'. split; [exact D|].
  pose proof (received_copy t d t' G F Q) as C. split; [exact C|]. intros os a H. exact (c74_steps P cs t os a H d t' G C).
Qed.
Lemma reachable_good P cs t : reachable P cs t -> exists d, good t d.
Proof. intros R. destruct (reachable_tight P cs t R) as (d & G & _). exists d. exact G. Qed.
Lemma c74_outcome P cs t t' o : reachable P cs t -> copy_of t t' -> (forall l, o = OpAdd l -> has_room t) -> same_outcome (perform P cs t o) (perform P cs t' o).
Proof. intros R C H. destruct (reachable_good P cs t R) as (d & G). exact (c74_step P cs t d t' o G C H). Qed.
Lemma performed_history P cs t os a : performed P cs t os a -> forall t0, tree_history P cs t0 t -> tree_history P cs t0 a.
Proof. induction 1 as [t|t o t1 os t2 E R H IH]; intros t0 T; [exact T|]. apply IH. eapply th_cons; [exact T|exact (perform_step P cs t o t1 E R)]. Qed.
Lemma c74_look P cs t t' : reachable P cs t -> copy_of t t' ->
  (forall x, tget t' x = tget t x) /\ (forall P' cs', root_tree_hash P' cs' t' = root_tree_hash P' cs' t) /\
  (forall P' ctx now, verify_integrity P' t' ctx now = Ok tt <-> verify_integrity P' t ctx now = Ok tt) /\ keys t' = keys t.
Proof.
  intros R C. destruct (reachable_good P cs t R) as (d & G). pose proof (copy_same t t' C) as Q. split; [exact Q|]. destruct C as [->|[(d' & F) E]].
  - split; [reflexivity|]. split; [intros; tauto|reflexivity].
  - assert (d' = d) as ->. { subst t. exact (pad_size t' d d' G F). }
    split; [intros P' cs'; exact (same_root t t' d G F Q P' cs')|]. split; [intros P' ctx now; exact (same_integrity t t' d G F Q P' ctx now)|].
    unfold keys. rewrite (same_leaves t t' d G F Q). reflexivity.
Qed.
Lemma c74_replica P cs t p rest os a : reachable P cs t -> wf_tree t -> se_ratchet_tree t = Ok p -> performed P cs t os a -> a <> [] ->
  exists t' b, de_ratchet_tree (p ++ rest) = Ok (t', rest) /\ performed P cs t' os b /\
    (forall x, tget b x = tget a x) /\ (forall P' cs', root_tree_hash P' cs' b = root_tree_hash P' cs' a) /\ keys b = keys a.
Proof.
  intros R W S H Ne. destruct (c74_received P cs t p rest R W S) as (t' & D & _ & K). destruct (K os a H) as (b & B & C). exists t', b. split; [exact D|]. split; [exact B|].
  assert (Ra : reachable P cs a). { destruct R as (l & T & _). exists l. split; [exact (performed_history P cs t os a H _ T)|exact Ne]. }
  destruct (c74_look P cs a b Ra C) as (L1 & L2 & _ & L4). auto.
Qed.

Definition ex_ops : list operation := [OpRemove 2; OpUpdate 0 (ex_leaf x08); OpAdd (ex_leaf x09)].
Definition ex_ops_1 : tree := ok_or [] (tree_remove ex_old 2).
Definition ex_ops_2 : tree := ok_or [] (tree_update ex_ops_1 0 (ex_leaf x08)).
Definition ex_ops_3 : tree := ok_or [] (tree_add ex_ops_2 (ex_leaf x09)).
Lemma ex_ops_performed : exists a, performed toy Suite1 ex_old ex_ops a /\ a <> [] /\ leaf_at a 2 = Some (ex_leaf x09) /\ tlen a = 8.
Proof.
  exists ex_ops_3. split; [|split; [|split]].
  - apply (pf_cons _ _ _ _ ex_ops_1); [vm_compute; reflexivity|discriminate|]. apply (pf_cons _ _ _ _ ex_ops_2); [vm_compute; reflexivity|discriminate|].
    apply (pf_cons _ _ _ _ ex_ops_3); [vm_compute; reflexivity| |constructor]. intros l _. exists 2. right. split; [vm_compute; reflexivity|]. exists 2. split; vm_compute; reflexivity.
  - vm_compute. discriminate.
  - vm_compute. reflexivity.
  - vm_compute. reflexivity.
Qed.
Lemma c74_copy P cs t p rest t' : reachable P cs t -> wf_tree t -> se_ratchet_tree t = Ok p -> de_ratchet_tree (p ++ rest) = Ok (t', rest) -> copy_of t t'.
Proof. intros R W S E. destruct (c74_received P cs t p rest R W S) as (t2 & D & C & _). rewrite E in D. apply Ok_inj in D. injection D as <-. exact C. Qed.
(** Without room the two always come apart. *)
Lemma c74_exact P cs t t' l : reachable P cs t -> copy_of t t' -> t' <> t -> tlen t < 1073741824 ->
  (same_outcome (perform P cs t (OpAdd l)) (perform P cs t' (OpAdd l)) <-> has_room t) /\
  (~ has_room t -> exists a b i, tree_add t l = Ok a /\ tree_add t' l = Ok b /\ blank_at a i /\ leaf_at b i = Some l).
Proof.
  intros R C NE SM. destruct (reachable_good P cs t R) as (d & G).
  assert (SPLIT : ~ has_room t -> exists a b i, tree_add t l = Ok a /\ tree_add t' l = Ok b /\ blank_at a i /\ leaf_at b i = Some l).
  { intros NR. destruct C as [->|[(d' & F) E]]; [congruence|]. assert (d' = d) as ->. { subst t. exact (pad_size t' d d' G F). }
    assert (CS : cut_size t d). { subst t. change (t' ++ [None])%list with (pad t'). red in F |- *. rewrite tlen_pad, F. pose proof (pow2_pos (d + 1)). lia. }
    assert (A : forall j, j < 2 ^ d -> ~ blank_at t j) by (intros j Lj B; apply NR; exists d; right; eauto).
    assert (D : d <= 29). { destruct (N.le_gt_cases d 29); [assumption|]. assert (2 ^ 31 <= 2 ^ (d + 1)) by (apply pow2_mono; lia). change (2 ^ 31) with 2147483648 in *. red in CS. lia. }
    destruct (add_cut_full t d l CS D A) as (a & Ea & _ & _ & K). assert (D30 : d <= 30) by lia.
    destruct (add_full t' d l F D30) as (b & Eb & _ & Hb). { intros j Lj B. apply (A j Lj). red. subst t. rewrite (tget_pad t' (2 * j) : tget (t' ++ [None]) _ = _). exact B. }
    exists a, b, (2 ^ d). split; [exact Ea|]. split; [exact Eb|]. split.
    - red. rewrite K. destruct (tget t (2 * 2 ^ d)) as [nd|] eqn:Q; [|reflexivity]. exfalso. apply (g_in _ _ G) in Q. unfold in_tree in Q. rewrite pow2_S in Q. pose proof (pow2_pos d). lia.
    - unfold leaf_at. rewrite Hb, N.eqb_refl. reflexivity. }
  split; [|exact SPLIT]. split.
  - intros S. destruct (g_size _ _ G) as [F|F]; [exists d; left; exact F|]. destruct (leftmost_blank t (2 ^ d)) as [A|(i & Li & B & _)]; [|exists d; right; eauto].
    exfalso. destruct SPLIT as (a & b & i & Ea & Eb & B & Lf).
    + intros (d' & [X|(X & i & Li & Bi)]); (assert (d' = d) by (apply (size_unique t); [first [left; exact X|right; exact X]|right; exact F]); subst d').
      * red in X, F. pose proof (pow2_pos (d + 1)). lia.
      * exact (A i Li Bi).
    + cbn [perform] in S. rewrite Ea, Eb in S. cbn in S. apply copy_same in S. unfold blank_at in B. unfold leaf_at in Lf. rewrite (S (2 * i)), B in Lf. discriminate.
  - intros H. exact (c74_step P cs t d t' (OpAdd l) G C (fun _ _ => H)).
Qed.
