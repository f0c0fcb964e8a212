(** The tree lemmas in the form of the property theorems. *)
From Verif Require Export TreeMore ExProvider.
From Coq Require Import Permutation ZifyBool ZifyNat ZifyN.
Local Open Scope N_scope.

Lemma get_leaf_at t i : i < 2147483648 -> get_leaf t i = Ok (leaf_at t i).
Proof.
  intros H. unfold get_leaf. rewrite (node_index_ok 31) by (change (2 ^ 31) with 2147483648; lia). reflexivity.
Qed.
Lemma get_leaf_beyond i t : 2147483648 <= i -> get_leaf t i = Panic.
Proof.
  intros H. unfold get_leaf, node_index, mul32, u32_max. destruct (N.leb_spec (2 * i) 4294967295); [lia|reflexivity].
Qed.
Lemma get_leaf_outside t d i : usized t d -> 2 ^ d <= i < 2147483648 -> get_leaf t i = Ok None.
Proof.
  intros U [H L]. rewrite get_leaf_at by exact L. unfold leaf_at. rewrite tget_beyond; [reflexivity|]. pose proof (pow2_S d). destruct U as [[Q _]|[Q _]]; red in Q; lia.
Qed.

Lemma add_found_added t d i l : usized t d -> i < 2 ^ d -> blank_at t i -> (forall j, j < i -> ~ blank_at t j) ->
  exists t', tree_add t l = Ok t' /\ tlen t' = tlen t /\ added t t' d i l.
Proof.
  intros U Hi B Lt. destruct (add_found t d i l U Hi B Lt) as (t' & E & L & H). exists t'. split; [exact E|]. split; [exact L|].
  pose proof (usized_31 t d U). assert (2 ^ d <= 2 ^ 31) by (apply pow2_mono; assumption). change (2 ^ 31) with 2147483648 in *. split; [|split; [|split; [|split]]].
  - rewrite get_leaf_at by lia. unfold leaf_at. rewrite (proj1 (H (2 * i)) eq_refl). reflexivity.
  - intros j Ne. apply H; [lia|]. intros O. eapply on_path_odd; [exact O|reflexivity].
  - intros x p O E'. destruct (H x) as (_ & H2 & _). rewrite H2 by exact O. rewrite E'. reflexivity.
  - intros x O E'. destruct (H x) as (_ & H2 & _). rewrite H2 by exact O. rewrite E'. reflexivity.
  - intros x A B'. apply H; assumption.
Qed.
Lemma add_full_added t d l : full_size t d -> d <= 30 -> (forall j, j < 2 ^ d -> ~ blank_at t j) ->
  exists t', tree_add t l = Ok t' /\ full_size t' (d + 1) /\ added t t' (d + 1) (2 ^ d) l.
Proof.
  intros F Hd NB. destruct (add_full t d l F Hd NB) as (t' & E & F' & H). exists t'. split; [exact E|]. split; [exact F'|].
  assert (2 ^ d <= 2 ^ 30) by (apply pow2_mono; assumption). change (2 ^ 30) with 1073741824 in *.
  assert (OP : forall x, on_path (d + 1) (2 ^ d) x -> tget t x = None /\ x <> 2 * 2 ^ d).
  { intros x O. split; [|intros ->; eapply on_path_odd; [exact O|reflexivity]]. apply tget_beyond. red in F. rewrite F.
    destruct O as (k & j & Hk & -> & C). pose proof (pow2_S d) as S1. pose proof (pow2_pos k) as Pk. pose proof (pow2_S k) as S2. unfold covers in C. unfold node_at.
    destruct (N.eq_dec k (d + 1)) as [->|]; [lia|]. assert (Q : 2 ^ d = 2 ^ (d - k) * 2 ^ k) by (rewrite <- N.pow_add_r; f_equal; lia).
    assert (j = 2 ^ (d - k)) as -> by (set (a := 2 ^ (d - k)) in *; destruct (N.lt_total j a) as [Q1|[Q1|Q1]]; nia). rewrite S1, S2, Q. set (a := 2 ^ (d - k)) in *. set (b := 2 ^ k) in *. replace (a * (2 * b)) with (2 * (a * b)) by lia. lia. }
  split; [|split; [|split; [|split]]].
  - rewrite get_leaf_at by lia. unfold leaf_at. rewrite H, N.eqb_refl. reflexivity.
  - intros j Ne. rewrite H. destruct (N.eqb_spec (2 * j) (2 * 2 ^ d)); [lia|reflexivity].
  - intros x p O E'. destruct (OP x O) as [Q _]. congruence.
  - intros x O _. destruct (OP x O) as [Q Ne]. rewrite H. destruct (N.eqb_spec x (2 * 2 ^ d)); [lia|exact Q].
  - intros x Ne _. rewrite H. destruct (N.eqb_spec x (2 * 2 ^ d)); [lia|reflexivity].
Qed.

Lemma c15 t d l : full_size t d -> d <= 30 -> exists t' d' i, tree_add t l = Ok t' /\ full_size t' d' /\
  (forall j, j < i -> ~ blank_at t j) /\ ((d' = d /\ i < 2 ^ d /\ blank_at t i) \/ (d' = d + 1 /\ i = 2 ^ d)) /\ added t t' d' i l.
Proof.
  intros F Hd. assert (U : usized t d) by (left; split; [exact F|lia]). destruct (leftmost_blank t (2 ^ d)) as [A|(i & Li & B & C)].
  - destruct (add_full_added t d l F Hd A) as (t' & E & F' & H). exists t', (d + 1), (2 ^ d). auto 10.
  - destruct (add_found_added t d i l U Li B C) as (t' & E & L & H). exists t', d, i. unfold full_size in *. rewrite L. auto 10.
Qed.

Lemma c16 t d l : shaped t d -> d <= 29 ->
  (has_room t -> exists t' d' i, tree_add t l = Ok t' /\ shaped t' d' /\ added t t' d' i l) /\
  (~ has_room t -> exists t', tree_add t l = Ok t' /\ (forall j, tget t' (2 * j) = tget t (2 * j)) /\ tget t' (tlen t + 1) = Some (Leaf l)).
Proof.
  intros G Hd. pose proof (shaped_usized t d G) as U. pose proof (sh_size t d G) as S. split; intros R.
  - destruct (leftmost_blank t (2 ^ d)) as [A|(i & Li & B & C)].
    + destruct R as (d' & R). assert (d' = d) by (apply (size_unique t); [destruct R as [R|[R _]]; [left|right]; exact R|exact S]). subst d'.
      destruct R as [R|(_ & i & Li & B)]; [|exfalso; eapply A; eassumption].
      destruct (add_full_added t d l R ltac:(lia) A) as (t' & E & F' & H). exists t', (d + 1), (2 ^ d). split; [exact E|]. split; [|exact H]. eapply add_full_shaped; eassumption.
    + destruct (add_found_added t d i l U Li B C) as (t' & E & L & H). exists t', d, i. split; [exact E|]. split; [|exact H]. eapply add_found_shaped; eassumption.
  - assert (CS : cut_size t d) by (destruct S as [S|S]; [exfalso; apply R; exists d; left; exact S|exact S]).
    assert (NB : forall j, j < 2 ^ d -> ~ blank_at t j). { intros j Lj B. apply R. exists d. right. eauto. }
    destruct (add_cut_full t d l CS Hd NB) as (t' & E & _ & A & B). exists t'. auto.
Qed.

Lemma small_usized t d : tsized t d -> tlen t < 4294967296 -> usized t d.
Proof.
  change 4294967296 with (2 ^ 32). intros [S|S] L; [left|right]; (split; [exact S|]); red in S; destruct (N.le_gt_cases (d + 1) 31) as [Q|Q]; try lia.
  - destruct (N.eq_dec d 31); [lia|]. assert (2 ^ 33 <= 2 ^ (d + 1)) by (apply pow2_mono; lia). change (2 ^ 33) with 8589934592 in *. change (2 ^ 32) with 4294967296 in *. lia.
  - assert (2 ^ 32 <= 2 ^ (d + 1)) by (apply pow2_mono; lia). lia.
Qed.
Lemma c14_update t d i l : tsized t d -> tlen t < 4294967296 -> 2 ^ d <= i -> tree_update t i l = Panic.
Proof. intros S L. apply update_out, small_usized; assumption. Qed.
Lemma c14_remove t d i : tsized t d -> tlen t < 4294967296 -> 2 ^ d <= i -> tree_remove t i = Panic.
Proof. intros S L. apply remove_out, small_usized; assumption. Qed.
Lemma c14_merge P cs t d i u : tsized t d -> tlen t < 4294967296 -> 2 ^ d <= i -> merge_update_path P cs t i u = (t, Panic).
Proof. intros S L. apply merge_out, small_usized; assumption. Qed.
Lemma c14_get t d i : tsized t d -> tlen t < 4294967296 -> 2 ^ d <= i -> get_leaf t i = if i <? 2147483648 then Ok None else Panic.
Proof.
  intros S L H. destruct (N.ltb_spec i 2147483648); [|apply get_leaf_beyond; assumption]. apply (get_leaf_outside t d); [apply small_usized; assumption|lia].
Qed.
Lemma c17 t d i l : tsized t d -> tlen t < 4294967296 -> i < 2 ^ d -> exists t', tree_update t i l = Ok t' /\ tlen t' = tlen t /\
  get_leaf t' i = Ok (Some l) /\ (forall x, on_path d i x -> tget t' x = None) /\ (forall x, x <> 2 * i -> ~ on_path d i x -> tget t' x = tget t x).
Proof.
  intros S L H. pose proof (small_usized t d S L) as U. destruct (update_ok t d i l U H) as (t' & E & Q & A). exists t'. split; [exact E|]. split; [exact Q|].
  pose proof (usized_31 t d U). assert (2 ^ d <= 2 ^ 31) by (apply pow2_mono; assumption). change (2 ^ 31) with 2147483648 in *. split; [|split].
  - rewrite get_leaf_at by lia. unfold leaf_at. rewrite (proj1 (A (2 * i)) eq_refl). reflexivity.
  - intros x. apply A.
  - intros x. apply A.
Qed.
Lemma c18 t d i : tsized t d -> tlen t < 4294967296 -> i < 2 ^ d -> exists t', tree_remove t i = Ok t' /\
  blank_at t' i /\ (forall x, on_path d i x -> tget t' x = None) /\ (forall j, j <> i -> leaf_at t' j = leaf_at t j) /\
  (forall x, x < tlen t' -> x <> 2 * i -> ~ on_path d i x -> tget t' x = tget t x) /\
  ( (t' = [] /\ forall j, j < 2 ^ d -> j <> i -> blank_at t j)
    \/ (exists e m, e < d /\ cut_size t' e /\ (forall j, j < 2 ^ d -> j <> i -> ~ blank_at t j -> j < 2 ^ e) /\
                    m <> i /\ ~ blank_at t m /\ (e = 0 \/ 2 ^ e <= 2 * m))
    \/ (tlen t' = tlen t /\ exists m, m <> i /\ ~ blank_at t m /\ 2 ^ d <= 2 * m) ).
Proof.
  intros S L H. pose proof (small_usized t d S L) as U. destruct (remove_ok t d i U H) as (t' & E & B & C & D & F & G). exists t'. split; [exact E|]. split; [exact B|]. split; [exact C|]. split; [|split; [exact F|]].
  - intros j J. unfold leaf_at. destruct (N.lt_ge_cases j (2 ^ d)) as [Q|Q]; [rewrite D by assumption; reflexivity|].
    assert (T : forall t0 : tree, tlen t0 <= tlen t -> tget t0 (2 * j) = None).
    { intros t0 Q0. apply tget_beyond. pose proof (pow2_S d). destruct S as [S|S]; red in S; lia. }
    rewrite !T; [reflexivity|lia|]. destruct G as [[-> _]|[(e & m & Le & CS & _)|[G _]]]; [cbn; lia| |lia].
    assert (2 ^ (e + 1) <= 2 ^ d) by (apply pow2_mono; lia). pose proof (pow2_S d). pose proof (pow2_pos d). red in CS. destruct S as [S|S]; red in S; lia.
  - destruct G as [G|[(e & m & G1 & G2 & G3 & G4 & G5 & G6 & G7)|(G1 & m & G2 & G3 & G4 & G5)]]; [left; exact G|right; left; exists e, m; repeat (split; [assumption|]); assumption|right; right; split; [assumption|]; exists m; repeat (split; [assumption|]); assumption].
Qed.
Lemma c19_length P cs t d : tsized t d -> tlen t < 4294967296 -> small_unmerged t ->
  (forall i l t', tree_update t i l = Ok t' -> tlen t' = tlen t) /\
  (forall i u t' r, merge_update_path P cs t i u = (t', r) -> tlen t' = tlen t).
Proof.
  intros S L SU. pose proof (small_usized t d S L) as U. split.
  - intros i l t' E. destruct (N.lt_ge_cases i (2 ^ d)) as [H|H].
    + destruct (update_ok t d i l U H) as (t1 & E1 & Q & _). congruence.
    + rewrite (update_out t d i l U H) in E. discriminate.
  - intros i u t' r E. destruct (N.lt_ge_cases i (2 ^ d)) as [H|H].
    + assert (R : r = Ok tt \/ r <> Ok tt) by (destruct r as [[]| | |]; [left; reflexivity|right; discriminate..]). destruct R as [->|R].
      * apply (merge_iff P cs t d i u t' SU U H) in E. apply mg_len in E. exact E.
      * eapply merge_failed; eassumption.
    + rewrite (merge_out P cs t d i u U H) in E. injection E as <- _. reflexivity.
Qed.
Lemma c19_history P cs t d t' : shaped t d -> tree_history P cs t t' -> t' = [] \/ exists d', tsized t' d'.
Proof. intros G H. destruct (history_shaped P cs t d t' G H) as [->|(d' & G')]; [auto|right; exists d'; apply sh_size, G']. Qed.

Lemma c20 t d l s : shaped t d -> NoDup l -> (forall i, In i l -> ~ blank_at t i) ->
  exists t', tree_apply t (map (fun i => PRemove (MkRemove i)) l) s = Ok t' /\
    forall j, leaf_at t' j = if in_dec N.eq_dec j l then None else leaf_at t j.
Proof.
  intros G ND M. rewrite apply_only_removes. destruct (removes_ok l t d (shaped_usized t d G) ND) as (t' & E & H).
  - intros i I. split; [eapply shaped_member_lt; [exact G|]|]; auto.
  - exists t'. split; [exact E|]. intros j. unfold leaf_at. rewrite H. destruct (in_dec N.eq_dec j l); reflexivity.
Qed.
Lemma c20_perm t d l l' s : good t d -> NoDup l -> (forall i, In i l -> ~ blank_at t i) -> Permutation l l' ->
  tree_apply t (map (fun i => PRemove (MkRemove i)) l) s = tree_apply t (map (fun i => PRemove (MkRemove i)) l') s.
Proof. intros. rewrite !apply_only_removes. eapply removes_perm; eassumption. Qed.
Lemma c21 t d k j : good t d -> k <= d -> j < 2 ^ (d - k) -> exists r, resolve t (node_at k j) = Ok r /\
  r = resolution t (N.to_nat k) j /\ NoDup r /\ (forall x, In x r -> tget t x <> None) /\
  (forall i, covers k j i -> ~ blank_at t i ->
     In (2 * i) r \/ exists k' j' p, In (node_at k' j') r /\ tget t (node_at k' j') = Some (Parent p) /\ covers k' j' i /\ ~ In i (pn_unmerged p)).
Proof.
  intros G Hk Hj. pose proof (usized_31 t d (good_usized t d G)). exists (resolution t (N.to_nat k) j).
  split; [apply resolve_ok; [exact (good_small t d G)|lia]|]. split; [reflexivity|]. split; [eapply resolution_NoDup; exact G|].
  split; [intros x; eapply resolution_nonblank; exact (g_unmerged t d G)|]. intros i C B. eapply resolution_covers; [exact G|rewrite N2Nat.id; exact C|exact B].
Qed.
Lemma c22 P cs t d t' : good t d -> tree_history P cs t t' -> unmerged_ok t'.
Proof.
  intros G H. destruct (history_good P cs t d t' G H) as [->|(d' & G')]; [|apply (g_unmerged t' d'), G'].
  split; intros k j p; [|intros u|intros u k' j' p']; intros E; rewrite tget_beyond in E by (cbn; lia); discriminate.
Qed.
Lemma c25 P cs t d i u t' : shaped t d -> i < 2 ^ d -> merge_update_path P cs t i u = (t', Ok tt) <-> merged P cs t d i u t'.
Proof. intros G H. apply merge_iff; [exact (sh_unmerged t d G)|exact (shaped_usized t d G)|exact H]. Qed.
Lemma c26 P cs t d i u t' : shaped t d -> merge_update_path P cs t i u = (t', Ok tt) ->
  exists fp ph, filtered_direct_path t (2 * i) = Ok fp /\ leaf_at t' i = Some (up_leaf u) /\ lp_source (ln_payload (up_leaf u)) = LSCommit ph /\ hash_chain P cs t' i ph fp.
Proof.
  intros G E. destruct (N.lt_ge_cases i (2 ^ d)) as [H|H].
  - apply (c25 P cs t d i u t' G H) in E. destruct (mg_path _ _ _ _ _ _ _ E) as (fp & ph & A & _ & _ & _ & _ & B & C). exists fp, ph. split; [exact A|]. split; [|auto].
    unfold leaf_at. rewrite (mg_leaf _ _ _ _ _ _ _ E). reflexivity.
  - rewrite (merge_out P cs t d i u (shaped_usized t d G) H) in E. discriminate.
Qed.
Lemma c27 P cs t d i u t' r : shaped t d -> merge_update_path P cs t i u = (t', r) -> r <> Ok tt ->
  tlen t' = tlen t /\ forall x, ~ on_path d i x -> tget t' x = tget t x.
Proof.
  intros G E R. destruct (N.lt_ge_cases i (2 ^ d)) as [H|H].
  - eapply merge_failed; [exact (sh_unmerged t d G)|exact (shaped_usized t d G)|exact H|exact E|exact R].
  - rewrite (merge_out P cs t d i u (shaped_usized t d G) H) in E. injection E as <- _. auto.
Qed.
Lemma c30 t d x : shaped t d -> in_tree d x ->
  exists path co rs, direct_path (2 ^ d) x = Ok path /\ copath (2 ^ d) x = Ok co /\ Forall2 (fun s r => resolve t s = Ok r) co rs /\
    filtered_direct_path t x = Ok (map fst (filter (fun pr : N * list N => negb (Nat.eqb (length (snd pr)) 0)) (combine path rs))).
Proof. intros G. apply filtered_spec; [exact (sh_unmerged t d G)|exact (shaped_usized t d G)]. Qed.

(** ** Example trees *)

Definition ex_two : tree := [Some (Leaf (ex_leaf x01)); None; Some (Leaf (ex_leaf x02))].
Definition ex_three : tree := [Some (Leaf (ex_leaf x01)); None; Some (Leaf (ex_leaf x02)); None; Some (Leaf (ex_leaf x03)); None; None].

Lemma hist P cs t0 t1 t2 : tree_history P cs t0 t1 -> tree_step P cs t1 t2 -> tree_history P cs t0 t2.
Proof. intros. econstructor; eassumption. Qed.
Definition ex_one : tree := [Some (Leaf (ex_leaf x01))].
Lemma ex_three_history : tree_history toy Suite1 ex_one ex_three.
Proof.
  apply (hist _ _ _ ex_two).
  - apply (hist _ _ _ ex_one); [constructor|]. apply (ts_add _ _ _ (ex_leaf x02)); [exists 0; left; reflexivity|reflexivity].
  - apply (ts_add _ _ _ (ex_leaf x03)); [exists 1; left; reflexivity|reflexivity].
Qed.
(** Removing the third member of three cuts the array to four slots. *)
Definition ex_cut : tree := [Some (Leaf (ex_leaf x01)); None; Some (Leaf (ex_leaf x02)); None].
Lemma ex_cut_history : tree_history toy Suite1 ex_one ex_cut.
Proof. apply (hist _ _ _ ex_three); [exact ex_three_history|]. apply (ts_remove _ _ _ 2). reflexivity. Qed.
Lemma ex_empty_history : tree_history toy Suite1 ex_one [].
Proof. apply (hist _ _ _ ex_one); [constructor|]. apply (ts_remove _ _ _ 0). reflexivity. Qed.

Lemma ex_tree_good : good ex_tree 2.
Proof.
  assert (T : forall x nd, tget ex_tree x = Some nd -> (x = 0 /\ nd = Leaf (ex_leaf x01)) \/ (x = 1 /\ nd = Parent (ex_parent x31 [1]))
     \/ (x = 2 /\ nd = Leaf (ex_leaf x02)) \/ (x = 4 /\ nd = Leaf (ex_leaf x03))).
  { intros x nd E. assert (L : x < 7). { destruct (N.lt_ge_cases x 7); [assumption|]. rewrite tget_beyond in E; [discriminate|]. exact H. }
    assert (C : x = 0 \/ x = 1 \/ x = 2 \/ x = 3 \/ x = 4 \/ x = 5 \/ x = 6) by lia.
    destruct C as [C|[C|[C|[C|[C|[C|C]]]]]]; subst x; vm_compute in E; try discriminate; injection E as <-; auto 10. }
  assert (PT : forall k j p, tget ex_tree (node_at k j) = Some (Parent p) -> k = 1 /\ j = 0 /\ p = ex_parent x31 [1]).
  { intros k j p E. apply T in E as [[_ Q]|[[Q R]|[[_ Q]|[_ Q]]]]; try discriminate. change 1 with (node_at 1 0) in Q. apply node_at_inj in Q as [-> ->]. injection R as <-. auto. }
  split.
  - left. reflexivity.
  - reflexivity.
  - intros x nd E. apply T in E. unfold in_tree. change (2 ^ (2 + 1)) with 8. intuition lia.
  - intros i p E. apply T in E. intuition (try discriminate; lia).
  - intros k j l E. apply T in E.
    assert (NE : forall i, node_at (k + 1) j <> 2 * i) by (intros i Q; rewrite <- node_at_leaf in Q; apply node_at_inj in Q; lia).
    destruct E as [[Q _]|[[_ Q]|[[Q _]|[Q _]]]]; try discriminate; [apply (NE 0)|apply (NE 1)|apply (NE 2)]; exact Q.
  - split.
    + intros k j p E. apply PT in E as (-> & -> & ->). repeat constructor.
    + intros k j p u E I. apply PT in E as (-> & -> & ->). destruct I as [<-|[]]. split; [split; [discriminate|reflexivity]|]. exists (ex_leaf x02). reflexivity.
    + intros k j p u k' j' p' E I Hk _ E'. apply PT in E as (-> & -> & ->). apply PT in E' as (-> & _). lia.
  - intros k j p u i E I C L. apply PT in E as (-> & -> & ->). destruct I as [<-|[]]. assert (i = 0) by lia. subst i. discriminate.
  - intros k j p E. apply PT in E as (Q & -> & ->). assert (k = 0) by lia. subst k. exists 0, 1. split; [split; [discriminate|reflexivity]|]. split; [discriminate|]. split; [split; [discriminate|reflexivity]|discriminate].
Qed.

(** An update path of member 0 of [ex_two] that is accepted. *)
Definition ex_node : update_path_node := MkUpdatePathNode [x77] [].
Definition ex_path_hash : bytes :=
  ok_or [] (let* th := tree_hash toy Suite1 ex_two 2 [] in parent_hash toy Suite1 (MkParentNode [x77] [] []) th).
Definition ex_path : update_path := MkUpdatePath (ex_leaf_commit x05 ex_path_hash) [ex_node].
Definition ex_merged : tree :=
  [Some (Leaf (ex_leaf_commit x05 ex_path_hash)); Some (Parent (MkParentNode [x77] [] [])); Some (Leaf (ex_leaf x02))].

Lemma ex_two_good : good ex_two 1.
Proof.
  destruct (history_good toy Suite1 ex_one 0 ex_two (good_single _)) as [Q|(d & G)].
  - apply (hist _ _ _ ex_one); [constructor|]. apply (ts_add _ _ _ (ex_leaf x02)); [exists 0; left; reflexivity|reflexivity].
  - discriminate.
  - assert (d = 1) as <-; [|exact G]. apply (size_unique ex_two); [exact (g_size _ _ G)|left; reflexivity].
Qed.
Lemma ex_merge : merge_update_path toy Suite1 ex_two 0 ex_path = (ex_merged, Ok tt).
Proof. vm_compute. reflexivity. Qed.
Lemma ex_merged_history : tree_history toy Suite1 ex_two ex_merged.
Proof. apply (hist _ _ _ ex_two); [constructor|]. exact (ts_merge _ _ _ 0 ex_path _ ex_merge). Qed.
Lemma ex_one_blank j : j <> 0 -> blank_at ex_one j.
Proof. intros H. apply tget_beyond. cbn. lia. Qed.

Lemma c16_lost : exists P cs t t' t'' l, good t 0 /\ tree_history P cs t t' /\ tree_add t' l = Ok t'' /\ forall i, get_leaf t'' i <> Ok (Some l).
Proof.
  exists toy, Suite1, ex_one, ex_cut, (ex_cut ++ [None; Some (Leaf (ex_leaf x09)); None; None; None])%list, (ex_leaf x09).
  split; [exact (good_single _)|]. split; [exact ex_cut_history|]. split; [reflexivity|]. intros i E. unfold get_leaf in E.
  destruct (node_index i) as [x|e| |] eqn:X; try discriminate. unfold node_index, mul32 in X. destruct (2 * i <=? u32_max); [|discriminate]. injection X as <-. cbn [bind] in E.
  assert (C : i = 0 \/ i = 1 \/ i = 2 \/ i = 3 \/ i = 4 \/ 9 <= 2 * i) by lia. destruct C as [C|[C|[C|[C|[C|C]]]]]; try (subst i; vm_compute in E; discriminate).
  rewrite tget_beyond in E; [discriminate|]. exact C.
Qed.
Lemma c16_history P cs t0 d0 t l : shaped t0 d0 -> tree_history P cs t0 t -> tlen t < 1073741824 ->
  (t = [] /\ tree_add t l = Panic) \/
  (has_room t /\ exists t' d' i, tree_add t l = Ok t' /\ shaped t' d' /\ (good t0 d0 -> good t' d') /\ added t t' d' i l) \/
  (~ has_room t /\ exists t', tree_add t l = Ok t' /\ (forall j, tget t' (2 * j) = tget t (2 * j)) /\ tget t' (tlen t + 1) = Some (Leaf l)).
Proof.
  intros G H L. destruct (history_shaped P cs t0 d0 t G H) as [->|(d & G')]; [left; split; reflexivity|right].
  assert (Hd : d <= 29). { destruct (N.le_gt_cases d 29); [assumption|]. assert (2 ^ 31 <= 2 ^ (d + 1)) by (apply pow2_mono; lia). change (2 ^ 31) with 2147483648 in *. destruct (sh_size t d G') as [S|S]; red in S; lia. }
  destruct (c16 t d l G' Hd) as [A B]. assert (R : has_room t \/ ~ has_room t).
  { destruct (sh_size t d G') as [S|S]; [left; exists d; left; exact S|]. destruct (leftmost_blank t (2 ^ d)) as [Q|(i & Li & Q & _)].
    - right. intros (d' & [F|(C & i & Li & Bi)]).
      + assert (d' = d) by (apply (size_unique t); [left; exact F|right; exact S]). subst d'. red in F, S. pose proof (pow2_pos (d + 1)). lia.
      + assert (d' = d) by (apply (size_unique t); right; assumption). subst d'. exact (Q i Li Bi).
    - left. exists d. right. eauto. }
  destruct R as [R|R]; [left|right]; [|auto]. split; [exact R|]. destruct (A R) as (t' & d' & i & E & G1 & Ad). exists t', d', i. split; [exact E|]. split; [exact G1|]. split; [|exact Ad].
  intros G0. destruct (history_good P cs t0 d0 t G0 H) as [->|(e & Ge)]; [destruct (sh_size _ _ G') as [S|S]; red in S; pose proof (pow2_pos d); rewrite pow2_S in S; cbn in S; lia|].
  destruct (add_good t e l t' Ge R E) as [G2|G2]; rewrite (size_unique t' d' _ (sh_size _ _ G1) (g_size _ _ G2)); exact G2.
Qed.
Lemma c19_refuted : exists t d i t', full_size t d /\ good t d /\ tree_remove t i = Ok t' /\ forall k, tlen t' <> 2 ^ k - 1.
Proof.
  exists ex_three, 2, 2, ex_cut. split; [reflexivity|]. split; [|split; [reflexivity|]].
  - destruct (history_good toy Suite1 ex_one 0 ex_three (good_single _) ex_three_history) as [Q|(d & G)]; [discriminate|].
    assert (d = 2) as <-; [|exact G]. apply (size_unique ex_three); [exact (g_size _ _ G)|left; reflexivity].
  - intros k. change (tlen ex_cut) with 4. destruct (N.le_gt_cases k 2) as [Q|Q].
    + assert (C : k = 0 \/ k = 1 \/ k = 2) by lia. destruct C as [C|[C|C]]; subst k; discriminate.
    + assert (2 ^ 3 <= 2 ^ k) by (apply pow2_mono; lia). change (2 ^ 3) with 8 in *. lia.
Qed.
Lemma c27_refuted : exists P cs t i u t' e, good t 2 /\ i < 2 ^ 2 /\ merge_update_path P cs t i u = (t', Err e) /\ t' <> t.
Proof.
  exists toy, Suite1, ex_tree, 0, (MkUpdatePath (ex_leaf x09) []). do 2 eexists. split; [exact ex_tree_good|]. split; [reflexivity|]. split; [vm_compute; reflexivity|]. discriminate.
Qed.
