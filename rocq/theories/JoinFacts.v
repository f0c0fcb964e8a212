(** A tree as a new member receives it. *)
From Coq Require Import ZifyBool ZifyNat ZifyN.
From Verif Require Import CodecLib WireCodecs CodecFacts TreeMore TreeHash Merge Verified TreeInv TreeFacts HashFacts MemberFacts BuildFacts Examples.
From Verif Require Import SpecJoin.
Local Open Scope N_scope.

Lemma tight_keep t t' d m i : ~ blank_at t m -> (d = 0 \/ 2 ^ d <= 2 * m) -> tget t' (2 * i) <> None -> (forall j, j <> i -> tget t' (2 * j) = tget t (2 * j)) -> tight t' d.
Proof.
  intros M H Ti K. exists m. split; [|exact H]. unfold blank_at. destruct (N.eq_dec m i) as [->|Ne]; [exact Ti|]. rewrite K by exact Ne. exact M.
Qed.

Lemma step_tight P cs t d t' : good t d -> tight t d -> tree_step P cs t t' -> t' = [] \/ exists d', good t' d' /\ tight t' d'.
Proof.
  intros G (m & M & Hm) S. pose proof (good_usized t d G) as U. destruct S as [t l t' R E|t i l t' E|t i t' E|t i u t' E].
  - right. destruct (leftmost_blank t (2 ^ d)) as [A|(i & Li & B & C)].
    + assert (F : full_size t d). { destruct R as (d0 & R). assert (d0 = d). { apply (size_unique t); [|exact (g_size _ _ G)]. destruct R as [R|[R _]]; [left|right]; exact R. } subst d0.
        destruct R as [R|[_ (i & Li & B)]]; [exact R|exfalso; eapply A; eassumption]. }
      pose proof (add_full_good t d l t' G F A E) as G'. assert (D : d <= 30). { pose proof (usized_31 _ _ (good_usized _ _ G')). lia. }
      destruct (add_full_added t d l F D A) as (t2 & E2 & _ & A1 & _). rewrite E in E2. apply Ok_inj in E2. subst t2. exists (d + 1). split; [exact G'|].
      exists (2 ^ d). split; [|right; rewrite pow2_S; lia]. rewrite get_leaf_at in A1.
      * unfold leaf_at in A1. unfold blank_at. intros B. rewrite B in A1. discriminate.
      * assert (2 ^ d <= 2 ^ 30) by (apply pow2_mono, D). change (2 ^ 30) with 1073741824 in *. lia.
    + pose proof (add_found_good t d i l t' G Li B C E) as G'. exists d. split; [exact G'|].
      destruct (add_found_added t d i l U Li B C) as (t2 & E2 & _ & A1 & A2 & _). rewrite E in E2. apply Ok_inj in E2. subst t2. apply (tight_keep t t' d m i M Hm); [|exact A2].
      rewrite get_leaf_at in A1. { unfold leaf_at in A1. intros Q. rewrite Q in A1. discriminate. }
      pose proof (usized_31 _ _ U) as D. assert (2 ^ d <= 2 ^ 31) by (apply pow2_mono, D). change (2 ^ 31) with 2147483648 in *. lia.
  - destruct (N.lt_ge_cases i (2 ^ d)) as [L|L]; [|rewrite (update_out t d i l U L) in E; discriminate]. right. exists d. split; [exact (update_good t d i l t' G L E)|].
    destruct (update_ok t d i l U L) as (t2 & E2 & _ & H). rewrite E in E2. apply Ok_inj in E2. subst t2. apply (tight_keep t t' d m i M Hm).
    + rewrite (proj1 (H (2 * i)) eq_refl). discriminate.
    + intros j Ne. apply (proj2 (proj2 (H (2 * j)))); [lia|apply path_not_leaf].
  - destruct (N.lt_ge_cases i (2 ^ d)) as [L|L]; [|rewrite (remove_out t d i U L) in E; discriminate].
    destruct (remove_good t d i t' G L E) as [->|(e & Le & G')]; [left; reflexivity|right]. exists e. split; [exact G'|].
    destruct (c18 t d i (g_size _ _ G) (g_small _ _ G) L) as (t2 & E2 & B & _ & K & _ & C). rewrite E in E2. apply Ok_inj in E2. subst t2.
    assert (KB : forall a, a <> i -> ~ blank_at t a -> ~ blank_at t' a).
    { intros a Na Ba Q. apply (good_leaf_at t d a G) in Ba as (x & X). rewrite <- K in X by exact Na. unfold leaf_at in X. unfold blank_at in Q. rewrite Q in X. discriminate. }
    destruct C as [(-> & _)|[(e' & a & _ & CS & _ & Na & Ba & Q)|(TL & a & Na & Ba & Q)]].
    + exfalso. destruct (g_size _ _ G') as [S|S]; red in S; pose proof (pow2_S e); pose proof (pow2_pos e); cbn in S; lia.
    + assert (e' = e) as -> by (apply (size_unique t'); [right; exact CS|exact (g_size _ _ G')]). exists a. split; [apply KB; assumption|exact Q].
    + assert (e = d). { apply (size_unique t'); [exact (g_size _ _ G')|]. destruct (g_size _ _ G) as [S|S]; [left|right]; red; red in S; congruence. }
      subst e. exists a. split; [apply KB; assumption|right; exact Q].
  - destruct (N.lt_ge_cases i (2 ^ d)) as [L|L]; [|rewrite (merge_out P cs t d i u U L) in E; discriminate]. right. exists d. split; [exact (merge_good P cs t d i u t' G L E)|].
    apply (c25 P cs t d i u t' (good_shaped t d G) L) in E. apply (tight_keep t t' d m i M Hm).
    + rewrite (mg_leaf _ _ _ _ _ _ _ E). discriminate.
    + intros j Ne. apply (mg_off _ _ _ _ _ _ _ E); [lia|apply path_not_leaf].
Qed.
Lemma reachable_tight P cs t : reachable P cs t -> exists d, good t d /\ tight t d.
Proof.
  intros (l & H & Ne). assert (X : forall t0, tree_history P cs t0 t -> (exists d, good t0 d /\ tight t0 d) -> t = [] \/ exists d, good t d /\ tight t d).
  { clear. intros t0 H. induction H as [t|t t1 t2 H IH S]; intros X; [right; exact X|]. destruct (IH X) as [->|(d & G & T)]; [exfalso; exact (step_empty P cs t2 S)|].
    exact (step_tight P cs t1 d t2 G T S). }
  destruct (X _ H) as [Q|Q]; [|contradiction|exact Q]. exists 0. split; [apply good_single|]. exists 0. split; [discriminate|auto].
Qed.

Lemma tget_app_blank c n x : tget (c ++ repeat None n) x = tget c x.
Proof.
  unfold tget, tlen. rewrite app_length, repeat_length. destruct (N.ltb_spec x (N.of_nat (length c))) as [L|L].
  - destruct (N.ltb_spec x (N.of_nat (length c + n))); [|lia]. apply app_nth1. lia.
  - destruct (N.ltb_spec x (N.of_nat (length c + n))); [|reflexivity]. rewrite app_nth2 by lia. rewrite nth_repeat. reflexivity.
Qed.

(** What is decoded is the full array of the same tree. *)
Lemma travel t d p rest : good t d -> tight t d -> wf_tree t -> se_ratchet_tree t = Ok p ->
  exists t', de_ratchet_tree (p ++ rest) = Ok (t', rest) /\ full_size t' d /\ forall x, tget t' x = tget t x.
Proof.
  intros G (m & M & Hm) W S. destruct (tree_rt t p rest W S) as (c & n & r & k & E & NT & D & Lk & Min). exists (c ++ repeat None r). split; [exact D|].
  assert (Q : forall x, tget (c ++ repeat None r) x = tget t x) by (intros x; rewrite E, !tget_app_blank; reflexivity). split; [|exact Q].
  assert (Lo : 2 * m < N.of_nat (length c)).
  { destruct (N.lt_ge_cases (2 * m) (N.of_nat (length c))) as [H|H]; [exact H|]. exfalso. apply M. red. rewrite E, tget_app_blank. apply tget_beyond. exact H. }
  assert (Hi : N.of_nat (length c) <= 2 ^ (d + 1) - 1).
  { destruct (exists_last (l := c)) as (c' & y & Q'); [intros ->; cbn in Lo; lia|]. subst c. destruct y as [nd|]; [|exfalso; exact (NT c' eq_refl)].
    assert (X : tget t (N.of_nat (length c')) = Some nd).
    { rewrite E, tget_app_blank. unfold tget, tlen. rewrite app_length. cbn [length]. destruct (N.ltb_spec (N.of_nat (length c')) (N.of_nat (length c' + 1))); [|lia].
      rewrite app_nth2 by lia. rewrite Nat2N.id, Nat.sub_diag. reflexivity. }
    apply (g_in _ _ G) in X. red in X. rewrite app_length. cbn [length]. lia. }
  assert (Kd : k = d + 1).
  { apply N.le_antisymm; [apply Min; pose proof (pow2_pos (d + 1)); lia|]. destruct (N.le_gt_cases (d + 1) k) as [H|H]; [exact H|exfalso].
    assert (2 ^ k <= 2 ^ d) by (apply pow2_mono; lia). destruct Hm as [->|Hm]; [|lia]. change (2 ^ 0) with 1 in *. lia. }
  subst k. red. unfold tlen. rewrite app_length, repeat_length. pose proof (pow2_pos (d + 1)). lia.
Qed.

Section Same.
  Variables (t t' : tree) (d : N).
  Hypotheses (G : good t d) (F : full_size t' d) (Q : forall x, tget t' x = tget t x).
  Lemma same_usized : usized t' d.
  Proof.
    pose proof (usized_31 t d (good_usized t d G)) as D. apply small_usized; [left; exact F|]. red in F. rewrite F. assert (2 ^ (d + 1) <= 2 ^ 32) by (apply pow2_mono; lia).
    change (2 ^ 32) with 4294967296 in *. pose proof (pow2_pos (d + 1)). lia.
  Qed.
  Lemma same_agree k j : agree t' t k j.
  Proof. intros x _. apply Q. Qed.
  Lemma same_hash P cs k j excl : k <= 31 -> tree_hash P cs t' (node_at k j) excl = tree_hash P cs t (node_at k j) excl.
  Proof. intros H. apply hash_agree; [exact H|apply same_agree]. Qed.
  Lemma same_root P cs : root_tree_hash P cs t' = root_tree_hash P cs t.
  Proof.
    rewrite (root_hash_node P cs t d (good_usized t d G)), (root_hash_node P cs t' d same_usized). apply same_hash. exact (usized_31 t d (good_usized t d G)).
  Qed.
  Lemma same_leaf i : leaf_at t' i = leaf_at t i.
  Proof. unfold leaf_at. rewrite Q. reflexivity. Qed.
  Lemma same_leaves_from : forall f i, leaves_from f t' i = leaves_from f t i.
  Proof. induction f as [|f IH]; intros i; cbn [leaves_from]; [reflexivity|]. unfold get_leaf. destruct (node_index i) as [x|e| |]; cbn [bind]; try reflexivity. rewrite Q, IH. reflexivity. Qed.
  Lemma same_leaves : leaves t' = leaves t.
  Proof. unfold leaves. rewrite (usized_leaves t' d same_usized), (usized_leaves t d (good_usized t d G)). apply same_leaves_from. Qed.
  Lemma same_creds : supported_creds t' = supported_creds t.
  Proof. unfold supported_creds. rewrite same_leaves. reflexivity. Qed.
  Lemma same_unmerged : unmerged_ok t'.
  Proof.
    destruct (g_unmerged t d G) as [A B C]. split.
    - intros k j p E. rewrite Q in E. exact (A k j p E).
    - intros k j p u E I. rewrite Q in E. destruct (B k j p u E I) as [B1 (l & B2)]. split; [exact B1|]. exists l. rewrite same_leaf. exact B2.
    - intros k j p u k' j' p' E I L Cv E'. rewrite Q in E, E'. exact (C k j p u k' j' p' E I L Cv E').
  Qed.
  Lemma same_good : good t' d.
  Proof.
    destruct G as [S1 S2 S3 S4 S5 S6 S7 S8]. pose proof same_usized as U. split.
    - left. exact F.
    - exact (usized_small t' d U).
    - intros x nd E. rewrite Q in E. exact (S3 x nd E).
    - intros i p E. rewrite Q in E. exact (S4 i p E).
    - intros k j l E. rewrite Q in E. exact (S5 k j l E).
    - exact same_unmerged.
    - intros k j p u i E I Cv L. unfold blank_at. rewrite Q in *. exact (S7 k j p u i E I Cv L).
    - intros k j p E. rewrite Q in E. destruct (S8 k j p E) as (a & b & C1 & C2 & C3 & C4). exists a, b. unfold blank_at in *. rewrite !Q. auto.
  Qed.
  Lemma same_integrity P ctx now : verify_integrity P t' ctx now = Ok tt <-> verify_integrity P t ctx now = Ok tt.
  Proof.
    pose proof same_good as G'. rewrite (verify_integrity_iff P t ctx now d (g_size _ _ G) (g_small _ _ G) (g_in _ _ G)), (verify_integrity_iff P t' ctx now d (g_size _ _ G') (g_small _ _ G') (g_in _ _ G')).
    split; intros [V1 V2 V3 V4 V5 V6 V7]; split.
    - rewrite <- same_root. exact V1.
    - intros k j p E. destruct (good_level31 t d k j p G E) as [K1 K2]. apply (valid_agree P (gc_suite ctx) t' t); [exact same_unmerged|lia|apply same_agree|]. apply V2. rewrite Q. exact E.
    - rewrite same_creds in V3. destruct V3 as (creds & E & V3). exists creds. split; [exact E|]. intros i l L. apply V3. rewrite same_leaf. exact L.
    - intros i i' l l' E E'. rewrite <- same_leaf in E, E'. exact (V4 i i' l l' E E').
    - intros x x' n n' E E'. rewrite <- Q in E, E'. exact (V5 x x' n n' E E').
    - intros k j p u E. rewrite <- Q in E. exact (V6 k j p u E).
    - intros k j p u k' j' p' E I L Cv E'. rewrite <- Q in E, E'. exact (V7 k j p u k' j' p' E I L Cv E').
    - rewrite same_root. exact V1.
    - intros k j p E. rewrite Q in E. destruct (good_level31 t d k j p G E) as [K1 K2]. apply (valid_agree P (gc_suite ctx) t t'); [exact (g_unmerged t d G)|lia|apply agree_sym, same_agree|]. apply V2. exact E.
    - rewrite same_creds. destruct V3 as (creds & E & V3). exists creds. split; [exact E|]. intros i l L. apply V3. rewrite <- same_leaf. exact L.
    - intros i i' l l' E E'. rewrite same_leaf in E, E'. exact (V4 i i' l l' E E').
    - intros x x' n n' E E'. rewrite Q in E, E'. exact (V5 x x' n n' E E').
    - intros k j p u E. rewrite Q in E. exact (V6 k j p u E).
    - intros k j p u k' j' p' E I L Cv E'. rewrite Q in E, E'. exact (V7 k j p u k' j' p' E I L Cv E').
  Qed.
End Same.

Lemma c73 P cs t p rest : reachable P cs t -> wf_tree t -> se_ratchet_tree t = Ok p ->
  exists t', de_ratchet_tree (p ++ rest) = Ok (t', rest) /\ (forall x, tget t' x = tget t x) /\
    (forall P' cs', root_tree_hash P' cs' t' = root_tree_hash P' cs' t) /\
    (forall P' ctx now, verify_integrity P' t' ctx now = Ok tt <-> verify_integrity P' t ctx now = Ok tt) /\
    keys t' = keys t /\ supported_creds t' = supported_creds t.
Proof.
  intros R W S. destruct (reachable_tight P cs t R) as (d & G & T). destruct (travel t d p rest G T W S) as (t' & D & F & Q). exists t'. split; [exact D|]. split; [exact Q|].
  split; [intros P' cs'; exact (same_root t t' d G F Q P' cs')|]. split; [intros P' ctx now; exact (same_integrity t t' d G F Q P' ctx now)|].
  split; [unfold keys; rewrite (same_leaves t t' d G F Q); reflexivity|exact (same_creds t t' d G F Q)].
Qed.

Lemma c73_full P cs t d p rest : reachable P cs t -> full_size t d -> wf_tree t -> se_ratchet_tree t = Ok p -> de_ratchet_tree (p ++ rest) = Ok (t, rest).
Proof.
  intros R Ft W S. destruct (reachable_tight P cs t R) as (d' & G & T). destruct (travel t d' p rest G T W S) as (t' & D & F & Q).
  assert (d' = d) by (apply (size_unique t); [exact (g_size _ _ G)|left; exact Ft]). subst d'. rewrite D. do 2 f_equal. red in F, Ft. unfold tlen in F, Ft.
  apply (nth_ext _ _ None None); [lia|]. intros n Hn. specialize (Q (N.of_nat n)). unfold tget, tlen in Q. rewrite Nat2N.id in Q.
  destruct (N.ltb_spec (N.of_nat n) (N.of_nat (length t'))); [|lia]. destruct (N.ltb_spec (N.of_nat n) (N.of_nat (length t))); [exact Q|lia].
Qed.
(** In an extension list. *)
Lemma c73_extension P cs t raw pre post b rest : reachable P cs t -> wf_tree t -> se_ratchet_tree_extension t = Ok raw -> wf_extensions pre -> wf_extensions post ->
  (forall e, In e pre -> ext_type e <> ExtRatchetTree) -> se_extensions (pre ++ MkExtension ExtRatchetTree raw :: post) = Ok b ->
  exists l t', de_extensions (b ++ rest) = Ok (l, rest) /\ find_extension_data l ExtRatchetTree = Some raw /\ de_exact de_ratchet_tree_extension raw = Ok t' /\
    (forall x, tget t' x = tget t x).
Proof.
  intros R W S Wp Wq N E. destruct (c73 P cs t raw [] R W S) as (t' & D & Q & _). rewrite app_nil_r in D.
  assert (We : wf_extensions (pre ++ MkExtension ExtRatchetTree raw :: post)) by (apply wf_around; [exact Wp|exact Wq|exists 2; split; reflexivity]).
  eexists. exists t'. split; [exact (codec_rt codec_extensions _ _ _ We E)|]. split; [apply find_ext_spec; eauto|]. split; [|exact Q].
  unfold de_exact, de_ratchet_tree_extension. rewrite D. reflexivity.
Qed.

(** ** Members who received the tree and members who made it come apart *)

(** Five members, the last and the second of whom leave; then a new one takes the second place. *)
Definition ex_old : tree := [Some (Leaf (ex_leaf x01)); None; Some (Leaf (ex_leaf x06)); None; Some (Leaf (ex_leaf x03)); None; Some (Leaf (ex_leaf x04)); None].
Definition ex_new : tree := [Some (Leaf (ex_leaf x01)); None; Some (Leaf (ex_leaf x06)); None; Some (Leaf (ex_leaf x03)); None; Some (Leaf (ex_leaf x04))].
Definition ex_steps : list tree :=
  let a4 := [Some (Leaf (ex_leaf x01)); None; Some (Leaf (ex_leaf x02)); None; Some (Leaf (ex_leaf x03)); None; Some (Leaf (ex_leaf x04))] in
  let a5 := (a4 ++ [None; Some (Leaf (ex_leaf x05)); None; None; None; None; None; None])%list in
  let r5 := (a4 ++ [None])%list in
  let r2 := [Some (Leaf (ex_leaf x01)); None; None; None; Some (Leaf (ex_leaf x03)); None; Some (Leaf (ex_leaf x04)); None] in
  [a4; a5; r5; r2].
Lemma ex_old_reachable : reachable toy Suite1 ex_old.
Proof.
  exists (ex_leaf x01). split; [|discriminate]. apply (hist _ _ _ (nth 3 ex_steps [])); [apply (hist _ _ _ (nth 2 ex_steps [])); [apply (hist _ _ _ (nth 1 ex_steps [])); [apply (hist _ _ _ (nth 0 ex_steps [])); [apply (hist _ _ _ ex_three); [exact ex_three_history|]| ]| ]| ]| ].
  - apply (ts_add _ _ _ (ex_leaf x04)); [exists 2; left; reflexivity|vm_compute; reflexivity].
  - apply (ts_add _ _ _ (ex_leaf x05)); [exists 2; left; reflexivity|vm_compute; reflexivity].
  - apply (ts_remove _ _ _ 4). vm_compute. reflexivity.
  - apply (ts_remove _ _ _ 1). vm_compute. reflexivity.
  - apply (ts_add _ _ _ (ex_leaf x06)); [|vm_compute; reflexivity]. exists 2. right. split; [reflexivity|]. exists 1. split; reflexivity.
Qed.
Definition ex_split : tree := ok_or [] (tree_add ex_old (ex_leaf x09)).
Lemma c73_split : exists P cs t p t' l a b, reachable P cs t /\ se_ratchet_tree t = Ok p /\ de_ratchet_tree p = Ok (t', []) /\
  tree_add t l = Ok a /\ tree_add t' l = Ok b /\ (forall i, leaf_at a i <> Some l) /\ leaf_at b 4 = Some l /\
  root_tree_hash P cs a = Err InvalidParentNode /\ exists h, root_tree_hash P cs b = Ok h.
Proof.
  exists toy, Suite1, ex_old, (ok_or [] (se_ratchet_tree ex_old)), ex_new, (ex_leaf x09), ex_split, (ok_or [] (tree_add ex_new (ex_leaf x09))).
  split; [exact ex_old_reachable|]. split; [vm_compute; reflexivity|]. split; [vm_compute; reflexivity|]. split; [vm_compute; reflexivity|]. split; [vm_compute; reflexivity|].
  split; [|split; [vm_compute; reflexivity|split; [vm_compute; reflexivity|eexists; vm_compute; reflexivity]]].
  intros i E. assert (X : tlen ex_split <= 18) by (vm_compute; discriminate).
  assert (C : i = 0 \/ i = 1 \/ i = 2 \/ i = 3 \/ i = 4 \/ i = 5 \/ i = 6 \/ i = 7 \/ i = 8 \/ 9 <= i) by lia.
  destruct C as [->|[->|[->|[->|[->|[->|[->|[->|[->|C]]]]]]]]]; try (vm_compute in E; discriminate). unfold leaf_at in E. rewrite tget_beyond in E by lia. discriminate.
Qed.
Lemma ex_old_travels : reachable toy Suite1 ex_old /\ wf_tree ex_old /\ exists p, se_ratchet_tree ex_old = Ok p /\ de_ratchet_tree p = Ok (ex_new, []) /\ ex_new <> ex_old.
Proof.
  split; [exact ex_old_reachable|]. split; [repeat (constructor; [first [exact I|apply ex_leaf_wf]|]); constructor|]. eexists. split; [vm_compute; reflexivity|]. split; [vm_compute; reflexivity|discriminate].
Qed.
