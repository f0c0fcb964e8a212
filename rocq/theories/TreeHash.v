(** The tree hash commits to the tree. *)
From Verif Require Export LeafFacts.
From Coq Require Import ZifyBool ZifyNat ZifyN.
Local Open Scope N_scope.

Lemma inside_cases k j x : inside (k + 1) j x -> x = node_at (k + 1) j \/ inside k (2 * j) x \/ inside k (2 * j + 1) x.
Proof.
  intros (k' & j' & L & -> & E). destruct (N.eq_dec k' (k + 1)) as [->|Q].
  - rewrite N.sub_diag in E. change (2 ^ 0) with 1 in E. rewrite N.div_1_r in E. subst. auto.
  - right. replace (k + 1 - k') with (k - k' + 1) in E by lia. rewrite pow2_S, (N.mul_comm 2), <- N.div_div in E by (try apply N.pow_nonzero; lia).
    pose proof (N.div_mod (j' / 2 ^ (k - k')) 2 ltac:(lia)) as D. pose proof (N.mod_lt (j' / 2 ^ (k - k')) 2 ltac:(lia)) as M.
    assert (C : j' / 2 ^ (k - k') = 2 * j \/ j' / 2 ^ (k - k') = 2 * j + 1) by lia.
    destruct C as [C|C]; [left|right]; exists k', j'; (split; [lia|split; [reflexivity|exact C]]).
Qed.
Lemma agree_split t t' k j : tget t (node_at (k + 1) j) = tget t' (node_at (k + 1) j) -> agree t t' k (2 * j) -> agree t t' k (2 * j + 1) -> agree t t' (k + 1) j.
Proof. intros H L R x I. apply inside_cases in I as [->|[I|I]]; auto. Qed.

Lemma tree_hash_fuel P cs t excl : forall k f f' j, (k <= 31)%nat -> (k <= f)%nat -> (k <= f')%nat ->
  tree_hash_f f P cs t (node_at (N.of_nat k) j) excl = tree_hash_f f' P cs t (node_at (N.of_nat k) j) excl.
Proof.
  induction k as [|k IH]; intros f f' j H L L'.
  - destruct f, f'; cbn [tree_hash_f]; rewrite leaf_index_node; reflexivity.
  - destruct f as [|f]; [lia|]. destruct f' as [|f']; [lia|]. cbn [tree_hash_f]. rewrite leaf_index_node. destruct (N.eqb_spec (N.of_nat (S k)) 0); [lia|].
    replace (N.of_nat (S k)) with (N.of_nat k + 1) by lia. rewrite children_node by lia. cbn [bind]. rewrite (IH f f' (2 * j)), (IH f f' (2 * j + 1)) by lia. reflexivity.
Qed.

Lemma leaf_hash_f f P cs t j excl h : tree_hash_f f P cs t (node_at 0 j) excl = Ok h -> exists l b H,
  hashed_leaf (tget t (2 * j)) (mem N.eqb j excl) = Ok l /\ leaf_hash_input j l = Ok b /\ p_hash P cs = Ok H /\ h = h_digest H b.
Proof.
  intros E. destruct f; cbn [tree_hash_f] in E; rewrite leaf_index_node in E; cbn [N.eqb] in E; rewrite node_at_leaf in E;
  (apply bind_ok in E as (b & Eb & E); apply bind_ok in Eb as (l & El & Eb); apply bind_ok in E as (H & EH & E); injection E as <-; exists l, b, H; auto).
Qed.
Lemma leaf_hash_ok P cs t j excl h : tree_hash P cs t (node_at 0 j) excl = Ok h -> exists l b H,
  hashed_leaf (tget t (2 * j)) (mem N.eqb j excl) = Ok l /\ leaf_hash_input j l = Ok b /\ p_hash P cs = Ok H /\ h = h_digest H b.
Proof. exact (leaf_hash_f 33 P cs t j excl h). Qed.
Lemma parent_hash_f f P cs t k j excl h : k < 31 -> (31 <= f)%nat -> tree_hash_f (S f) P cs t (node_at (k + 1) j) excl = Ok h -> exists lh rh p b H,
  tree_hash_f f P cs t (node_at k (2 * j)) excl = Ok lh /\ tree_hash_f f P cs t (node_at k (2 * j + 1)) excl = Ok rh /\
  hashed_parent (tget t (node_at (k + 1) j)) excl = Ok p /\ parent_node_hash_input p lh rh = Ok b /\ p_hash P cs = Ok H /\ h = h_digest H b.
Proof.
  intros L Lf E. cbn [tree_hash_f] in E. rewrite leaf_index_node in E. destruct (N.eqb_spec (k + 1) 0); [lia|]. rewrite children_node in E by lia. cbn [bind] in E.
  apply bind_ok in E as (b & Eb & E). apply bind_ok in Eb as (lh & El & Eb). apply bind_ok in Eb as (rh & Er & Eb). apply bind_ok in Eb as (p & Ep & Eb).
  apply bind_ok in E as (H & EH & E). injection E as <-. exists lh, rh, p, b, H. auto 10.
Qed.
Lemma parent_hash_ok P cs t k j excl h : k < 31 -> tree_hash P cs t (node_at (k + 1) j) excl = Ok h -> exists lh rh p b H,
  tree_hash P cs t (node_at k (2 * j)) excl = Ok lh /\ tree_hash P cs t (node_at k (2 * j + 1)) excl = Ok rh /\
  hashed_parent (tget t (node_at (k + 1) j)) excl = Ok p /\ parent_node_hash_input p lh rh = Ok b /\ p_hash P cs = Ok H /\ h = h_digest H b.
Proof.
  unfold tree_hash. intros L E. assert (F : (31 <= 32)%nat) by lia. pose proof (parent_hash_f 32 P cs t k j excl h L F E) as E'. clear E. destruct E' as (lh & rh & p & b & H & E1 & E2 & E3).
  exists lh, rh, p, b, H. rewrite <- E1, <- E2. rewrite <- (N2Nat.id k). rewrite !(tree_hash_fuel P cs t excl (N.to_nat k) 33 32) by lia. rewrite N2Nat.id. auto.
Qed.
Lemma hashed_leaf_nil n l : hashed_leaf n false = Ok l -> n = match l with Some lf => Some (Leaf lf) | None => None end.
Proof. unfold hashed_leaf. destruct n as [[lf|p]|]; intros E; try discriminate; injection E as <-; reflexivity. Qed.
Lemma hashed_parent_nil n p : hashed_parent n [] = Ok p -> n = match p with Some q => Some (Parent q) | None => None end.
Proof.
  unfold hashed_parent. destruct n as [[lf|q]|]; intros E; try discriminate; injection E as <-; [|reflexivity]. cbn. rewrite Bool.andb_false_r. reflexivity.
Qed.

Lemma leaf_input_inj i i' l l' b : opt_P wf_leaf_node l -> opt_P wf_leaf_node l' -> i < 4294967296 -> i' < 4294967296 ->
  leaf_hash_input i l = Ok b -> leaf_hash_input i' l' = Ok b -> i = i' /\ l = l'.
Proof.
  unfold leaf_hash_input. intros W W' L L' H H'. apply seqw_ok in H as (x & y & Hx & Hy & ->). apply seqw_ok in H' as (x' & y' & Hx' & Hy' & E).
  assert (U : is_u8 1) by reflexivity. destruct (codec_prefix_free codec_u8 _ _ _ _ _ _ U U Hx Hx' E) as [_ <-].
  apply seqw_ok in Hy as (u & v & Hu & Hv & ->). apply seqw_ok in Hy' as (u' & v' & Hu' & Hv' & E').
  destruct (codec_prefix_free codec_u32 _ _ _ _ _ _ L L' Hu Hu' E') as [-> <-]. split; [reflexivity|].
  exact (codec_inj (codec_option _ _ _ codec_leaf_node) _ _ _ W W' Hv Hv').
Qed.
Lemma parent_input_inj p p' l l' r r' b : opt_P wf_parent_node p -> opt_P wf_parent_node p' ->
  parent_node_hash_input p l r = Ok b -> parent_node_hash_input p' l' r' = Ok b -> p = p' /\ l = l' /\ r = r'.
Proof.
  unfold parent_node_hash_input. intros W W' H H'. apply seqw_ok in H as (x & y & Hx & Hy & ->). apply seqw_ok in H' as (x' & y' & Hx' & Hy' & E).
  assert (U : is_u8 2) by reflexivity. destruct (codec_prefix_free codec_u8 _ _ _ _ _ _ U U Hx Hx' E) as [_ <-].
  apply seqw_ok in Hy as (u & v & Hu & Hv & ->). apply seqw_ok in Hy' as (u' & v' & Hu' & Hv' & E').
  destruct (codec_prefix_free (codec_option _ _ _ codec_parent_node) _ _ _ _ _ _ W W' Hu Hu' E') as [-> <-]. split; [reflexivity|].
  apply seqw_ok in Hv as (a & c & Ha & Hc & ->). apply seqw_ok in Hv' as (a' & c' & Ha' & Hc' & E'').
  destruct (codec_prefix_free codec_opaque _ _ _ _ _ _ I I Ha Ha' E'') as [-> <-]. split; [reflexivity|].
  exact (codec_inj codec_opaque _ _ _ I I Hc Hc').
Qed.
Lemma leaf_parent_input i l p lh rh b : leaf_hash_input i l = Ok b -> parent_node_hash_input p lh rh = Ok b -> False.
Proof.
  unfold leaf_hash_input, parent_node_hash_input. intros H H'. apply seqw_ok in H as (x & y & Hx & Hy & ->). apply seqw_ok in H' as (x' & y' & Hx' & Hy' & E).
  assert (U1 : is_u8 1) by reflexivity. assert (U : is_u8 2) by reflexivity. destruct (codec_prefix_free codec_u8 _ _ _ _ _ _ U1 U Hx Hx' E) as [Q _]. discriminate.
Qed.

Lemma bytes_dec (a b : bytes) : a = b \/ a <> b.
Proof. destruct (bytes_eqb a b) eqn:E; [left; apply bytes_eqb_eq, E|right; intros ->]. rewrite (proj2 (bytes_eqb_eq b b) eq_refl) in E. discriminate. Qed.

Lemma hash_binds P cs t t' : nodes_wf t -> nodes_wf t' -> forall k k' j j' h, k <= 31 -> k' <= 31 -> j < 2 ^ (31 - k) -> j' < 2 ^ (31 - k') ->
  tree_hash P cs t (node_at k j) [] = Ok h -> tree_hash P cs t' (node_at k' j') [] = Ok h ->
  (k = k' /\ j = j' /\ agree t t' k j) \/ collision P cs t t'.
Proof.
  intros W W' k. induction k as [|k IH] using N.peano_ind; intros k' j j' h Hk Hk' Hj Hj' E E'.
  - apply leaf_hash_ok in E as (l & b & H & El & Eb & EH & ->). change (mem N.eqb j []) with false in El. apply hashed_leaf_nil in El.
    assert (HA : hashed_at P cs t (2 * j) b). { left. exists j. split; [reflexivity|]. unfold leaf_at. rewrite El. destruct l; exact Eb. }
    destruct (N.eq_dec k' 0) as [->|Q].
    + apply leaf_hash_ok in E' as (l' & b' & H' & El' & Eb' & EH' & ED). change (mem N.eqb j' []) with false in El'. apply hashed_leaf_nil in El'.
      assert (HA' : hashed_at P cs t' (2 * j') b'). { left. exists j'. split; [reflexivity|]. unfold leaf_at. rewrite El'. destruct l'; exact Eb'. }
      replace H' with H in ED by congruence. destruct (bytes_dec b b') as [<-|Ne]; [left|right; exists H, (2 * j), (2 * j'), b, b'; auto].
      change (31 - 0) with 31 in *. change (2 ^ 31) with 2147483648 in *.
      destruct (leaf_input_inj j j' l l' b) as [<- <-]; [destruct l; [apply (W _ _ El)|exact I]|destruct l'; [apply (W' _ _ El')|exact I]|lia|lia|exact Eb|exact Eb'|].
      split; [reflexivity|]. split; [reflexivity|]. intros x (k0 & j0 & L & -> & D). assert (k0 = 0) by lia. subst k0. change (2 ^ (0 - 0)) with 1 in D. rewrite N.div_1_r in D. subst j0.
      rewrite node_at_leaf. congruence.
    + right. replace k' with (k' - 1 + 1) in * by lia. apply parent_hash_ok in E' as (lh & rh & p & b' & H' & Hl & Hr & Ep & Eb' & EH' & ED); [|lia].
      apply hashed_parent_nil in Ep. exists H, (2 * j), (node_at (k' - 1 + 1) j'), b, b'. split; [exact EH|]. split; [exact HA|]. split.
      { right. exists (k' - 1), j', lh, rh. rewrite Ep. destruct p; auto. }
      split; [intros <-; eapply leaf_parent_input; eassumption|]. congruence.
  - rewrite <- N.add_1_r in *. apply parent_hash_ok in E as (lh & rh & p & b & H & Hl & Hr & Ep & Eb & EH & ->); [|lia]. apply hashed_parent_nil in Ep.
    assert (HA : hashed_at P cs t (node_at (k + 1) j) b). { right. exists k, j, lh, rh. rewrite Ep. destruct p; auto. }
    destruct (N.eq_dec k' 0) as [->|Q].
    + right. apply leaf_hash_ok in E' as (l' & b' & H' & El' & Eb' & EH' & ED). change (mem N.eqb j' []) with false in El'. apply hashed_leaf_nil in El'.
      exists H, (node_at (k + 1) j), (2 * j'), b, b'. split; [exact EH|]. split; [exact HA|]. split.
      { left. exists j'. split; [reflexivity|]. unfold leaf_at. rewrite El'. destruct l'; exact Eb'. }
      split; [intros <-; eapply leaf_parent_input; eassumption|]. congruence.
    + assert (exists m, k' = m + 1) as (m & Qm) by (exists (k' - 1); lia). subst k'. apply parent_hash_ok in E' as (lh' & rh' & p' & b' & H' & Hl' & Hr' & Ep' & Eb' & EH' & ED); [|lia]. apply hashed_parent_nil in Ep'.
      assert (HA' : hashed_at P cs t' (node_at (m + 1) j') b'). { right. exists m, j', lh', rh'. rewrite Ep'. destruct p'; auto. }
      replace H' with H in ED by congruence. destruct (bytes_dec b b') as [<-|Ne]; [|right; do 5 eexists; eauto].
      destruct (parent_input_inj p p' lh lh' rh rh' b) as (<- & <- & <-); [destruct p; [apply (W _ _ Ep)|exact I]|destruct p'; [apply (W' _ _ Ep')|exact I]|exact Eb|exact Eb'|].
      assert (Z : 2 ^ (31 - k) = 2 * 2 ^ (31 - (k + 1))) by (rewrite <- pow2_S; f_equal; lia). assert (Z' : 2 ^ (31 - m) = 2 * 2 ^ (31 - (m + 1))) by (rewrite <- pow2_S; f_equal; lia).
      destruct (IH m (2 * j) (2 * j') lh) as [(Km & J & A)|C]; [lia|lia|lia|lia|exact Hl|exact Hl'| |right; exact C]. subst m.
      destruct (IH k (2 * j + 1) (2 * j' + 1) rh) as [(_ & _ & A')|C]; [lia|lia|lia|lia|exact Hr|exact Hr'| |right; exact C].
      assert (j = j') by lia. subst j'. left. split; [reflexivity|]. split; [reflexivity|]. apply agree_split; [congruence|exact A|exact A'].
Qed.

Lemma inside_root d x : in_tree d x -> inside d 0 x.
Proof.
  intros H. destruct (node_decomp x) as (k & j & ->). destruct (N.le_gt_cases k d) as [L|L].
  - exists k, j. split; [exact L|]. split; [reflexivity|]. apply N.div_small. unfold in_tree, node_at in H. assert (Q : 2 ^ (d + 1) = 2 ^ (d - k) * 2 ^ (k + 1)) by (rewrite <- N.pow_add_r; f_equal; lia).
    pose proof (pow2_S k). pose proof (pow2_pos k). rewrite Q in H. set (a := 2 ^ (d - k)) in *. destruct (N.lt_ge_cases j a); [assumption|]. nia.
  - exfalso. unfold in_tree, node_at in H. assert (2 ^ (d + 1) <= 2 ^ k) by (apply pow2_mono; lia). pose proof (pow2_pos k). nia.
Qed.
Lemma root_hash_node P cs t d : usized t d -> root_tree_hash P cs t = tree_hash P cs t (node_at d 0) [].
Proof.
  intros U. unfold root_tree_hash. rewrite (usized_leaves t d U). pose proof (usized_31 t d U) as Q.
  assert (2 ^ d <= 2 ^ 31) by (apply pow2_mono; exact Q). pose proof (pow2_pos d). change (2 ^ 31) with 2147483648 in *.
  rewrite root_ok by lia. cbn [bind]. rewrite depth_pow2, node_at_root. reflexivity.
Qed.

Lemma c23 P cs t t' d d' h : tsized t d -> tsized t' d' -> tlen t < 4294967296 -> tlen t' < 4294967296 -> nodes_wf t -> nodes_wf t' ->
  root_tree_hash P cs t = Ok h -> root_tree_hash P cs t' = Ok h ->
  (d = d' /\ forall x, in_tree d x -> tget t x = tget t' x) \/ collision P cs t t'.
Proof.
  intros S S' L L' W W' E E'. pose proof (small_usized t d S L) as U. pose proof (small_usized t' d' S' L') as U'.
  rewrite (root_hash_node P cs t d U) in E. rewrite (root_hash_node P cs t' d' U') in E'. pose proof (usized_31 t d U). pose proof (usized_31 t' d' U').
  destruct (hash_binds P cs t t' W W' d d' 0 0 h) as [(<- & _ & A)|C]; try assumption; [apply pow2_pos|apply pow2_pos|left|right; exact C].
  split; [reflexivity|]. intros x I. apply A, inside_root, I.
Qed.
Lemma c23_good P cs t t' d d' h : good t d -> good t' d' -> nodes_wf t -> nodes_wf t' ->
  root_tree_hash P cs t = Ok h -> root_tree_hash P cs t' = Ok h ->
  (forall x, tget t x = tget t' x) \/ collision P cs t t'.
Proof.
  intros G G' W W' E E'. destruct (c23 P cs t t' d d' h (g_size _ _ G) (g_size _ _ G') (g_small _ _ G) (g_small _ _ G') W W' E E') as [[<- A]|C]; [left|right; exact C].
  intros x. destruct (N.lt_ge_cases x (2 ^ (d + 1) - 1)) as [Q|Q]; [apply A, Q|].
  destruct (tget t x) as [nd|] eqn:X; [apply (g_in _ _ G) in X; red in X; lia|]. destruct (tget t' x) as [nd|] eqn:X'; [apply (g_in _ _ G') in X'; red in X'; lia|reflexivity].
Qed.
Lemma c23_in P cs t t' d d' h : tsized t d -> tlen t < 4294967296 -> (forall x nd, tget t x = Some nd -> in_tree d x) ->
  tsized t' d' -> tlen t' < 4294967296 -> (forall x nd, tget t' x = Some nd -> in_tree d' x) -> nodes_wf t -> nodes_wf t' ->
  root_tree_hash P cs t = Ok h -> root_tree_hash P cs t' = Ok h ->
  (forall x, tget t x = tget t' x) \/ collision P cs t t'.
Proof.
  intros S L I S' L' I' W W' E E'. destruct (c23 P cs t t' d d' h S S' L L' W W' E E') as [[<- A]|C]; [left|right; exact C].
  intros x. destruct (N.lt_ge_cases x (2 ^ (d + 1) - 1)) as [Q|Q]; [apply A, Q|].
  destruct (tget t x) as [nd|] eqn:X; [apply I in X; red in X; lia|]. destruct (tget t' x) as [nd|] eqn:X'; [apply I' in X'; red in X'; lia|reflexivity].
Qed.
(** With an injective digest there is no collision, so the digest determines the tree. *)
Lemma no_collision P cs t t' : (forall H a b, p_hash P cs = Ok H -> h_digest H a = h_digest H b -> a = b) -> ~ collision P cs t t'.
Proof. intros I (H & x & x' & b & b' & E & _ & _ & N & D). apply N. eapply I; eassumption. Qed.
(** The last slot of a cut array is not covered. *)
Lemma c23_refuted : exists P cs t t' d h, tsized t d /\ tsized t' d /\ nodes_wf t /\ nodes_wf t' /\ root_tree_hash P cs t = Ok h /\ root_tree_hash P cs t' = Ok h /\ t <> t' /\
  forall H a b, p_hash P cs = Ok H -> h_digest H a = h_digest H b -> a = b.
Proof.
  assert (TG : forall n, forall x nd, tget [Some (Leaf (ex_leaf x01)); n] x = Some nd -> nd = Leaf (ex_leaf x01) \/ n = Some nd).
  { intros n x nd E. assert (C : x = 0 \/ x = 1 \/ 2 <= x) by lia. destruct C as [C|[C|C]]; [subst x; injection E as <-; auto|subst x; right; exact E|]. rewrite tget_beyond in E; [discriminate|exact C]. }
  exists toy, Suite1, [Some (Leaf (ex_leaf x01)); None], [Some (Leaf (ex_leaf x01)); Some (Leaf (ex_leaf x02))], 0. eexists.
  split; [right; reflexivity|]. split; [right; reflexivity|]. split. { intros x nd E. apply TG in E as [->|E]; [apply ex_leaf_wf|discriminate]. }
  split. { intros x nd E. apply TG in E as [->|E]; [apply ex_leaf_wf|injection E as <-; apply ex_leaf_wf]. }
  split; [vm_compute; reflexivity|]. split; [vm_compute; reflexivity|]. split; [discriminate|].
  intros H a b E. injection E as <-. auto.
Qed.
