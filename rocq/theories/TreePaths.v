(** Resolution, filtered direct path and tree hashes: they look only at the subtree they are asked about. *)
From Verif Require Export TreeOps.
From Coq Require Import ZifyBool ZifyNat ZifyN.
Local Open Scope N_scope.

Lemma bytes_eqb_eq x y : bytes_eqb x y = true <-> x = y.
Proof. unfold bytes_eqb. destruct (list_eq_dec Byte.byte_eq_dec x y); split; congruence. Qed.

(** ** resolve *)

Lemma node_indices_ok l : (forall u, In u l -> u < 2147483648) -> node_indices l = Ok (map (fun u => 2 * u) l).
Proof.
  induction l as [|u l IH]; intros H; cbn [node_indices map]; [reflexivity|].
  unfold node_index, mul32, u32_max. pose proof (H u (or_introl eq_refl)). destruct (N.leb_spec (2 * u) 4294967295); [|lia].
  cbn [bind]. rewrite IH by (intros; apply H; right; assumption). reflexivity.
Qed.

Lemma resolve_f_ok t : small_unmerged t -> forall k fuel j, (k <= 31)%nat -> (k <= fuel)%nat ->
  resolve_f fuel t (node_at (N.of_nat k) j) = Ok (resolution t k j).
Proof.
  intros SU k. induction k as [|k IH]; intros fuel j Hk Hf.
  - destruct fuel; cbn [resolve_f resolution]; destruct (tget t (node_at (N.of_nat 0) j)) as [[l|p]|] eqn:G;
      try reflexivity; try (rewrite node_indices_ok by (intros u Iu; eapply SU; eassumption); reflexivity);
      change (N.of_nat 0) with 0; rewrite children_leaf; reflexivity.
  - destruct fuel as [|fuel]; [lia|]. cbn [resolve_f resolution]. destruct (tget t (node_at (N.of_nat (S k)) j)) as [[l|p]|] eqn:G.
    + reflexivity.
    + rewrite node_indices_ok by (intros u Iu; eapply SU; eassumption). reflexivity.
    + replace (N.of_nat (S k)) with (N.of_nat k + 1) by lia. rewrite children_node by lia. cbn [bind].
      rewrite !IH by lia. reflexivity.
Qed.
Lemma resolve_ok t k j : small_unmerged t -> k <= 31 -> resolve t (node_at k j) = Ok (resolution t (N.to_nat k) j).
Proof.
  intros SU Hk. unfold resolve. rewrite <- (N2Nat.id k) at 1. apply resolve_f_ok; [exact SU|lia|lia].
Qed.

(** ** Subtrees *)

(** [x] is in the subtree of the node at level [k], position [j]. *)
Definition inside (k j x : N) : Prop := exists k' j', k' <= k /\ x = node_at k' j' /\ j' / 2 ^ (k - k') = j.
Definition agree (t t' : tree) (k j : N) : Prop := forall x, inside k j x -> tget t x = tget t' x.

Lemma inside_refl k j : inside k j (node_at k j).
Proof. exists k, j. rewrite N.sub_diag. change (2 ^ 0) with 1. rewrite N.div_1_r. split; [lia|auto]. Qed.
Lemma inside_half k j j2 x : j2 / 2 = j -> inside k j2 x -> inside (k + 1) j x.
Proof.
  intros <- (k' & j' & L & -> & <-). exists k', j'. split; [lia|]. split; [reflexivity|].
  replace (k + 1 - k') with (k - k' + 1) by lia. rewrite pow2_S, (N.mul_comm 2), N.div_div; [reflexivity| |]; pose proof (pow2_pos (k - k')); lia.
Qed.
Lemma half_l j : 2 * j / 2 = j.
Proof. rewrite N.mul_comm. apply N.div_mul. lia. Qed.
Lemma half_r j : (2 * j + 1) / 2 = j.
Proof. replace (2 * j + 1) with (1 + j * 2) by lia. rewrite N.div_add by lia. change (1 / 2) with 0. lia. Qed.
Lemma inside_l k j x : inside k (2 * j) x -> inside (k + 1) j x.
Proof. apply inside_half, half_l. Qed.
Lemma inside_r k j x : inside k (2 * j + 1) x -> inside (k + 1) j x.
Proof. apply inside_half, half_r. Qed.
Lemma inside_split k j x : inside (k + 1) j x -> x = node_at (k + 1) j \/ inside k (2 * j) x \/ inside k (2 * j + 1) x.
Proof.
  intros (k' & j' & L & -> & E). destruct (N.eq_dec k' (k + 1)) as [->|Ne].
  - left. rewrite N.sub_diag in E. change (2 ^ 0) with 1 in E. rewrite N.div_1_r in E. subst. reflexivity.
  - right. replace (k + 1 - k') with (k - k' + 1) in E by lia. rewrite pow2_S, (N.mul_comm 2), <- N.div_div in E by (pose proof (pow2_pos (k - k')); lia).
    set (q := j' / 2 ^ (k - k')) in *. pose proof (N.div_mod q 2 ltac:(lia)) as D. pose proof (N.mod_lt q 2 ltac:(lia)) as M. rewrite E in D.
    destruct (N.eq_dec (q mod 2) 0) as [Z|Z]; [left|right]; exists k', j'; (split; [lia|]); (split; [reflexivity|]); fold q; lia.
Qed.
Lemma inside_leaf k j i : inside k j (2 * i) <-> covers k j i.
Proof.
  rewrite covers_div. split.
  - intros (k' & j' & L & E & D). rewrite <- node_at_leaf in E. apply node_at_inj in E as [<- <-]. rewrite N.sub_0_r in D. exact D.
  - intros D. exists 0, i. rewrite node_at_leaf, N.sub_0_r. split; [lia|auto].
Qed.
Lemma inside_covers k j k' j' : inside k j (node_at k' j') -> k' <= k /\ forall i, covers k' j' i -> covers k j i.
Proof.
  intros (k2 & j2 & L & E & D). apply node_at_inj in E as [<- <-]. split; [exact L|]. intros i. rewrite !covers_div. intros <-.
  rewrite <- D. rewrite N.div_div by (pose proof (pow2_pos k'); pose proof (pow2_pos (k - k')); lia). f_equal. rewrite <- N.pow_add_r. f_equal. lia.
Qed.
Lemma covers_inside k j k' j' i : k' <= k -> covers k' j' i -> covers k j i -> inside k j (node_at k' j').
Proof.
  intros L. rewrite !covers_div. intros <- <-. exists k', (i / 2 ^ k'). split; [exact L|]. split; [reflexivity|].
  rewrite N.div_div by (pose proof (pow2_pos k'); pose proof (pow2_pos (k - k')); lia). f_equal. rewrite <- N.pow_add_r. f_equal. lia.
Qed.

(** A subtree that does not contain leaf [i] contains no ancestor of [i], and not leaf [i]. *)
Lemma inside_off_path d k j i x : ~ covers k j i -> inside k j x -> x <> 2 * i /\ ~ on_path d i x.
Proof.
  intros NC I. split.
  - intros ->. apply NC. apply inside_leaf. exact I.
  - intros (k' & j' & Hk & -> & C). apply NC. destruct (inside_covers _ _ _ _ I) as [_ H]. apply H, C.
Qed.

Lemma agree_sym t t' k j : agree t t' k j -> agree t' t k j.
Proof. intros H x I. symmetry. apply H, I. Qed.
Lemma agree_trans t t' t'' k j : agree t t' k j -> agree t' t'' k j -> agree t t'' k j.
Proof. intros H H' x I. rewrite H by exact I. apply H', I. Qed.
Lemma agree_l t t' k j : agree t t' (k + 1) j -> agree t t' k (2 * j).
Proof. intros H x I. apply H, inside_l, I. Qed.
Lemma agree_r t t' k j : agree t t' (k + 1) j -> agree t t' k (2 * j + 1).
Proof. intros H x I. apply H, inside_r, I. Qed.
Lemma agree_self t t' k j : agree t t' k j -> tget t (node_at k j) = tget t' (node_at k j).
Proof. intros H. apply H, inside_refl. Qed.

Lemma resolution_agree t t' : forall k j, agree t t' (N.of_nat k) j -> resolution t k j = resolution t' k j.
Proof.
  induction k as [|k IH]; intros j A; cbn [resolution]; rewrite (agree_self _ _ _ _ A); [reflexivity|].
  destruct (tget t' (node_at (N.of_nat (S k)) j)) as [[l|p]|]; try reflexivity.
  replace (N.of_nat (S k)) with (N.of_nat k + 1) in A by lia. rewrite (IH (2 * j)), (IH (2 * j + 1)); auto using agree_l, agree_r.
Qed.

Lemma leaf_index_node k j : leaf_index (node_at k j) = if k =? 0 then Some j else None.
Proof.
  unfold leaf_index, is_leaf. destruct (N.eqb_spec k 0) as [->|E].
  - rewrite node_at_leaf. rewrite N.mul_comm, N.mod_mul by lia. cbn. rewrite N.shiftr_div_pow2. change (2 ^ 1) with 2. rewrite N.div_mul by lia. reflexivity.
  - assert (M : node_at k j mod 2 = 1).
    { pose proof (node_at_S k j) as S. replace k with (k - 1 + 1) in S at 2 by lia. rewrite pow2_S in S.
      pose proof (N.div_mod (node_at k j) 2 ltac:(lia)). pose proof (N.mod_lt (node_at k j) 2 ltac:(lia)). nia. }
    rewrite M. reflexivity.
Qed.

Lemma tree_hash_agree P cs t t' excl : forall k fuel j, (k <= 31)%nat -> agree t t' (N.of_nat k) j ->
  tree_hash_f fuel P cs t (node_at (N.of_nat k) j) excl = tree_hash_f fuel P cs t' (node_at (N.of_nat k) j) excl.
Proof.
  intros k. induction k as [|k IH]; intros fuel j Hk A.
  - destruct fuel; cbn [tree_hash_f]; rewrite leaf_index_node, (agree_self _ _ _ _ A); reflexivity.
  - destruct fuel; cbn [tree_hash_f]; rewrite leaf_index_node; (destruct (N.eqb_spec (N.of_nat (S k)) 0); [lia|]);
      rewrite ?(agree_self _ _ _ _ A); replace (N.of_nat (S k)) with (N.of_nat k + 1) in * by lia; rewrite children_node by lia; cbn [bind]; [reflexivity|].
    rewrite (IH fuel (2 * j)), (IH fuel (2 * j + 1)); auto using agree_l, agree_r; lia.
Qed.

(** ** filtered_direct_path *)

Definition sib (j : N) : N := if N.even j then j + 1 else j - 1.
Lemma sib_half j : sib j / 2 = j / 2.
Proof.
  unfold sib. destruct (N.even j) eqn:E.
  - apply N.even_spec in E as [m ->]. rewrite half_l. apply half_r.
  - assert (O : N.odd j = true) by (rewrite <- N.negb_even, E; reflexivity). apply N.odd_spec in O as [m ->].
    replace (2 * m + 1 - 1) with (2 * m) by lia. rewrite half_l, half_r. reflexivity.
Qed.
Lemma sib_neq j : sib j <> j.
Proof. unfold sib. destruct (N.even j) eqn:E; [lia|]. destruct (N.eq_dec j 0) as [->|]; [discriminate|lia]. Qed.
Lemma sib_bit j : sib j = if j mod 2 =? 0 then j + 1 else j - 1.
Proof. unfold sib. pose proof (N.mod_lt j 2 ltac:(lia)). pose proof (N.div_mod j 2 ltac:(lia)) as D.
  destruct (N.even j) eqn:E; destruct (N.eqb_spec (j mod 2) 0) as [Z|Z]; try reflexivity.
  - apply N.even_spec in E as [m Em]. rewrite Em, N.mul_comm, N.mod_mul in Z; lia.
  - assert (N.even j = true) by (apply N.even_spec; exists (j / 2); lia). congruence.
Qed.

Fixpoint fpath (t : tree) (m : nat) (k j : N) : list N :=
  match m with
  | O => []
  | S m' => if Nat.eqb (length (resolution t (N.to_nat k) (sib j))) 0 then fpath t m' (k + 1) (j / 2)
            else node_at (k + 1) (j / 2) :: fpath t m' (k + 1) (j / 2)
  end.

Lemma filtered_ok t n : small_unmerged t -> 0 < n -> n <= 2147483648 -> forall fuel k j, k <= depth n -> j < 2 ^ (depth n - k) ->
  depth n - k <= N.of_nat fuel ->
  filtered_path_f fuel t n (node_at k j) = Ok (fpath t (N.to_nat (depth n - k)) k j).
Proof.
  intros SU Hn Ln fuel. pose proof (depth_lt n Hn Ln) as D31. induction fuel as [|fuel IH]; intros k j Hk Hj Hf; cbn [filtered_path_f].
  - assert (k = depth n) by lia. subst k. rewrite N.sub_diag in *. change (2 ^ 0) with 1 in Hj. assert (j = 0) by lia. subst j.
    rewrite parent_root by assumption. reflexivity.
  - destruct (N.eq_dec k (depth n)) as [->|Ne].
    + rewrite N.sub_diag in *. change (2 ^ 0) with 1 in Hj. assert (j = 0) by lia. subst j. rewrite parent_root by assumption. reflexivity.
    + rewrite parent_in by (assumption || lia). cbn [bind]. rewrite sibling_in by (assumption || lia). cbn [bind]. fold (sib j).
      rewrite resolve_ok by (assumption || lia). cbn [bind]. unfold step_up. destruct (step_up_in (depth n) k j) as [A B]; [lia|exact Hj|].
      rewrite IH by (assumption || lia). cbn [bind]. replace (N.to_nat (depth n - k)) with (S (N.to_nat (depth n - (k + 1)))) by lia.
      cbn [fpath]. destruct (Nat.eqb _ 0); reflexivity.
Qed.
Lemma filtered_leaf t d i : small_unmerged t -> usized t d -> i < 2 ^ d ->
  filtered_direct_path t (2 * i) = Ok (fpath t (N.to_nat d) 0 i).
Proof.
  intros SU U Hi. unfold filtered_direct_path. pose proof (usized_31 t d U) as Hd. rewrite (usized_leaves t d U). d31. rewrite <- node_at_leaf.
  rewrite filtered_ok; try assumption; rewrite depth_pow2, ?N.sub_0_r; try reflexivity; try assumption; lia.
Qed.

Lemma fpath_in t m : forall k j x, In x (fpath t m k j) <->
  exists e, e < N.of_nat m /\ x = node_at (k + e + 1) (j / 2 ^ (e + 1)) /\ resolution t (N.to_nat (k + e)) (sib (j / 2 ^ e)) <> [].
Proof.
  induction m as [|m IH]; intros k j x.
  - cbn. split; [tauto|]. intros (e & L & _). lia.
  - cbn [fpath]. assert (Q : In x (fpath t m (k + 1) (j / 2)) <-> exists e, 0 < e /\ e < N.of_nat (S m) /\ x = node_at (k + e + 1) (j / 2 ^ (e + 1)) /\ resolution t (N.to_nat (k + e)) (sib (j / 2 ^ e)) <> []).
    { rewrite IH. assert (DD : forall e, j / 2 / 2 ^ e = j / 2 ^ (e + 1)). { intros e. rewrite pow2_S, N.div_div; [reflexivity|lia|pose proof (pow2_pos e); lia]. }
      split.
      - intros (e & L & E & R). exists (e + 1). rewrite !DD in *. split; [lia|]. split; [lia|]. replace (k + (e + 1)) with (k + 1 + e) by lia. split; [exact E|exact R].
      - intros (e & L0 & L & E & R). exists (e - 1). rewrite !DD. replace (e - 1 + 1) with e by lia. replace (k + 1 + (e - 1)) with (k + e) by lia.
        split; [lia|]. split; [exact E|exact R]. }
    assert (Z : j / 2 ^ 0 = j) by (change (2 ^ 0) with 1; apply N.div_1_r).
    destruct (Nat.eqb_spec (length (resolution t (N.to_nat k) (sib j))) 0) as [E0|E0].
    + rewrite Q. split; [intros (e & _ & L & H); exists e; auto|]. intros (e & L & E & R). exists e. destruct (N.eq_dec e 0) as [->|]; [|split; [lia|auto]].
      exfalso. rewrite Z, N.add_0_r in R. apply R. destruct (resolution t (N.to_nat k) (sib j)); [reflexivity|discriminate].
    + cbn [In]. rewrite Q. split.
      * intros [<-|(e & _ & L & H)]; [|exists e; auto]. exists 0. split; [lia|]. rewrite Z, N.add_0_r. split; [reflexivity|]. intros E. apply E0. rewrite E. reflexivity.
      * intros (e & L & E & R). destruct (N.eq_dec e 0) as [->|]; [left|right; exists e; split; [lia|auto]].
        rewrite E, N.add_0_r. reflexivity.
Qed.
Lemma fpath_on_path t d i x : In x (fpath t (N.to_nat d) 0 i) -> on_path d i x.
Proof.
  rewrite fpath_in. intros (e & L & -> & _). exists (e + 1), (i / 2 ^ (e + 1)). rewrite covers_div. split; [lia|]. split; [f_equal; lia|reflexivity].
Qed.
Lemma fpath_levels t m : forall k j x, In x (fpath t m k j) -> exists k' j', k < k' /\ x = node_at k' j'.
Proof. intros k j x. rewrite fpath_in. intros (e & _ & -> & _). eexists _, _. split; [|reflexivity]. lia. Qed.
Lemma NoDup_fpath t m : forall k j, NoDup (fpath t m k j).
Proof.
  induction m as [|m IH]; intros k j; cbn [fpath]; [constructor|]. destruct (Nat.eqb _ 0); [apply IH|]. constructor; [|apply IH].
  intros I. apply fpath_levels in I as (k' & j' & L & E). apply node_at_inj in E. lia.
Qed.
Lemma fpath_agree t t' m : forall k j, (forall e, e < N.of_nat m -> agree t t' (k + e) (sib (j / 2 ^ e))) -> fpath t m k j = fpath t' m k j.
Proof.
  induction m as [|m IH]; intros k j H; cbn [fpath]; [reflexivity|].
  assert (Z : j / 2 ^ 0 = j) by (change (2 ^ 0) with 1; apply N.div_1_r).
  rewrite (resolution_agree t t' (N.to_nat k) (sib j)).
  2:{ rewrite N2Nat.id. specialize (H 0). rewrite Z, N.add_0_r in H. apply H. lia. }
  rewrite (IH (k + 1) (j / 2)); [reflexivity|]. intros e He. specialize (H (e + 1)).
  assert (DD : j / 2 / 2 ^ e = j / 2 ^ (e + 1)). { rewrite pow2_S, N.div_div; [reflexivity|lia|pose proof (pow2_pos e); lia]. }
  rewrite DD. replace (k + 1 + e) with (k + (e + 1)) by lia. apply H. lia.
Qed.
(** The copath subtrees of leaf [i] do not contain leaf [i]. *)
Lemma sib_not_covers e i : ~ covers e (sib (i / 2 ^ e)) i.
Proof. rewrite covers_div. intros E. apply (sib_neq (i / 2 ^ e)). auto. Qed.
