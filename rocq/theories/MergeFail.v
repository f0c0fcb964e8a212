(** What a merge that fails leaves behind. *)
From Verif Require Import TreePaths TreeOps TreeInv Merge TreeMore TreeFacts Examples.
From Coq Require Import ZifyBool ZifyNat ZifyN.
Local Open Scope N_scope.

Lemma sph_keeps P cs D sn rpath : forall t prev t' r x p, set_parent_hashes P cs D sn t prev rpath = (t', r) -> x < tlen t -> tget t x = Some (Parent p) ->
  exists h, tget t' x = Some (Parent (MkParentNode (pn_encryption_key p) h (pn_unmerged p))).
Proof.
  induction rpath as [|y rpath IH]; intros t prev t' r0 x p H L E; cbn [set_parent_hashes] in H.
  - injection H as <- _. exists (pn_parent_hash p). rewrite E. destruct p; reflexivity.
  - assert (SELF : exists h, tget t x = Some (Parent (MkParentNode (pn_encryption_key p) h (pn_unmerged p)))) by (exists (pn_parent_hash p); rewrite E; destruct p; reflexivity).
    destruct (tget t y) as [[l|q]|] eqn:Ey; try (eapply IH; eassumption).
    destruct (children y) as [[[l r]|]|e| |]; try (injection H as <- _; exact SELF).
    destruct (tree_hash P cs t (copath_child D sn l r) []); try (injection H as <- _; exact SELF).
    match type of H with context [tset t y (Some (Parent ?q'))] => set (q1 := q') in * end.
    assert (NEXT : exists h, tget (tset t y (Some (Parent q1))) x = Some (Parent (MkParentNode (pn_encryption_key p) h (pn_unmerged p)))).
    { destruct (N.eq_dec x y) as [->|NE]; [|rewrite tget_tset_other by congruence; exact SELF]. rewrite tget_tset_same by exact L.
      rewrite Ey in E. injection E as ->. eexists. reflexivity. }
    destruct (parent_hash P cs _ _); try (injection H as <- _; exact NEXT).
    destruct NEXT as [h1 NEXT]. eapply IH in H; [|rewrite tlen_tset; exact L|exact NEXT]. exact H.
Qed.

Lemma c27_exact P cs t d i u t' r fp : shaped t d -> i < 2 ^ d -> filtered_direct_path t (2 * i) = Ok fp -> merge_update_path P cs t i u = (t', r) -> r <> Ok tt ->
  tlen t' = tlen t /\ (forall x, ~ on_path d i x -> tget t' x = tget t x) /\
  if Nat.eqb (length fp) (length (up_nodes u)) then
    (forall x, on_path d i x -> ~ In x fp -> tget t' x = None) /\
    (forall m x n, nth_error fp m = Some x -> nth_error (up_nodes u) m = Some n -> exists h, tget t' x = Some (Parent (MkParentNode (upn_encryption_key n) h [])))
  else r = Err UpdatePathAndFilteredDirectPathHasDifferentNode /\ forall x, on_path d i x -> tget t' x = None.
Proof.
  intros SH Hi EF E NR. destruct (c27 P cs t d i u t' r SH E NR) as [A B]. split; [exact A|]. split; [exact B|]. clear A B.
  pose proof (sh_unmerged t d SH) as SU. pose proof (shaped_usized t d SH) as U.
  rewrite (filtered_leaf t d i SU U Hi) in EF. apply Ok_inj in EF. subst fp. rewrite (mg_eq P cs t d i u SU U Hi) in E.
  destruct (Nat.eqb (length (fpath t (N.to_nat d) 0 i)) (length (up_nodes u))) eqn:EL; cbn [negb] in E.
  - destruct (set_parent_hashes P cs (up d i) (2 * i) _ None _) as [t3 prev] eqn:ES.
    assert (R : t' = t3).
    { destruct prev as [prev|e| |]; cbn [tbind] in E; try (injection E as <- <-; reflexivity).
      destruct (lp_source (ln_payload (up_leaf u))); try (injection E as <- <-; reflexivity).
      destruct prev; try (injection E as <- <-; reflexivity). match type of E with context [if ?c then _ else _] => destruct c end; injection E as <- <-; [reflexivity|congruence]. }
    subst t3. split.
    + intros x O NI. rewrite (sph_other _ _ _ _ _ _ _ _ _ x ES) by (rewrite <- in_rev; exact NI). apply (mg_t2_blank t d i u x O NI).
    + intros m x n Ex En. pose proof (mg_t2_key t d i u U Hi m x n Ex En) as G.
      refine (sph_keeps _ _ _ _ _ _ _ _ _ x _ ES _ G). rewrite set_path_keys_len, fold_blank_len. apply (mg_fp_lt t d i U Hi). eapply nth_error_In, Ex.
  - injection E as <- <-. split; [reflexivity|]. intros x O. rewrite fold_blank_get. destruct (in_dec N.eq_dec x (up d i)) as [I|I]; [reflexivity|]. exfalso. apply I, in_up, O.
Qed.
Lemma c27_unchanged P cs t d i u t' r fp : shaped t d -> i < 2 ^ d -> filtered_direct_path t (2 * i) = Ok fp -> merge_update_path P cs t i u = (t', r) -> r <> Ok tt ->
  (forall m x n p, nth_error fp m = Some x -> nth_error (up_nodes u) m = Some n -> tget t x = Some (Parent p) -> pn_encryption_key p <> upn_encryption_key n) ->
  (t' = t <-> (length fp <> length (up_nodes u) \/ fp = []) /\ forall x, on_path d i x -> tget t x = None).
Proof.
  intros SH Hi EF E NR NK. destruct (c27_exact P cs t d i u t' r fp SH Hi EF E NR) as (A & B & C).
  destruct (Nat.eqb_spec (length fp) (length (up_nodes u))) as [EL|EL].
  - destruct C as [C1 C2]. split.
    + intros ->. destruct fp as [|x fp]; [split; [auto|]; intros x O; apply C1; [exact O|intros []]|]. exfalso.
      destruct (up_nodes u) as [|n ns] eqn:En; [discriminate|]. destruct (C2 0%nat x n eq_refl eq_refl) as [h G]. exact (NK 0%nat x n _ eq_refl eq_refl G eq_refl).
    + intros [[H|H] BL]; [contradiction|]. subst fp. apply tree_ext; [exact A|]. intros x _. destruct (on_path_dec d i x) as [O|O]; [|apply B, O]. rewrite (BL x O). apply C1; [exact O|intros []].
  - destruct C as [-> C]. split.
    + intros ->. auto.
    + intros [_ BL]. apply tree_ext; [exact A|]. intros x _. destruct (on_path_dec d i x) as [O|O]; [|apply B, O]. rewrite (BL x O). apply C, O.
Qed.

From Verif Require Import ExProvider HashFacts.
Lemma c27_exact_example : exists t', shaped ex_merged3 2 /\ filtered_direct_path ex_merged3 (2 * 2) = Ok [3] /\
  merge_update_path toy Suite1 ex_merged3 2 (MkUpdatePath (ex_leaf_commit x05 []) [MkUpdatePathNode [x99] []]) = (t', Err ParentHashMismatchForUpdatePathLeafNode) /\
  tget t' 3 = Some (Parent (MkParentNode [x99] [] [])) /\ tget ex_merged3 3 = Some (Parent (MkParentNode [x88] [] [])).
Proof.
  eexists. split; [exact (good_shaped _ _ (merge_good toy Suite1 ex_three 2 0 ex_path3 ex_merged3 ex_three_good eq_refl ex_merge3))|]. split; [vm_compute; reflexivity|].
  split; [vm_compute; reflexivity|]. split; vm_compute; reflexivity.
Qed.
