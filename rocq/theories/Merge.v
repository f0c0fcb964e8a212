(** merge_update_path: what a successful merge does to the tree. *)
From Verif Require Export TreePaths.
From Coq Require Import ZifyBool ZifyNat ZifyN.
Local Open Scope N_scope.

Lemma on_path_level d i x : on_path d i x -> exists k, k < d /\ x = node_at (k + 1) (i / 2 ^ (k + 1)).
Proof.
  intros (k & j & Hk & -> & C). apply covers_div in C. exists (k - 1). replace (k - 1 + 1) with k by lia. split; [lia|congruence].
Qed.
Lemma level_on_path d i k : k < d -> on_path d i (node_at (k + 1) (i / 2 ^ (k + 1))).
Proof. intros H. exists (k + 1), (i / 2 ^ (k + 1)). rewrite covers_div. split; [lia|auto]. Qed.

Lemma div_half j k : j / 2 ^ (k + 1) = j / 2 ^ k / 2.
Proof. rewrite pow2_S, N.mul_comm, N.div_div; [reflexivity|pose proof (pow2_pos k)|]; lia. Qed.

(** The child of the path node above level [k] that is hashed is the sibling of the path node at level [k]. *)
Lemma copath_child_ok d i k (D : list N) : k < d -> (forall x, In x D <-> on_path d i x) ->
  exists l r, (k + 1 <= 31 -> children (node_at (k + 1) (i / 2 ^ (k + 1))) = Ok (Some (l, r)))
    /\ copath_child D (2 * i) l r = node_at k (sib (i / 2 ^ k)).
Proof.
  intros Hk HD. set (q := i / 2 ^ (k + 1)). exists (node_at k (2 * q)), (node_at k (2 * q + 1)). split.
  { intros H31. apply children_node. lia. }
  assert (Q : q = i / 2 ^ k / 2) by apply div_half.
  assert (LP : forall j, (node_at k j =? 2 * i) || mem N.eqb (node_at k j) D = true <-> j = i / 2 ^ k).
  { intros j. rewrite Bool.orb_true_iff, N.eqb_eq. assert (M : mem N.eqb (node_at k j) D = true <-> In (node_at k j) D).
    { unfold mem. rewrite existsb_exists. split; [intros (y & Iy & Ey); apply N.eqb_eq in Ey; subst; exact Iy|intros I; exists (node_at k j); split; [exact I|apply N.eqb_refl]]. }
    rewrite M, HD. split.
    - intros [E|O].
      + rewrite <- node_at_leaf in E. apply node_at_inj in E as [-> ->]. change (2 ^ 0) with 1. rewrite N.div_1_r. reflexivity.
      + destruct O as (k2 & j2 & _ & E & C). apply node_at_inj in E as [<- <-]. apply covers_div in C. congruence.
    - intros ->. destruct (N.eq_dec k 0) as [->|Z].
      + left. change (2 ^ 0) with 1. rewrite N.div_1_r. apply node_at_leaf.
      + right. exists k, (i / 2 ^ k). rewrite covers_div. split; [lia|auto]. }
  unfold copath_child. pose proof (LP (2 * q)) as L. pose proof (N.div_mod (i / 2 ^ k) 2 ltac:(lia)) as DM. pose proof (N.mod_lt (i / 2 ^ k) 2 ltac:(lia)) as ML.
  rewrite <- Q in DM. rewrite sib_bit. destruct ((node_at k (2 * q) =? 2 * i) || mem N.eqb (node_at k (2 * q)) D).
  - rewrite <- (proj1 L eq_refl). replace ((2 * q) mod 2) with 0 by (rewrite N.mul_comm, N.mod_mul; lia). reflexivity.
  - destruct (N.eqb_spec ((i / 2 ^ k) mod 2) 0) as [Z|Z].
    + exfalso. assert (false = true); [|discriminate]. apply L. lia.
    + f_equal. lia.
Qed.

Lemma other_child_path i k s : other_child i (node_at (k + 1) (i / 2 ^ (k + 1))) s <-> s = node_at k (sib (i / 2 ^ k)).
Proof.
  split.
  - intros (k' & j & E & -> & NC). apply node_at_inj in E as [Ek Ej]. assert (k' = k) by lia. subst k'.
    rewrite covers_div in NC. rewrite div_half in Ej. f_equal. set (q := i / 2 ^ k) in *.
    rewrite sib_bit. pose proof (N.div_mod q 2 ltac:(lia)). pose proof (N.mod_lt q 2 ltac:(lia)). pose proof (N.div_mod j 2 ltac:(lia)). pose proof (N.mod_lt j 2 ltac:(lia)).
    destruct (N.eqb_spec (q mod 2) 0); lia.
  - intros ->. exists k, (sib (i / 2 ^ k)). rewrite sib_half, <- div_half. split; [reflexivity|]. split; [reflexivity|]. apply sib_not_covers.
Qed.

(** ** Writing the keys *)

Lemma set_path_keys_len fp : forall t ns, tlen (set_path_keys t fp ns) = tlen t.
Proof. induction fp as [|x fp IH]; intros t [|n ns]; cbn [set_path_keys]; try reflexivity. rewrite IH. apply tlen_tset. Qed.
Lemma set_path_keys_other fp : forall t ns x, ~ In x fp -> tget (set_path_keys t fp ns) x = tget t x.
Proof.
  induction fp as [|y fp IH]; intros t [|n ns] x NI; cbn [set_path_keys]; try reflexivity.
  rewrite IH by (intros I; apply NI; right; exact I). rewrite tget_tset_other; [reflexivity|]. intros ->. apply NI. left. reflexivity.
Qed.
Lemma set_path_keys_at fp : forall t ns m x n, NoDup fp -> (forall y, In y fp -> y < tlen t) -> nth_error fp m = Some x -> nth_error ns m = Some n ->
  tget (set_path_keys t fp ns) x = Some (Parent (MkParentNode (upn_encryption_key n) [] [])).
Proof.
  induction fp as [|y fp IH]; intros t ns m x n ND L Hx Hn; [destruct m; discriminate|]. destruct ns as [|n0 ns]; [destruct m; discriminate|].
  inversion ND as [|? ? NI ND']; subst. cbn [set_path_keys]. destruct m as [|m]; cbn [nth_error] in Hx, Hn.
  - injection Hx as ->. injection Hn as ->. rewrite set_path_keys_other by exact NI. apply tget_tset_same. apply L. left. reflexivity.
  - eapply IH; eauto. intros z Iz. rewrite tlen_tset. apply L. right. exact Iz.
Qed.

(** ** The hash loop *)

Section Loop.
  Variables (P : provider) (cs : cipher_suite) (D : list N) (sn : N).
  Definition pref (o : option bytes) : bytes := match o with Some h => h | None => [] end.

  Fixpoint chain_rev (T : tree) (prev : option bytes) (rpath : list N) (prev' : option bytes) : Prop :=
    match rpath with
    | [] => prev = prev'
    | x :: rest => exists p l r th h, tget T x = Some (Parent p) /\ pn_parent_hash p = pref prev
        /\ children x = Ok (Some (l, r)) /\ tree_hash P cs T (copath_child D sn l r) [] = Ok th
        /\ parent_hash P cs p th = Ok h /\ chain_rev T (Some h) rest prev'
    end.
  Lemma chain_rev_app T l1 : forall prev l2 prev', chain_rev T prev (l1 ++ l2) prev' <->
    exists mid, chain_rev T prev l1 mid /\ chain_rev T mid l2 prev'.
  Proof.
    induction l1 as [|x l1 IH]; intros prev l2 prev'; cbn [app chain_rev].
    - split; [eauto|]. intros (mid & -> & H). exact H.
    - split.
      + intros (p & l & r & th & h & A & B & C & E & F & G). apply IH in G as (mid & G1 & G2). exists mid. split; [|exact G2]. exists p, l, r, th, h. auto 10.
      + intros (mid & (p & l & r & th & h & A & B & C & E & F & G1) & G2). exists p, l, r, th, h. repeat match goal with |- _ /\ _ => split end; auto. apply IH. eauto.
  Qed.

  (** The hashed child of each node of [rpath] does not depend on the nodes [W] that the loop writes. *)
  Definition settled (W : list N) (x : N) : Prop := forall l r, children x = Ok (Some (l, r)) ->
    forall t t', (forall y, ~ In y W -> tget t y = tget t' y) -> tree_hash P cs t (copath_child D sn l r) [] = tree_hash P cs t' (copath_child D sn l r) [].

  Lemma sph_len rpath : forall t prev t' r, set_parent_hashes P cs D sn t prev rpath = (t', r) -> tlen t' = tlen t.
  Proof.
    induction rpath as [|x rpath IH]; intros t prev t' r0 H; cbn [set_parent_hashes] in H; [injection H as <- _; reflexivity|].
    destruct (tget t x) as [[l|p]|]; try (eapply IH; eassumption).
    destruct (children x) as [[[l r]|]|e| |]; try (injection H as <- _; reflexivity).
    destruct (tree_hash P cs t (copath_child D sn l r) []); try (injection H as <- _; reflexivity).
    destruct (parent_hash P cs _ _); try (injection H as <- _; apply tlen_tset).
    apply IH in H. rewrite H. apply tlen_tset.
  Qed.
  Lemma sph_other rpath : forall t prev t' r x, set_parent_hashes P cs D sn t prev rpath = (t', r) -> ~ In x rpath -> tget t' x = tget t x.
  Proof.
    induction rpath as [|y rpath IH]; intros t prev t' r0 x H NI; cbn [set_parent_hashes] in H; [injection H as <- _; reflexivity|].
    assert (NI' : ~ In x rpath) by (intros I; apply NI; right; exact I). assert (N1 : x <> y) by (intros ->; apply NI; left; reflexivity).
    destruct (tget t y) as [[l|p]|]; try (eapply IH; eassumption).
    destruct (children y) as [[[l r]|]|e| |]; try (injection H as <- _; reflexivity).
    destruct (tree_hash P cs t (copath_child D sn l r) []); try (injection H as <- _; reflexivity).
    destruct (parent_hash P cs _ _); try (injection H as <- _; apply tget_tset_other; congruence).
    apply (IH _ _ _ _ x) in H; [|exact NI']. rewrite H. apply tget_tset_other. congruence.
  Qed.

  Lemma sph_sound W : forall rpath t prev t' prev', NoDup rpath -> (forall x, In x rpath -> In x W /\ x < tlen t /\ settled W x) ->
    (forall x, In x rpath -> exists p, tget t x = Some (Parent p)) ->
    set_parent_hashes P cs D sn t prev rpath = (t', Ok prev') ->
    chain_rev t' prev rpath prev' /\ forall x p, In x rpath -> tget t x = Some (Parent p) ->
      exists h, tget t' x = Some (Parent (MkParentNode (pn_encryption_key p) h (pn_unmerged p))).
  Proof.
    induction rpath as [|x rpath IH]; intros t prev t' prev' ND HW HP H; cbn [set_parent_hashes] in H.
    - injection H as <- <-. split; [reflexivity|]. intros ? ? [].
    - inversion ND as [|? ? NI ND']; subst. destruct (HP x (or_introl eq_refl)) as [p Ep]. rewrite Ep in H.
      destruct (HW x (or_introl eq_refl)) as (Wx & Lx & Sx).
      destruct (children x) as [[[l r]|]|e| |] eqn:Ec; try discriminate.
      destruct (tree_hash P cs t (copath_child D sn l r) []) as [th|e| |] eqn:Et; try discriminate.
      fold (pref prev) in H. set (q := MkParentNode (pn_encryption_key p) (pref prev) (pn_unmerged p)) in *.
      destruct (parent_hash P cs q th) as [h|e| |] eqn:Eh; try discriminate.
      assert (Gx : tget t' x = Some (Parent q)). { rewrite (sph_other _ _ _ _ _ _ H NI). apply tget_tset_same. exact Lx. }
      assert (GW : forall y, ~ In y W -> tget t y = tget t' y).
      { intros y NW. rewrite (sph_other _ _ _ _ _ y H). - symmetry. apply tget_tset_other. intros ->. tauto. - intros I. apply NW. apply (HW y (or_intror I)). }
      assert (W1 : forall y, In y rpath -> In y W /\ y < tlen (tset t x (Some (Parent q))) /\ settled W y).
      { intros y Iy. rewrite tlen_tset. destruct (HW y (or_intror Iy)) as (A & B & E). auto. }
      assert (W2 : forall y, In y rpath -> exists p0, tget (tset t x (Some (Parent q))) y = Some (Parent p0)).
      { intros y Iy. rewrite tget_tset_other by (intros ->; tauto). apply HP. right. exact Iy. }
      destruct (IH _ _ _ _ ND' W1 W2 H) as [C K].
      split.
      + cbn [chain_rev]. exists q, l, r, th, h. rewrite <- (Sx l r Ec t t' GW). auto 10.
      + intros y p' [<-|Iy] Ey.
        * rewrite Ep in Ey. injection Ey as <-. exists (pref prev). exact Gx.
        * apply K; [exact Iy|]. rewrite tget_tset_other; [exact Ey|]. intros ->. tauto.
  Qed.

  Lemma sph_complete W T : forall rpath t prev prev', NoDup rpath -> (forall x, In x rpath -> In x W /\ x < tlen t /\ settled W x) ->
    (forall x, ~ In x rpath -> tget t x = tget T x) ->
    (forall x, In x rpath -> exists p p', tget t x = Some (Parent p) /\ tget T x = Some (Parent p') /\ pn_encryption_key p = pn_encryption_key p' /\ pn_unmerged p = pn_unmerged p') ->
    chain_rev T prev rpath prev' -> exists t', set_parent_hashes P cs D sn t prev rpath = (t', Ok prev') /\ forall x, tget t' x = tget T x.
  Proof.
    induction rpath as [|x rpath IH]; intros t prev prev' ND HW HO HP C; cbn [set_parent_hashes chain_rev] in *.
    - subst. exists t. split; [reflexivity|]. intros x. apply HO. intros [].
    - inversion ND as [|? ? NI ND']; subst. destruct C as (p' & l & r & th & h & Ep' & Eph & Ec & Et & Eh & C).
      destruct (HP x (or_introl eq_refl)) as (p & p2 & Ep & E2 & Ek & Eu). rewrite Ep' in E2. injection E2 as <-. rewrite Ep, Ec.
      destruct (HW x (or_introl eq_refl)) as (Wx & Lx & Sx).
      rewrite (Sx l r Ec t T), Et.
      2:{ intros y NW. apply HO. intros [<-|I]; [tauto|]. apply NW. apply (HW y (or_intror I)). }
      fold (pref prev). assert (Q : MkParentNode (pn_encryption_key p) (pref prev) (pn_unmerged p) = p') by (destruct p'; cbn in Ek, Eu, Eph; congruence).
      rewrite Q, Eh. apply IH; auto.
      + intros y Iy. rewrite tlen_tset. destruct (HW y (or_intror Iy)) as (A & B & E). auto.
      + intros y NIy. destruct (N.eq_dec y x) as [->|Ne]; [rewrite tget_tset_same by exact Lx; auto|]. rewrite tget_tset_other by congruence.
        apply HO. intros [->|I]; tauto.
      + intros y Iy. rewrite tget_tset_other by (intros ->; tauto). apply HP. right. exact Iy.
  Qed.
End Loop.

(** The loop goes down the path; the chain is read upwards. *)
Lemma chain_rev_hash P cs D T d i : d <= 31 -> (forall x, In x D <-> on_path d i x) -> forall fp ph, (forall x, In x fp -> on_path d i x) ->
  hash_chain P cs T i ph fp <-> exists o, chain_rev P cs D (2 * i) T None (rev fp) o /\ pref o = ph /\ (o = None <-> fp = []).
Proof.
  intros Hd HD. induction fp as [|x fp IH]; intros ph HF; cbn [hash_chain rev chain_rev].
  - split; [intros ->; exists None; cbn; tauto|]. intros (o & <- & <- & _). reflexivity.
  - destruct (on_path_level d i x (HF x (or_introl eq_refl))) as (k & Hk & ->).
    destruct (copath_child_ok d i k D Hk HD) as (l & r & Ec & Es). specialize (Ec ltac:(lia)).
    assert (HF' : forall x, In x fp -> on_path d i x) by (intros; apply HF; right; assumption).
    split.
    + intros (p & s & th & Ep & Eo & Et & Eh & C). apply other_child_path in Eo as ->. apply (IH _ HF') in C as (o & C & Eo & _).
      exists (Some ph). split; [|split; [reflexivity|split; discriminate]]. apply chain_rev_app. exists o. split; [exact C|].
      cbn [chain_rev]. exists p, l, r, th, ph. rewrite Es. auto 10.
    + intros (o & C & Ep & _). apply chain_rev_app in C as (mid & C & p & l' & r' & th & h & E1 & E2 & E3 & E4 & E5 & <-).
      rewrite Ec in E3. injection E3 as <- <-. rewrite Es in E4. cbn in Ep. subst h.
      exists p, (node_at k (sib (i / 2 ^ k))), th. split; [exact E1|]. split; [apply other_child_path; reflexivity|]. split; [exact E4|]. split; [exact E5|].
      apply (IH _ HF'). exists mid. split; [exact C|]. split; [auto|]. destruct fp as [|y fp]; [cbn in C; split; auto|].
      split; [|discriminate]. intros ->. exfalso. cbn [rev] in C. apply chain_rev_app in C as (m2 & _ & ? & ? & ? & ? & ? & _ & _ & _ & _ & _ & Q). discriminate.
Qed.

(** ** merge_update_path *)

Lemma small_blank t l : small_unmerged t -> small_unmerged (fold_left blank l t).
Proof.
  intros SU x p u G I. rewrite fold_blank_get in G. destruct (in_dec N.eq_dec x l) as [E|E]; [discriminate|]. eapply SU; eassumption.
Qed.

Lemma nth_error_pair {A B} (l : list A) (l' : list B) x : length l = length l' -> In x l -> exists m y, nth_error l m = Some x /\ nth_error l' m = Some y.
Proof.
  intros L I. apply In_nth_error in I as [m Hm]. exists m. destruct (nth_error l' m) as [y|] eqn:E; [exists y; auto|].
  apply nth_error_None in E. assert (m < length l)%nat by (apply nth_error_Some; congruence). lia.
Qed.

Section Merge.
  Variables (P : provider) (cs : cipher_suite) (t : tree) (d i : N) (u : update_path).
  Hypotheses (SU : small_unmerged t) (U : usized t d) (Hi : i < 2 ^ d).
  Let D := up d i.
  Let t1 := fold_left blank D t.
  Let fp := fpath t (N.to_nat d) 0 i.
  Let t2 := set_path_keys t1 fp (up_nodes u).

  Lemma mg_D x : In x D <-> on_path d i x. Proof. apply in_up. Qed.
  Lemma mg_t1 x : tget t1 x = if in_dec N.eq_dec x D then None else tget t x.
  Proof. apply fold_blank_get. Qed.
  Lemma mg_t1_len : tlen t1 = tlen t. Proof. apply fold_blank_len. Qed.
  Lemma mg_agree e : agree t1 t e (sib (i / 2 ^ e)).
  Proof.
    intros x I. rewrite mg_t1. destruct (in_dec N.eq_dec x D) as [E|E]; [|reflexivity]. exfalso. apply mg_D in E.
    apply (inside_off_path d e (sib (i / 2 ^ e)) i x) in I; [tauto|apply sib_not_covers].
  Qed.
  Lemma mg_filtered : filtered_direct_path t (2 * i) = Ok fp.
  Proof. apply filtered_leaf; assumption. Qed.
  Lemma mg_filtered1 : filtered_direct_path t1 (2 * i) = Ok fp.
  Proof.
    rewrite (filtered_leaf t1 d i); [|apply small_blank, SU|eapply usized_same; [apply mg_t1_len|exact U]|exact Hi].
    f_equal. apply fpath_agree. intros e He. rewrite N.add_0_l. apply mg_agree.
  Qed.
  Lemma mg_fp_path x : In x fp -> on_path d i x. Proof. apply fpath_on_path. Qed.
  Lemma mg_fp_lt x : In x fp -> x < tlen t.
  Proof. intros I. apply mg_fp_path in I. apply (on_path_in d i x Hi) in I. unfold in_tree in I. apply usized_len in U. lia. Qed.
  Lemma mg_eq : merge_update_path P cs t i u =
    if negb (Nat.eqb (length fp) (length (up_nodes u))) then (t1, Err UpdatePathAndFilteredDirectPathHasDifferentNode) else
    let (t3, prev) := set_parent_hashes P cs D (2 * i) t2 None (rev fp) in
    tbind t3 prev (fun prev =>
    match lp_source (ln_payload (up_leaf u)), prev with
    | LSCommit ph, Some h =>
        if negb (bytes_eqb ph h) then (t3, Err ParentHashMismatchForUpdatePathLeafNode)
        else (tset t3 (2 * i) (Some (Leaf (up_leaf u))), Ok tt)
    | _, _ => (t3, Err ParentHashMismatchForUpdatePathLeafNode)
    end).
  Proof.
    unfold merge_update_path. rewrite (node_index_ok d) by (eauto using usized_31). cbn [tbind]. unfold direct_path.
    rewrite (climb_leaf t d i U Hi). cbn [tbind]. fold D. fold t1. rewrite mg_filtered1. cbn [tbind]. fold t2. reflexivity.
  Qed.
  Lemma mg_t2_off x : ~ on_path d i x -> tget t2 x = tget t x.
  Proof.
    intros NO. unfold t2. rewrite set_path_keys_other by (intros I; apply NO, mg_fp_path, I). rewrite mg_t1.
    destruct (in_dec N.eq_dec x D) as [E|E]; [apply mg_D in E; tauto|reflexivity].
  Qed.
  Lemma mg_t2_blank x : on_path d i x -> ~ In x fp -> tget t2 x = None.
  Proof.
    intros O NI. unfold t2. rewrite set_path_keys_other by exact NI. rewrite mg_t1. destruct (in_dec N.eq_dec x D) as [E|E]; [reflexivity|].
    exfalso. apply E, mg_D, O.
  Qed.
  Lemma mg_t2_key m x n : nth_error fp m = Some x -> nth_error (up_nodes u) m = Some n ->
    tget t2 x = Some (Parent (MkParentNode (upn_encryption_key n) [] [])).
  Proof.
    apply set_path_keys_at; [apply NoDup_fpath|]. intros y Iy. rewrite mg_t1_len. apply mg_fp_lt, Iy.
  Qed.
  Lemma mg_steady x : In x fp -> settled P cs D (2 * i) (2 * i :: D) x.
  Proof.
    intros I l r Ec t' t'' H. apply mg_fp_path in I. apply on_path_level in I as (k & Hk & ->).
    pose proof (usized_31 t d U) as H31.
    destruct (copath_child_ok d i k D Hk mg_D) as (l' & r' & Ec' & Es). rewrite Ec' in Ec by lia. injection Ec as <- <-. rewrite Es.
    unfold tree_hash. rewrite <- (N2Nat.id k). apply tree_hash_agree; [lia|]. rewrite N2Nat.id. intros y Iy. apply H.
    apply (inside_off_path d k (sib (i / 2 ^ k)) i y) in Iy; [|apply sib_not_covers].
    intros [<-|ID]; [tauto|]. apply mg_D in ID. tauto.
  Qed.
  Lemma mg_rev : NoDup (rev fp) /\ (forall x, In x (rev fp) -> In x (2 * i :: D) /\ x < tlen t2 /\ settled P cs D (2 * i) (2 * i :: D) x).
  Proof.
    split; [apply NoDup_rev, NoDup_fpath|]. intros x I. apply in_rev in I. split; [right; apply mg_D, mg_fp_path, I|]. split; [|apply mg_steady, I].
    unfold t2. rewrite set_path_keys_len, mg_t1_len. apply mg_fp_lt, I.
  Qed.
  (** Writing the sender's leaf does not touch what the chain depends on. *)
  Lemma mg_chain T T' : (forall x, x <> 2 * i -> tget T x = tget T' x) ->
    forall l prev prev', (forall x, In x l -> In x fp) -> chain_rev P cs D (2 * i) T prev l prev' -> chain_rev P cs D (2 * i) T' prev l prev'.
  Proof.
    intros HT. induction l as [|x l IH]; intros prev prev' HL C; cbn [chain_rev] in *; [exact C|].
    destruct C as (p & a & b & th & h & E1 & E2 & E3 & E4 & E5 & C). pose proof (HL x (or_introl eq_refl)) as Ix.
    exists p, a, b, th, h. split; [rewrite <- HT; [exact E1|]; exact (on_path_odd d i x i (mg_fp_path x Ix))|].
    rewrite <- (mg_steady x Ix a b E3 T T').
    - repeat match goal with |- _ /\ _ => split end; auto. apply IH; [intros; apply HL; right; assumption|exact C].
    - intros y NI. apply HT. intros ->. apply NI. left. reflexivity.
  Qed.

  Lemma merge_sound t' : merge_update_path P cs t i u = (t', Ok tt) -> merged P cs t d i u t'.
  Proof.
    rewrite mg_eq. destruct (Nat.eqb_spec (length fp) (length (up_nodes u))) as [EL|EL]; cbn [negb]; [|discriminate].
    destruct mg_rev as [ND HW]. destruct (set_parent_hashes P cs D (2 * i) t2 None (rev fp)) as [t3 prev] eqn:ES.
    destruct prev as [prev|e| |]; cbn [tbind]; try discriminate.
    assert (KP : forall x, In x fp -> exists n m, nth_error fp m = Some x /\ nth_error (up_nodes u) m = Some n).
    { intros x Ix. destruct (nth_error_pair fp (up_nodes u) x EL Ix) as (m & n & A & B). eauto. }
    assert (HP : forall x, In x (rev fp) -> exists p, tget t2 x = Some (Parent p)).
    { intros x Ix. apply in_rev in Ix. destruct (KP x Ix) as (n & m & A & B). rewrite (mg_t2_key m x n A B). eauto. }
    destruct (sph_sound P cs D (2 * i) _ _ _ _ _ _ ND HW HP ES) as [C K].
    assert (T3 : forall x, ~ In x fp -> tget t3 x = tget t2 x). { intros x NI. apply (sph_other _ _ _ _ _ _ _ _ _ _ ES). rewrite <- in_rev. exact NI. }
    destruct (lp_source (ln_payload (up_leaf u))) as [lt| |ph] eqn:EP; try discriminate.
    destruct prev as [h|]; try discriminate.
    destruct (bytes_eqb ph h) eqn:EB; cbn [negb]; [|discriminate]. apply bytes_eqb_eq in EB. subst h.
    intros H. injection H as <-.
    assert (L3 : tlen t3 = tlen t). { rewrite (sph_len _ _ _ _ _ _ _ _ _ ES). unfold t2. rewrite set_path_keys_len. apply mg_t1_len. }
    assert (NL : forall x, on_path d i x -> x <> 2 * i) by (intros; eapply on_path_odd; eassumption).
    split.
    - rewrite tlen_tset. exact L3.
    - apply tget_tset_same. rewrite L3. eapply leaf_in_tlen; eassumption.
    - intros x Nx NO. rewrite tget_tset_other by congruence. rewrite T3 by (intros I; apply NO, mg_fp_path, I). apply mg_t2_off, NO.
    - exists fp, ph. split; [apply mg_filtered|].
      assert (NE : fp <> []). { intros E. rewrite E in C. cbn in C. discriminate. }
      split; [exact NE|]. split; [exact EL|].
      split; [|split; [|split; [exact EP|]]].
      + intros m x n A B. assert (Ix : In x fp) by (eapply nth_error_In; eassumption).
        rewrite tget_tset_other by (intros E; apply (NL x); auto using mg_fp_path).
        destruct (K x _ ltac:(apply in_rev; rewrite rev_involutive; exact Ix) (mg_t2_key m x n A B)) as [h Hh]. exists h. exact Hh.
      + intros x O NI. rewrite tget_tset_other by (intros E; apply (NL x); auto). rewrite T3 by exact NI. apply mg_t2_blank; assumption.
      + apply (chain_rev_hash P cs D _ d i (usized_31 _ _ U) mg_D); [apply mg_fp_path|]. exists (Some ph). split; [|split; [reflexivity|split; [discriminate|tauto]]].
        eapply mg_chain; [|intros x Ix; apply in_rev, Ix|exact C]. intros x Nx. symmetry. apply tget_tset_other. congruence.
  Qed.

  Lemma merge_complete t' : merged P cs t d i u t' -> merge_update_path P cs t i u = (t', Ok tt).
  Proof.
    intros [HL HF HO (fp' & ph & EF & NE & EL & HK & HB & EP & HC)]. rewrite mg_filtered in EF. injection EF as <-.
    rewrite mg_eq. rewrite EL, Nat.eqb_refl. cbn [negb]. destruct mg_rev as [ND HW].
    assert (NL : forall x, on_path d i x -> x <> 2 * i) by (intros; eapply on_path_odd; eassumption).
    assert (L2 : tlen t2 = tlen t) by (unfold t2; rewrite set_path_keys_len; apply mg_t1_len).
    (* the target before the leaf is written *)
    set (T := tset t' (2 * i) (tget t (2 * i))).
    assert (TT : forall x, x <> 2 * i -> tget t' x = tget T x) by (intros x Nx; symmetry; apply tget_tset_other; congruence).
    apply (chain_rev_hash P cs D t' d i (usized_31 _ _ U) mg_D) in HC as (o & C & Eo & EN); [|apply mg_fp_path].
    destruct o as [h|]; [|exfalso; apply NE, EN; reflexivity]. cbn in Eo. subst h.
    apply (mg_chain t' T TT) in C; [|intros x Ix; apply in_rev, Ix].
    assert (IL : 2 * i < tlen t') by (rewrite HL; eapply leaf_in_tlen; eassumption).
    destruct (sph_complete P cs D (2 * i) (2 * i :: D) T (rev fp) t2 None (Some ph) ND HW) as (t3 & ES & E3).
    - intros x NI. rewrite <- in_rev in NI. destruct (N.eq_dec x (2 * i)) as [->|Nx].
      + unfold T. rewrite tget_tset_same by exact IL. apply mg_t2_off. intros O. apply (NL _ O). reflexivity.
      + rewrite <- TT by exact Nx. destruct (on_path_dec d i x) as [O|O]; [rewrite mg_t2_blank, HB by assumption; reflexivity|].
        rewrite mg_t2_off, HO by assumption. reflexivity.
    - intros x Ix. apply in_rev in Ix. destruct (nth_error_pair fp (up_nodes u) x EL Ix) as (m & n & A & B).
      destruct (HK m x n A B) as [h Hh]. rewrite <- TT by (apply NL, mg_fp_path, Ix).
      exists (MkParentNode (upn_encryption_key n) [] []), (MkParentNode (upn_encryption_key n) h []). rewrite (mg_t2_key m x n A B). auto.
    - exact C.
    - rewrite ES. cbn [tbind]. rewrite EP. rewrite (proj2 (bytes_eqb_eq ph ph) eq_refl). cbn [negb]. f_equal. apply tree_ext.
      + rewrite tlen_tset, (sph_len _ _ _ _ _ _ _ _ _ ES), L2. auto.
      + intros x Lx. destruct (N.eq_dec x (2 * i)) as [->|Nx].
        * rewrite tget_tset_same; [auto|]. rewrite (sph_len _ _ _ _ _ _ _ _ _ ES), L2, <- HL. exact IL.
        * rewrite tget_tset_other by congruence. rewrite E3. symmetry. apply TT, Nx.
  Qed.
End Merge.

Lemma merge_iff P cs t d i u t' : small_unmerged t -> usized t d -> i < 2 ^ d ->
  merge_update_path P cs t i u = (t', Ok tt) <-> merged P cs t d i u t'.
Proof. intros SU U Hi. split; [apply merge_sound; assumption|apply merge_complete; assumption]. Qed.
