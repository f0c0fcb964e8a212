(** Keys of members over the life of a tree. *)
From Coq Require Import ZifyBool ZifyNat ZifyN.
From Verif Require Import CodecLib TreeMore TreeHash Merge Verified TreeInv TreeFacts HashFacts Examples.
From Verif Require Import SpecMembers.
Local Open Scope N_scope.

Lemma keys_ok t d : tsized t d -> tlen t < 4294967296 -> exists ss es, keys t = Ok (ss, es) /\
  (forall k, In k ss <-> exists i l, leaf_at t i = Some l /\ signature_key l = k) /\
  (forall k, In k es <-> exists i l, leaf_at t i = Some l /\ encryption_key l = k).
Proof.
  intros S L. destruct (leaves_ok t d (small_usized t d S L)) as (ls & E & _ & I). unfold keys. rewrite E. cbn [bind]. do 2 eexists. split; [reflexivity|].
  split; intros k; rewrite in_map_iff; (split; [intros ([i l] & Q & H); exists i, l; split; [apply I, H|exact Q]|intros (i & l & H & Q); exists (i, l); split; [exact Q|apply I, H]]).
Qed.

Lemma accepted_fresh P t d old l : good t d -> accepted P t old l -> forall i m, leaf_at t i = Some m ->
  signature_key m = signature_key l \/ encryption_key m = encryption_key l ->
  exists m', old = Some m' /\ (signature_key m' = signature_key m \/ encryption_key m' = encryption_key m).
Proof.
  intros G (ss & es & o & K & V & HS & HE) i m Em Q. destruct (keys_ok t d (g_size _ _ G) (g_small _ _ G)) as (ss' & es' & K' & IS & IE).
  assert (ss' = ss /\ es' = es) as [-> ->] by (rewrite K in K'; injection K'; auto).
  apply leaf_verify_iff in V as (_ & _ & _ & _ & NS & NE). destruct Q as [Q|Q].
  - destruct (HS (signature_key m)) as [I|(m' & E & Q')]; [apply IS; eauto| |exists m'; auto]. rewrite Q in I. contradiction.
  - destruct (HE (encryption_key m)) as [I|(m' & E & Q')]; [apply IE; eauto| |exists m'; auto]. rewrite Q in I. contradiction.
Qed.

Lemma replace_distinct P t d t' i l : good t d -> distinct_keys t -> accepted P t (leaf_at t i) l ->
  leaf_at t' i = Some l -> (forall j, j <> i -> leaf_at t' j = leaf_at t j) -> distinct_keys t'.
Proof.
  intros G D A Ei Ej. assert (F : forall j m, j <> i -> leaf_at t j = Some m -> signature_key m = signature_key l \/ encryption_key m = encryption_key l -> False).
  { intros j m Ne Em Q. destruct (accepted_fresh P t d _ l G A j m Em Q) as (m' & E & Q'). apply Ne. symmetry. exact (D i j m' m E Em Q'). }
  intros a b la lb Ea Eb Q. destruct (N.eq_dec a i) as [->|Na]; destruct (N.eq_dec b i) as [->|Nb]; [reflexivity| | |].
  - rewrite Ei in Ea. injection Ea as <-. rewrite Ej in Eb by exact Nb. exfalso. apply (F b lb Nb Eb). destruct Q; auto.
  - rewrite Ei in Eb. injection Eb as <-. rewrite Ej in Ea by exact Na. exfalso. exact (F a la Na Ea Q).
  - rewrite Ej in Ea by exact Na. rewrite Ej in Eb by exact Nb. exact (D a b la lb Ea Eb Q).
Qed.

Lemma add_place t d l t' : good t d -> has_room t -> tree_add t l = Ok t' -> exists i, leaf_at t i = None /\ leaf_at t' i = Some l /\ forall j, j <> i -> leaf_at t' j = leaf_at t j.
Proof.
  intros G R E. pose proof (good_usized t d G) as U.
  assert (H : exists i d', i < 2147483648 /\ blank_at t i /\ added t t' d' i l).
  { destruct (leftmost_blank t (2 ^ d)) as [A|(i & Li & B & C)].
    - assert (F : full_size t d). { destruct R as (d0 & R). assert (d0 = d). { apply (size_unique t); [|exact (g_size _ _ G)]. destruct R as [R|[R _]]; [left|right]; exact R. } subst d0.
        destruct R as [R|[_ (i & Li & B)]]; [exact R|exfalso; eapply A; eassumption]. }
      pose proof (add_full_good t d l t' G F A E) as G'.
      assert (D : d <= 30). { pose proof (usized_31 _ _ (good_usized _ _ G')). lia. }
      destruct (add_full_added t d l F D A) as (t2 & E2 & _ & Ad). rewrite E in E2. apply Ok_inj in E2. subst t2.
      exists (2 ^ d), (d + 1). split; [|split; [|exact Ad]].
      + assert (2 ^ d <= 2 ^ 30) by (apply pow2_mono, D). change (2 ^ 30) with 1073741824 in *. lia.
      + apply tget_beyond. red in F. rewrite pow2_S in F. pose proof (pow2_pos d). lia.
    - destruct (add_found_added t d i l U Li B C) as (t2 & E2 & _ & Ad). rewrite E in E2. apply Ok_inj in E2. subst t2. exists i, d. split; [|split; [exact B|exact Ad]].
      pose proof (usized_31 _ _ U) as D. assert (2 ^ d <= 2 ^ 31) by (apply pow2_mono, D). change (2 ^ 31) with 2147483648 in *. lia. }
  destruct H as (i & d' & Li & B & A1 & A2 & _). exists i. unfold blank_at in B. split; [unfold leaf_at; rewrite B; reflexivity|].
  split; [rewrite get_leaf_at in A1 by exact Li; apply Ok_inj in A1; exact A1|]. intros j Ne. unfold leaf_at. rewrite A2 by exact Ne. reflexivity.
Qed.

Lemma checked_plain P cs t t' : checked_step P cs t t' -> tree_step P cs t t'.
Proof. intros S. destruct S; [eapply ts_add|eapply ts_update|eapply ts_remove|eapply ts_merge]; eassumption. Qed.

Lemma path_not_leaf d i j : ~ on_path d i (2 * j).
Proof. intros O. eapply on_path_odd; [exact O|reflexivity]. Qed.

Lemma checked_distinct P cs t d t' : good t d -> distinct_keys t -> checked_step P cs t t' -> distinct_keys t'.
Proof.
  intros G D S. pose proof (good_usized t d G) as U. destruct S as [t l t' A R E|t i l t' A E|t i t' E|t i u t' A E].
  - destruct (add_place t d l t' G R E) as (i & Bi & Ei & Ej). apply (replace_distinct P t d t' i l G D); [rewrite Bi; exact A|exact Ei|exact Ej].
  - destruct (N.lt_ge_cases i (2 ^ d)) as [L|L]; [|rewrite (update_out t d i l U L) in E; discriminate].
    destruct (update_ok t d i l U L) as (t2 & E2 & _ & H). rewrite E in E2. apply Ok_inj in E2. subst t2. apply (replace_distinct P t d t' i l G D A).
    + unfold leaf_at. rewrite (proj1 (H (2 * i)) eq_refl). reflexivity.
    + intros j Ne. unfold leaf_at. rewrite (proj2 (proj2 (H (2 * j)))); [reflexivity|lia|apply path_not_leaf].
  - destruct (N.lt_ge_cases i (2 ^ d)) as [L|L]; [|rewrite (remove_out t d i U L) in E; discriminate].
    destruct (c18 t d i (g_size _ _ G) (g_small _ _ G) L) as (t2 & E2 & B & _ & K & _). rewrite E in E2. apply Ok_inj in E2. subst t2.
    assert (Ni : leaf_at t' i = None) by (unfold leaf_at; unfold blank_at in B; rewrite B; reflexivity).
    intros a b la lb Ea Eb Q. rewrite K in Ea by (intros ->; congruence). rewrite K in Eb by (intros ->; congruence). exact (D a b la lb Ea Eb Q).
  - destruct (N.lt_ge_cases i (2 ^ d)) as [L|L]; [|rewrite (merge_out P cs t d i u U L) in E; discriminate].
    apply (c25 P cs t d i u t' (good_shaped t d G) L) in E. apply (replace_distinct P t d t' i (up_leaf u) G D A).
    + unfold leaf_at. rewrite (mg_leaf _ _ _ _ _ _ _ E). reflexivity.
    + intros j Ne. unfold leaf_at. rewrite (mg_off _ _ _ _ _ _ _ E); [reflexivity|lia|apply path_not_leaf].
Qed.

Lemma c72_history P cs t d t' : good t d -> distinct_keys t -> checked_history P cs t t' -> distinct_keys t'.
Proof.
  intros G D H. assert (X : (t' = [] \/ exists d', good t' d') /\ distinct_keys t'); [|apply X].
  induction H as [t|t t1 t2 H IH S]; [split; [right; eauto|exact D]|]. destruct (IH G D) as [[->|(d1 & G1)] D1].
  - exfalso. exact (step_empty P cs t2 (checked_plain _ _ _ _ S)).
  - split; [exact (step_good P cs t1 d1 t2 G1 (checked_plain _ _ _ _ S))|exact (checked_distinct P cs t1 d1 t2 G1 D1 S)].
Qed.

(** ** Examples *)

Definition ex_newcomer : leaf_node := ex_signed x04 LSUpdate (str "group") 3.
(** Member 1 with a new encryption key and the signature key it had. *)
Definition ex_rekeyed : leaf_node :=
  let p := MkLeafPayload [x77] [x02; x21] (CredBasic (str "alice")) ex_caps LSUpdate [] in
  MkLeafNode p (ok_or [] (let* tbs := se_leaf_node_tbs p (TIUpdateOrCommit (str "group") 1) in sign_with_label toy Suite1 [x02; x21] leaf_node_label tbs)).
Definition ex_four : tree := [Some (Leaf (ex_leaf x01)); None; Some (Leaf (ex_leaf x02)); None; Some (Leaf (ex_leaf x03)); None; Some (Leaf ex_newcomer)].
Definition ex_four' : tree := [Some (Leaf (ex_leaf x01)); None; Some (Leaf ex_rekeyed); None; Some (Leaf (ex_leaf x03)); None; Some (Leaf ex_newcomer)].
Lemma ex_checked : checked_history toy Suite1 ex_three ex_four'.
Proof.
  apply (ch_cons _ _ _ ex_four).
  - apply (ch_cons _ _ _ ex_three); [constructor|]. apply (cs_add _ _ _ ex_newcomer); [|exists 2; left; reflexivity|vm_compute; reflexivity].
    exists [[x01; x21]; [x02; x21]; [x03; x21]], [[x01; x11; x12]; [x02; x11; x12]; [x03; x11; x12]].
    exists (MkLeafOptions Suite1 (str "group") 3 [CtBasic] [[x01; x21]; [x02; x21]; [x03; x21]] [[x01; x11; x12]; [x02; x11; x12]; [x03; x11; x12]] 5000%Z).
    split; [vm_compute; reflexivity|]. split; [vm_compute; reflexivity|]. split; intros k I; left; exact I.
  - apply (cs_update _ _ _ 1 ex_rekeyed); [|vm_compute; reflexivity].
    exists [[x01; x21]; [x02; x21]; [x03; x21]; [x04; x21]], [[x01; x11; x12]; [x02; x11; x12]; [x03; x11; x12]; [x04; x11; x12]].
    exists (MkLeafOptions Suite1 (str "group") 1 [CtBasic] [[x01; x21]; [x03; x21]; [x04; x21]] [[x01; x11; x12]; [x02; x11; x12]; [x03; x11; x12]; [x04; x11; x12]] 5000%Z).
    split; [vm_compute; reflexivity|]. split; [vm_compute; reflexivity|]. split; intros k I; [|left; exact I].
    destruct I as [<-|[<-|[<-|[<-|[]]]]]; [left; cbn; auto|right; exists (ex_leaf x02); split; reflexivity|left; cbn; auto|left; cbn; auto].
Qed.
Lemma ex_three_distinct : distinct_keys ex_three.
Proof.
  assert (C : forall i l, leaf_at ex_three i = Some l -> i = 0 /\ l = ex_leaf x01 \/ i = 1 /\ l = ex_leaf x02 \/ i = 2 /\ l = ex_leaf x03).
  { intros i l E. assert (X : i = 0 \/ i = 1 \/ i = 2 \/ i = 3 \/ 4 <= i) by lia. destruct X as [->|[->|[->|[->|X]]]]; [injection E as <-; auto|injection E as <-; auto|injection E as <-; auto|discriminate|].
    unfold leaf_at in E. rewrite tget_beyond in E; [discriminate|]. change (tlen ex_three) with 7. lia. }
  intros i j l m Ei Ej Q. destruct (C i l Ei) as [[-> ->]|[[-> ->]|[-> ->]]]; destruct (C j m Ej) as [[-> ->]|[[-> ->]|[-> ->]]]; try reflexivity; destruct Q as [Q|Q]; discriminate.
Qed.
(** The keys of parent nodes are not among those reported. *)
Lemma c72_parents : exists P t d l i, good t d /\ accepted P t None l /\ tget t i <> None /\ (exists p, tget t i = Some (Parent p) /\ pn_encryption_key p = encryption_key l).
Proof.
  exists toy, ex_merged3, 2, (let p := MkLeafPayload [x77] [x09; x21] (CredBasic (str "alice")) ex_caps LSUpdate [] in
    MkLeafNode p (ok_or [] (let* tbs := se_leaf_node_tbs p (TIUpdateOrCommit (str "group") 3) in sign_with_label toy Suite1 [x09; x21] leaf_node_label tbs))), 1.
  split; [exact (merge_good toy Suite1 ex_three 2 0 ex_path3 ex_merged3 ex_three_good eq_refl ex_merge3)|]. split.
  - exists [[x05; x21]; [x02; x21]; [x03; x21]], [[x05; x11; x12]; [x02; x11; x12]; [x03; x11; x12]].
    exists (MkLeafOptions Suite1 (str "group") 3 [CtBasic] [[x05; x21]; [x02; x21]; [x03; x21]] [[x05; x11; x12]; [x02; x11; x12]; [x03; x11; x12]] 5000%Z).
    split; [vm_compute; reflexivity|]. split; [vm_compute; reflexivity|]. split; intros k I; left; exact I.
  - split; [discriminate|]. exists (MkParentNode [x77] ex_top_hash []). split; reflexivity.
Qed.
