(** Proofs about trees that were received and accepted. *)
From Coq Require Import ZifyBool ZifyNat ZifyN.
From Verif Require Import PassiveFacts Verified TreeFacts.
From Verif Require Import WireWF SpecRatchet Examples.
Import Coq.Strings.Byte.
Local Open Scope N_scope.

Lemma decoded_sized bs t rest : de_ratchet_tree bs = Ok (t, rest) -> t <> [] ->
  exists d, full_size t d /\ tlen t < 4294967296 /\ (forall y n, tget t y = Some n -> in_tree d y).
Proof.
  intros D Q. apply tree_decode in D as (W & l & p & S & _ & n & k & E & L & M).
  assert (C : N.of_nat (length l) < 2 ^ 30).
  { unfold se_vector in S. apply bind_ok in S as (raw & S & O). apply opaque_fits in O. apply elems_count in S; [lia|].
    intros [a|] q H; cbn [se_option] in H; [apply seqw_ok in H as (u & v & U & _ & ->); apply Ok_inj in U; subst u; cbn; lia|apply Ok_inj in H; subst q; cbn; lia]. }
  assert (K : k <= 30). { apply M. lia. }
  assert (B : 2 ^ k <= 2 ^ 30) by (apply pow2_mono; lia). change (2 ^ 30) with 1073741824 in *.
  assert (IN : forall y m, tget t y = Some m -> y < tlen t). { intros y m H. unfold tget in H. destruct (y <? tlen t) eqn:F; [apply N.ltb_lt, F|discriminate]. }
  assert (Z : length t <> 0%nat) by (destruct t; [congruence|discriminate]).
  assert (k <> 0). { intros ->. change (2 ^ 0) with 1 in L. lia. }
  exists (k - 1). unfold full_size, in_tree. replace (k - 1 + 1) with k by lia. pose proof (eq_refl (tlen t)) as TL. unfold tlen at 2 in TL. split; [lia|]. split; [lia|]. intros y m H1. pose proof (IN _ _ H1). lia.
Qed.

Lemma c93_accepted P bs t rest ctx now : de_ratchet_tree bs = Ok (t, rest) -> verify_integrity P t ctx now = Ok tt ->
  exists d, full_size t d /\ shaped t d /\ (forall x nd, tget t x = Some nd -> in_tree d x) /\
    (forall x p u, tget t x = Some (Parent p) -> In u (pn_unmerged p) -> u < 2 ^ d).
Proof.
  intros D V. assert (NE : t <> []) by (intros ->; discriminate). destruct (decoded_sized bs t rest D NE) as (d & F & L & IN).
  exists d. split; [exact F|]. assert (S : tsized t d) by (left; exact F). pose proof (small_usized t d S L) as U.
  apply (verify_integrity_iff P t ctx now d S L IN) in V. destruct (valid_kinds P _ t d _ U IN (vf_hash _ _ _ _ _ V)) as [K1 K2].
  assert (UB : forall x p u, tget t x = Some (Parent p) -> In u (pn_unmerged p) -> u < 2 ^ d).
  { intros x p u E I. pose proof (IN _ _ E) as It. destruct (node_decomp x) as (k & j & ->). apply in_tree_iff in It as [Hk Hj].
    destruct (vf_unmerged_below _ _ _ _ _ V k j p u E I) as [_ C]. apply covers_div in C. subst j. pose proof (pow2_pos k).
    pose proof (N.div_mod u (2 ^ k) ltac:(lia)) as DM. pose proof (N.mod_lt u (2 ^ k) ltac:(lia)) as ML.
    assert (Q : 2 ^ d = 2 ^ k * 2 ^ (d - k)) by (rewrite <- N.pow_add_r; f_equal; lia). nia. }
  split; [|split; [exact IN|exact UB]]. split; [exact S|exact L|exact K1|exact K2|].
  intros x p u E I. pose proof (UB x p u E I). pose proof (usized_31 t d U). assert (2 ^ d <= 2 ^ 31) by (apply pow2_mono; assumption). change (2 ^ 31) with 2147483648 in *. lia.
Qed.

(** ** Examples *)

(** Members 0 and 2 of four places; the parent of the first two places is set although nobody is at its right. *)
Definition ex_s_hash : bytes :=
  ok_or [] (let* th := tree_hash toy Suite1 [None; None; None] 2 [] in parent_hash toy Suite1 (ex_v_parent []) th).
Definition ex_sided : tree :=
  [Some (Leaf (ex_signed x01 (LSCommit ex_s_hash) (str "group") 0)); Some (Parent (ex_v_parent [])); None; None;
   Some (Leaf (ex_signed x02 LSUpdate (str "group") 2)); None; None].
Definition ex_sided_cut : tree := firstn 2 ex_sided.
Definition ex_sided_copy : tree := firstn 3 ex_sided.

Lemma ex_sided_ok : de_ratchet_tree (ok_or [] (se_ratchet_tree ex_sided)) = Ok (ex_sided, []) /\
  verify_integrity toy ex_sided (ex_context ex_sided) (fun _ => 5000%Z) = Ok tt.
Proof. split; vm_compute; reflexivity. Qed.

Lemma c93_newcomer : exists P bs t ctx now i t' b t'', de_ratchet_tree bs = Ok (t, []) /\ verify_integrity P t ctx now = Ok tt /\
  (exists l, leaf_at t i = Some l) /\ tree_remove t i = Ok t' /\ (exists l, leaf_at t' 0 = Some l) /\
  se_ratchet_tree t' = Ok b /\ de_ratchet_tree b = Ok (t'', []) /\
  forall ctx' now', gc_suite ctx' = gc_suite ctx -> root_tree_hash P (gc_suite ctx) t' = Ok (gc_tree_hash ctx') ->
    verify_integrity P t'' ctx' now' = Err TreeHashVerificationFailed.
Proof.
  exists toy, (ok_or [] (se_ratchet_tree ex_sided)), ex_sided, (ex_context ex_sided), (fun _ => 5000%Z), 2, ex_sided_cut, (ok_or [] (se_ratchet_tree ex_sided_cut)), ex_sided_copy.
  destruct ex_sided_ok as [A B]. split; [exact A|]. split; [exact B|]. split; [eexists; reflexivity|]. split; [vm_compute; reflexivity|]. split; [eexists; reflexivity|].
  split; [vm_compute; reflexivity|]. split; [vm_compute; reflexivity|]. intros ctx' now' C H. change (gc_suite (ex_context ex_sided)) with Suite1 in *.
  assert (N : forall h h', root_tree_hash toy Suite1 ex_sided_cut = Ok h -> root_tree_hash toy Suite1 ex_sided_copy = Ok h' -> bytes_eqb h' h = false).
  { assert (X : match root_tree_hash toy Suite1 ex_sided_cut, root_tree_hash toy Suite1 ex_sided_copy with Ok h, Ok h' => bytes_eqb h' h | _, _ => true end = false) by (vm_compute; reflexivity).
    intros h h' E E'. rewrite E, E' in X. exact X. }
  unfold verify_integrity. rewrite C. destruct (root_tree_hash toy Suite1 ex_sided_copy) as [h'|e| |] eqn:E.
  - cbn [bind]. rewrite (N _ _ H eq_refl). reflexivity.
  - exfalso. assert (X : match root_tree_hash toy Suite1 ex_sided_copy with Ok _ => true | _ => false end = true) by (vm_compute; reflexivity). rewrite E in X. discriminate.
  - exfalso. assert (X : match root_tree_hash toy Suite1 ex_sided_copy with Ok _ => true | _ => false end = true) by (vm_compute; reflexivity). rewrite E in X. discriminate.
  - exfalso. assert (X : match root_tree_hash toy Suite1 ex_sided_copy with Ok _ => true | _ => false end = true) by (vm_compute; reflexivity). rewrite E in X. discriminate.
Qed.

Lemma c93_twice : exists P bs t ctx now l t' x, de_ratchet_tree bs = Ok (t, []) /\ verify_integrity P t ctx now = Ok tt /\
  tree_add t l = Ok t' /\ (exists ctx', verify_integrity P t' ctx' now = Ok tt) /\ exists y, resolve t' x = Ok [x; y; y].
Proof.
  exists toy, (ok_or [] (se_ratchet_tree ex_blank)), ex_blank, (ex_context ex_blank), (fun _ => 5000%Z), ex_v_leaf1.
  exists (ok_or [] (tree_add ex_blank ex_v_leaf1)), 1. split; [vm_compute; reflexivity|]. split; [vm_compute; reflexivity|]. split; [vm_compute; reflexivity|]. split; [|exists 2; vm_compute; reflexivity].
  exists (ex_context (ok_or [] (tree_add ex_blank ex_v_leaf1))). vm_compute. reflexivity.
Qed.

(** Members 0 and 2 of four places. The parent of the first two places, but not the root, lists the blank place 1 as unmerged. *)
Definition ex_h_parent : parent_node := MkParentNode [x79] [] [1].
Definition ex_h_left : tree :=
  [Some (Leaf (ex_signed x01 (LSCommit (ok_or [] (let* th := tree_hash toy Suite1 [None; None; None] 2 [] in parent_hash toy Suite1 ex_h_parent th))) (str "group") 0));
   Some (Parent ex_h_parent); None].
Definition ex_h_hash : bytes :=
  ok_or [] (let* th := tree_hash toy Suite1 (ex_h_left ++ [None; None; None; None]) 1 [] in parent_hash toy Suite1 (ex_v_parent []) th).
Definition ex_haunted : tree :=
  (ex_h_left ++ [Some (Parent (ex_v_parent [])); Some (Leaf (ex_signed x02 (LSCommit ex_h_hash) (str "group") 2)); None; None])%list.
Definition ex_haunted_leaf : leaf_node := ex_signed x03 LSUpdate (str "group") 1.
Definition ex_haunted_more : tree := ok_or [] (tree_add ex_haunted ex_haunted_leaf).

Lemma c93_add : exists P bs t ctx now l t' i, de_ratchet_tree bs = Ok (t, []) /\ verify_integrity P t ctx now = Ok tt /\ has_room t /\
  (forall h, lp_source (ln_payload l) <> LSCommit h) /\ tree_add t l = Ok t' /\ leaf_at t' i = Some l /\
  forall ctx' now', gc_suite ctx' = gc_suite ctx -> root_tree_hash P (gc_suite ctx) t' = Ok (gc_tree_hash ctx') ->
    verify_integrity P t' ctx' now' = Err ParentHashesVerificationFailed.
Proof.
  exists toy, (ok_or [] (se_ratchet_tree ex_haunted)), ex_haunted, (ex_context ex_haunted), (fun _ => 5000%Z), ex_haunted_leaf, ex_haunted_more, 1.
  split; [vm_compute; reflexivity|]. split; [vm_compute; reflexivity|]. split; [exists 2; left; reflexivity|]. split; [intros h; discriminate|].
  split; [vm_compute; reflexivity|]. split; [vm_compute; reflexivity|]. intros ctx' now' C H. change (gc_suite (ex_context ex_haunted)) with Suite1 in *.
  unfold verify_integrity. rewrite C, H. cbn [bind]. rewrite (proj2 (bytes_eqb_eq _ _) eq_refl). cbn [negb].
  assert (X : verify_parent_hashes toy Suite1 ex_haunted_more = Ok false) by (vm_compute; reflexivity). rewrite X. reflexivity.
Qed.

(** A received tree that is not one the library would make: its parent lists a blank leaf. *)
Lemma ex_blank_shaped : shaped ex_blank 1 /\ ~ good ex_blank 1.
Proof.
  split.
  - destruct (c93_accepted toy (ok_or [] (se_ratchet_tree ex_blank)) ex_blank [] (ex_context ex_blank) (fun _ => 5000%Z)) as (d & F & S & _); [vm_compute; reflexivity|vm_compute; reflexivity|].
    assert (d = 1) as <-; [|exact S]. apply (size_unique ex_blank); [left; exact F|left; reflexivity].
  - intros G. destruct (uo_below _ (g_unmerged _ _ G) 1 0 (ex_v_parent [1]) 1 eq_refl (or_introl eq_refl)) as [_ [l E]]. discriminate.
Qed.
