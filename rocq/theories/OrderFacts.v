(** Proofs about the order of the proposals in a list. *)
From Coq Require Import Permutation ZifyBool ZifyNat ZifyN.
From Verif Require Import CodecLib WireCodecs TreeMore ProposalFacts SpecApply ApplyFacts WireWF Examples TreeFacts.
Local Open Scope N_scope.

(** ** Permuted lists, kind by kind *)
Lemma updates_perm l l' : Permutation l l' -> Permutation (updates_of l) (updates_of l').
Proof.
  induction 1 as [|[p s] l l' _ IH|[p s] [q u] l|l l' l'' _ IH1 _ IH2]; cbn [updates_of]; [constructor| | |eapply perm_trans; eassumption].
  - destruct p; try exact IH. constructor. exact IH.
  - destruct p, q; try apply Permutation_refl. constructor.
Qed.
Lemma combine_fst {A B} (l : list A) : forall (r : list B), length l = length r -> map fst (combine l r) = l.
Proof. induction l as [|a l IH]; intros [|b r] H; cbn in *; try discriminate; [reflexivity|]. f_equal. apply IH. lia. Qed.
Lemma removes_of_perm l l' : Permutation l l' -> Permutation (removes_of l) (removes_of l').
Proof.
  induction 1 as [|p l l' _ IH|p q l|l l' l'' _ IH1 _ IH2]; cbn [removes_of]; [constructor| | |eapply perm_trans; eassumption].
  - destruct p; try exact IH. constructor. exact IH.
  - destruct p, q; try apply Permutation_refl. constructor.
Qed.
Lemma adds_of_perm l l' : Permutation l l' -> Permutation (adds_of l) (adds_of l').
Proof.
  induction 1 as [|p l l' _ IH|p q l|l l' l'' _ IH1 _ IH2]; cbn [adds_of]; [constructor| | |eapply perm_trans; eassumption].
  - destruct p; try exact IH. constructor. exact IH.
  - destruct p, q; try apply Permutation_refl. constructor.
Qed.

(** ** Updates *)
Lemma path_dec d i x : on_path d i x \/ ~ on_path d i x.
Proof.
  destruct (node_decomp x) as (k & j & ->). destruct (N.lt_ge_cases 0 k) as [A|A]; [|right; intros (K & J & (B & _) & Q & _); apply node_at_inj in Q as [-> ->]; lia].
  destruct (N.lt_ge_cases d k) as [B|B]; [right; intros (K & J & (_ & C) & Q & _); apply node_at_inj in Q as [-> ->]; lia|].
  unfold on_path, covers. destruct (N.lt_ge_cases i (j * 2 ^ k)) as [C|C]; [right; intros (K & J & _ & Q & X); apply node_at_inj in Q as [-> ->]; lia|].
  destruct (N.lt_ge_cases i ((j + 1) * 2 ^ k)) as [D|D]; [left; exists k, j; split; [lia|]; split; [reflexivity|lia]|right; intros (K & J & _ & Q & X); apply node_at_inj in Q as [-> ->]; lia].
Qed.
Lemma path_not_leaf d i j : ~ on_path d i (2 * j).
Proof. intros (k & p & L & Q & _). rewrite <- node_at_leaf in Q. apply node_at_inj in Q as [<- _]. lia. Qed.
Lemma updates_swap t d i l j m r : usized t d -> i < 2 ^ d -> j < 2 ^ d -> i <> j -> do_updates t ((i, l) :: (j, m) :: r) = do_updates t ((j, m) :: (i, l) :: r).
Proof.
  intros U Hi Hj Ne. cbn [do_updates].
  destruct (update_ok t d i l U Hi) as (a & Ea & La & Ha). destruct (update_ok t d j m U Hj) as (b & Eb & Lb & Hb). rewrite Ea, Eb. cbn [bind].
  destruct (update_ok a d j m (usized_same _ _ _ La U) Hj) as (a' & Ea' & La' & Ha'). destruct (update_ok b d i l (usized_same _ _ _ Lb U) Hi) as (b' & Eb' & Lb' & Hb').
  rewrite Ea', Eb'. cbn [bind]. f_equal. apply tree_ext; [lia|]. intros x _.
  destruct (Ha x) as (A1 & A2 & A3), (Hb x) as (B1 & B2 & B3), (Ha' x) as (C1 & C2 & C3), (Hb' x) as (D1 & D2 & D3).
  destruct (N.eq_dec x (2 * i)) as [->|Xi].
  { rewrite D1 by reflexivity. rewrite C3 by (lia || apply path_not_leaf). apply A1; reflexivity. }
  destruct (N.eq_dec x (2 * j)) as [->|Xj].
  { rewrite C1 by reflexivity. rewrite D3 by (lia || apply path_not_leaf). symmetry. apply B1; reflexivity. }
  destruct (path_dec d i x) as [Pi|Pi], (path_dec d j x) as [Pj|Pj].
  - rewrite C2, D2 by assumption. reflexivity.
  - rewrite C3, D2 by assumption. apply A2, Pi.
  - rewrite C2, D3 by assumption. symmetry. apply B2, Pj.
  - rewrite C3, D3, A3, B3 by assumption. reflexivity.
Qed.
Lemma updates_any us us' : Permutation us us' -> forall t d, usized t d -> NoDup (map fst us) -> (forall i, In i (map fst us) -> i < 2 ^ d) -> do_updates t us = do_updates t us'.
Proof.
  induction 1 as [|[i l] us us' _ IH|[i l] [j m] us|a b c P1 IH1 P2 IH2]; intros t d U ND M; [reflexivity| | |].
  - cbn [do_updates]. cbn [map fst] in ND, M. inversion ND; subst. destruct (update_ok t d i l U ltac:(apply M; left; reflexivity)) as (a & Ea & La & _). rewrite Ea. cbn [bind].
    eapply IH; [exact (usized_same _ _ _ La U)|assumption|intros; apply M; right; assumption].
  - cbn [map fst] in ND, M. inversion ND as [|? ? N1 N2]; subst. apply (updates_swap t d j m i l us U); [apply M; left; reflexivity|apply M; right; left; reflexivity|intros ->; apply N1; left; reflexivity].
  - rewrite (IH1 t d U ND M). apply (IH2 t d U).
    + eapply Permutation_NoDup; [apply Permutation_map, P1|exact ND].
    + intros i I. apply M. eapply Permutation_in; [apply Permutation_sym, Permutation_map, P1|exact I].
Qed.
Lemma do_removes_removes l : forall t, do_removes t l = removes t l.
Proof. induction l as [|i l IH]; intros t; cbn; [reflexivity|]. destruct (tree_remove t i); cbn; auto. Qed.

(** ** The list up to the additions *)
Lemma before_adds t d ps senders committer ps' senders' : good t d -> psks_wf ps -> verify_proposal_list ps senders committer = Ok tt ->
  names_members t ps senders committer -> length ps' = length senders' -> Permutation (combine ps senders) (combine ps' senders') ->
  exists m, tree_apply t ps senders = (let* t := m in do_adds t (adds_of ps)) /\ tree_apply t ps' senders' = (let* t := m in do_adds t (adds_of ps')).
Proof.
  intros G W V [_ M] L' P. apply c48_iff in V; [|exact W]. destruct V as [L _ T _ _ _ _ _ _].
  exists (let* t := do_updates t (updates_of (combine ps senders)) in do_removes t (removes_of ps)).
  rewrite !apply_by_kind by lia.
  assert (OT : one_touch ps senders) by exact T.
  assert (UM : forall x, In x (map fst (updates_of (combine ps senders))) -> ~ blank_at t x).
  { intros x I. apply in_updates_fst in I as (l & n & u & A & _). eapply M; [exact A|reflexivity]. }
  assert (LT : forall i, In i (map fst (updates_of (combine ps senders))) -> i < 2 ^ d) by (intros i I; apply (good_member_lt t d i G), UM, I).
  rewrite <- (updates_any _ _ (updates_perm _ _ P) t d (good_usized t d G) (updates_NoDup _ _ OT) LT).
  destruct (updates_ok good good_shaped update_good remove_good add_found_good add_full_good (updates_of (combine ps senders)) t d G (updates_NoDup _ _ OT) LT) as (t1 & E1 & G1 & L1 & U1 & K1).
  rewrite E1. cbn [bind].
  assert (B1 : forall x, blank_at t1 x <-> blank_at t x).
  { intros x. destruct (in_dec N.eq_dec x (map fst (updates_of (combine ps senders)))) as [I|NI].
    - pose proof (UM x I) as NB. apply in_updates_fst in I as (l & I). apply in_updates, U1 in I. unfold leaf_at in I. unfold blank_at in *.
      split; [intros Q; rewrite Q in I; discriminate|tauto].
    - unfold blank_at. rewrite K1 by exact NI. reflexivity. }
  assert (RMm : forall i, In i (removes_of ps) -> ~ blank_at t1 i).
  { intros i I Q. apply in_removes in I. apply B1 in Q. destruct (removed_at ps senders i L I) as (n & p & s & A & TT). exact (M n (PRemove p) s i A TT Q). }
  pose proof (removes_NoDup ps senders L OT) as NDr.
  assert (PR : Permutation (removes_of ps) (removes_of ps')).
  { apply removes_of_perm. rewrite <- (combine_fst ps senders L), <- (combine_fst ps' senders' L'). apply Permutation_map, P. }
  rewrite (do_removes_removes (removes_of ps)), (do_removes_removes (removes_of ps')), <- (removes_perm t1 d _ _ G1 NDr RMm PR). split; reflexivity.
Qed.
Lemma order_same t d ps senders committer ps' senders' : good t d -> psks_wf ps -> verify_proposal_list ps senders committer = Ok tt ->
  names_members t ps senders committer -> length ps' = length senders' -> Permutation (combine ps senders) (combine ps' senders') -> adds_of ps = adds_of ps' ->
  tree_apply t ps senders = tree_apply t ps' senders'.
Proof.
  intros G W V M L' P A. destruct (before_adds t d ps senders committer ps' senders' G W V M L' P) as (m & -> & ->). rewrite A. reflexivity.
Qed.

(** ** Additions *)
Definition alike (A : list leaf_node) (o o' : option node) : Prop :=
  o = o' \/ exists l l', o = Some (Leaf l) /\ o' = Some (Leaf l') /\ In l A /\ In l' A.
Definition trees_alike (A : list leaf_node) (t t' : tree) : Prop := tlen t = tlen t' /\ forall x, alike A (tget t x) (tget t' x).

Lemma alike_blank A t t' : trees_alike A t t' -> forall f i, find_blank f t i = find_blank f t' i.
Proof.
  intros [L H]. assert (K : forall f i, find_blank f t i = find_blank f t' i); [|exact K].
  induction f as [|f IH]; intros i; cbn [find_blank]; destruct (node_index i) as [ni|e| |]; cbn [bind]; try reflexivity; rewrite L; destruct (tlen t' <=? ni); try reflexivity;
  destruct (H ni) as [->|(a & b & -> & -> & _)]; try reflexivity; destruct (tget t' ni); try reflexivity; destruct (add32 i 1); cbn [bind]; try reflexivity; apply IH.
Qed.
Lemma alike_push A li p t t' : trees_alike A t t' -> trees_alike A (push_unmerged li t p) (push_unmerged li t' p).
Proof.
  intros [L H]. unfold push_unmerged. destruct (H p) as [E|(a & b & Ea & Eb & _)].
  - rewrite E. destruct (tget t' p) as [[l|q]|]; try (split; assumption). split; [rewrite !tlen_tset; exact L|]. intros x. rewrite !tget_tset, L. destruct ((x =? p) && (p <? tlen t')); [left; reflexivity|apply H].
  - rewrite Ea, Eb. split; assumption.
Qed.
Lemma alike_fold A li path : forall t t', trees_alike A t t' -> trees_alike A (fold_left (push_unmerged li) path t) (fold_left (push_unmerged li) path t').
Proof. induction path as [|p path IH]; intros t t' H; cbn [fold_left]; [exact H|]. apply IH, alike_push, H. Qed.
Lemma alike_set A t t' x a b : trees_alike A t t' -> In a A -> In b A -> trees_alike A (tset t x (Some (Leaf a))) (tset t' x (Some (Leaf b))).
Proof.
  intros [L H] Ia Ib. split; [rewrite !tlen_tset; exact L|]. intros y. rewrite !tget_tset, L. destruct ((y =? x) && (x <? tlen t')); [right; exists a, b; auto|apply H].
Qed.
Lemma alike_extend A t t' : trees_alike A t t' -> trees_alike A (t ++ repeat None (S (length t)))%list (t' ++ repeat None (S (length t')))%list.
Proof.
  intros [L H]. assert (LL : length t = length t') by (unfold tlen in L; lia). rewrite LL. split.
  - unfold tlen. rewrite !app_length, LL. reflexivity.
  - intros x. specialize (H x). rewrite !tget_nth in *. destruct (Nat.lt_ge_cases (N.to_nat x) (length t)) as [Q|Q].
    + rewrite !app_nth1 by lia. exact H.
    + left. rewrite !app_nth2 by lia. rewrite LL. reflexivity.
Qed.
Definition outcome_alike (A : list leaf_node) (r r' : res tree) : Prop :=
  match r, r' with Ok t, Ok t' => trees_alike A t t' | Err e, Err e' => e = e' | Panic, Panic => True | Hang, Hang => True | _, _ => False end.
Lemma alike_add A t t' a b : trees_alike A t t' -> In a A -> In b A -> outcome_alike A (tree_add t a) (tree_add t' b).
Proof.
  intros H Ia Ib. pose proof H as [L _]. assert (LL : length t = length t') by (unfold tlen in L; lia). unfold tree_add. rewrite <- (alike_blank A t t' H), LL.
  destruct (find_blank (length t') t 0) as [[[li ni] f]|e| |]; cbn [bind]; try (exact I || reflexivity).
  assert (T32 : tlen32 t = tlen32 t') by (unfold tlen32; rewrite L; reflexivity).
  assert (S : forall u u' n, trees_alike A u u' -> outcome_alike A (let* path := climb 33 (num_leaves u) n in Ok (tset (fold_left (push_unmerged li) path u) n (Some (Leaf a))))
     (let* path := climb 33 (num_leaves u') n in Ok (tset (fold_left (push_unmerged li) path u') n (Some (Leaf b))))).
  { intros u u' n HU. assert (NL : num_leaves u = num_leaves u') by (unfold num_leaves, tlen32; rewrite (proj1 HU); reflexivity). rewrite NL.
    destruct (climb 33 (num_leaves u') n); cbn [bind]; try (exact I || reflexivity). apply alike_set; [apply alike_fold, HU|exact Ia|exact Ib]. }
  destruct f; cbn [bind]; [apply S, H|]. rewrite T32. destruct (add32 (tlen32 t') 1); cbn [bind]; try (exact I || reflexivity). pose proof (alike_extend A t t' H) as X. rewrite LL in X. apply S, X.
Qed.
Lemma alike_adds A l : forall l' t t', length l = length l' -> trees_alike A t t' -> (forall x, In x l -> In x A) -> (forall x, In x l' -> In x A) ->
  outcome_alike A (do_adds t l) (do_adds t' l').
Proof.
  induction l as [|a l IH]; intros [|b l'] t t' L H I1 I2; try discriminate; cbn [do_adds]; [exact H|].
  pose proof (alike_add A t t' a b H (I1 a (or_introl eq_refl)) (I2 b (or_introl eq_refl))) as Q.
  destruct (tree_add t a), (tree_add t' b); cbn in Q; try contradiction; cbn [bind]; try exact Q. apply IH; [cbn in L; lia|exact Q|intros; apply I1; right; assumption|intros; apply I2; right; assumption].
Qed.
Lemma order_any t d ps senders committer ps' senders' t1 : good t d -> psks_wf ps -> verify_proposal_list ps senders committer = Ok tt ->
  names_members t ps senders committer -> length ps' = length senders' -> Permutation (combine ps senders) (combine ps' senders') ->
  tree_apply t ps senders = Ok t1 -> exists t2, tree_apply t ps' senders' = Ok t2 /\ tlen t1 = tlen t2 /\
    forall x, tget t1 x = tget t2 x \/ exists l l', tget t1 x = Some (Leaf l) /\ tget t2 x = Some (Leaf l') /\ In l (adds_of ps) /\ In l' (adds_of ps).
Proof.
  intros G W V M L' P E. destruct (before_adds t d ps senders committer ps' senders' G W V M L' P) as (m & Q1 & Q2). rewrite Q1 in E. rewrite Q2.
  apply bind_ok in E as (t0 & -> & E). cbn [bind].
  apply c48_iff in V; [|exact W]. destruct V as [L _ _ _ _ _ _ _ _].
  assert (PA : Permutation (adds_of ps) (adds_of ps')).
  { apply adds_of_perm. rewrite <- (combine_fst ps senders L), <- (combine_fst ps' senders' L'). apply Permutation_map, P. }
  pose proof (alike_adds (adds_of ps) (adds_of ps) (adds_of ps') t0 t0 (Permutation_length PA)) as K. rewrite E in K.
  destruct (do_adds t0 (adds_of ps')) as [t2|e| |]; cbn in K; try (exfalso; apply K; [split; [reflexivity|intros x; left; reflexivity]|auto|intros x I; eapply Permutation_in; [apply Permutation_sym, PA|exact I]]).
  exists t2. split; [reflexivity|]. apply K; [split; [reflexivity|intros x; left; reflexivity]|auto|intros x I; eapply Permutation_in; [apply Permutation_sym, PA|exact I]].
Qed.

(** ** Examples *)
Definition ex_turned : list proposal :=
  [PRemove (MkRemove 1); PAdd (MkAdd (ex_kp x07)); PAdd (MkAdd (ex_kp x08)); PUpdate (MkUpdate (ex_leaf x09))].
Definition ex_other_way : list proposal :=
  [PUpdate (MkUpdate (ex_leaf x09)); PAdd (MkAdd (ex_kp x08)); PRemove (MkRemove 1); PAdd (MkAdd (ex_kp x07))].
Lemma ex_turned_perm : Permutation (combine ex_list [2; 0; 0; 0]) (combine ex_turned [0; 0; 0; 2]).
Proof.
  cbn [ex_list ex_turned combine]. eapply perm_trans; [|apply (Permutation_cons_append [_; _; _])]. apply perm_skip, perm_swap.
Qed.
Lemma order_example : good ex_tree 2 /\ psks_wf ex_list /\ verify_proposal_list ex_list [2; 0; 0; 0] 0 = Ok tt /\ names_members ex_tree ex_list [2; 0; 0; 0] 0 /\
  Permutation (combine ex_list [2; 0; 0; 0]) (combine ex_turned [0; 0; 0; 2]) /\ ex_list <> ex_turned /\ adds_of ex_list = adds_of ex_turned /\
  exists t', tree_apply ex_tree ex_list [2; 0; 0; 0] = Ok t' /\ tree_apply ex_tree ex_turned [0; 0; 0; 2] = Ok t' /\ tlen t' = 7.
Proof.
  destruct ex_list_ok as (A & B & C & D & _). split; [exact A|]. split; [exact B|]. split; [exact C|]. split; [exact D|]. split; [exact ex_turned_perm|]. split; [discriminate|]. split; [reflexivity|].
  eexists. split; [vm_compute; reflexivity|]. split; vm_compute; reflexivity.
Qed.
Lemma order_differ : exists t d ps ps' senders committer t1 t2, good t d /\ psks_wf ps /\ verify_proposal_list ps senders committer = Ok tt /\
  names_members t ps senders committer /\ Permutation (combine ps senders) (combine ps' senders) /\
  tree_apply t ps senders = Ok t1 /\ tree_apply t ps' senders = Ok t2 /\ t1 <> t2.
Proof.
  destruct ex_list_ok as (A & B & C & D & _). exists ex_tree, 2, ex_list, ex_other_way, [2; 0; 0; 0], 0. eexists. eexists.
  split; [exact A|]. split; [exact B|]. split; [exact C|]. split; [exact D|]. split.
  { cbn [ex_list ex_other_way combine]. apply perm_skip. eapply perm_trans; [apply perm_swap|]. eapply perm_trans; [|apply perm_swap]. apply perm_skip, perm_swap. }
  split; [vm_compute; reflexivity|]. split; [vm_compute; reflexivity|]. discriminate.
Qed.
