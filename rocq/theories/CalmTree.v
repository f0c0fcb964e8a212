(** Proofs that the tree operations come back. *)
From Verif Require Import TreeMathProofs TreeOps TreePaths TreeHash TreeMore TreeFacts Verified Merge CalmFacts SpecCalm.
From Coq Require Import ZifyBool ZifyNat ZifyN.
Local Open Scope N_scope.

Lemma r_hashed_leaf n b : returns (hashed_leaf n b). Proof. unfold hashed_leaf. calm. Qed.
Lemma r_hashed_parent n e : returns (hashed_parent n e). Proof. unfold hashed_parent. calm. Qed.
Lemma r_leaf_input li l : returns (leaf_hash_input li l). Proof. unfold leaf_hash_input. calm. Qed.
Lemma r_parent_input p a b : returns (parent_node_hash_input p a b). Proof. unfold parent_node_hash_input. calm. Qed.
#[local] Hint Resolve r_hashed_leaf r_hashed_parent r_leaf_input r_parent_input : calm.

Lemma r_tree_hash_f P cs t excl : steady P cs -> forall k fuel j, (k <= 31)%nat -> (k <= fuel)%nat -> returns (tree_hash_f fuel P cs t (node_at (N.of_nat k) j) excl).
Proof.
  intros H. induction k as [|k IH]; intros fuel j Hk Hf.
  - destruct fuel; unfold tree_hash_f; rewrite leaf_index_node; change (N.of_nat 0 =? 0) with true; cbv iota; calm.
  - destruct fuel as [|fuel]; [lia|]. cbn [tree_hash_f]. rewrite leaf_index_node. destruct (N.eqb_spec (N.of_nat (S k)) 0) as [Q|_]; [lia|].
    replace (N.of_nat (S k)) with (N.of_nat k + 1) by lia. rewrite children_node by lia. cbn [bind]. apply ret_bind; [|intros; calm].
    apply ret_bind; [apply IH; lia|intros]. apply ret_bind; [apply IH; lia|intros]. calm.
Qed.
Lemma r_tree_hash P cs t k j excl : steady P cs -> k <= 31 -> returns (tree_hash P cs t (node_at k j) excl).
Proof. intros H L. rewrite <- (N2Nat.id k). apply r_tree_hash_f; [exact H|lia|lia]. Qed.
Lemma r_root_hash P cs t d : steady P cs -> usized t d -> returns (root_tree_hash P cs t).
Proof.
  intros H U. unfold root_tree_hash. pose proof (usized_31 t d U) as L. rewrite (usized_leaves t d U).
  rewrite root_ok; [rewrite depth_pow2, <- node_at_root|pose proof (pow2_pos d); lia|change 2147483648 with (2 ^ 31); apply pow2_mono; exact L]. cbn [bind]. apply r_tree_hash; assumption.
Qed.
Lemma r_parent_hash P cs p s : steady P cs -> returns (parent_hash P cs p s).
Proof. intros H. unfold parent_hash, parent_hash_input. calm. Qed.
Lemma r_ok_or_false {A} (m : res A) k : returns m -> (forall a, returns (k a)) -> returns (ok_or_false m k).
Proof. intros [[a ->]|[e ->]] K; cbn; [apply K|apply ret_ok]. Qed.

Lemma r_check P cs t x nd : steady P cs -> small_unmerged t -> x < 4294967295 -> returns (check_parent_hash P cs t x nd).
Proof.
  intros H SU L. unfold check_parent_hash. destruct nd as [nd|]; [|apply ret_ok]. destruct (node_decomp x) as (k & j & ->). pose proof (u32_level k j L) as Lk.
  destruct (N.eq_dec k 0) as [->|Nk]; [rewrite TreeMathProofs.children_leaf; apply ret_ok|]. replace k with (k - 1 + 1) by lia. rewrite children_node by lia. cbn [bind].
  destruct nd as [l|p]; [apply ret_ok|]. rewrite !resolve_ok by (assumption || lia).
  repeat (apply r_ok_or_false; [first [apply r_tree_hash; [exact H|lia]|apply r_parent_hash, H]|intros]). apply ret_ok.
Qed.
Lemma r_verify_hashes P cs t : steady P cs -> small_unmerged t -> forall l i, i + tlen l < 4294967296 -> returns (verify_parent_hashes_from P cs t i l).
Proof.
  intros H SU. induction l as [|nd l IH]; intros i L; cbn [verify_parent_hashes_from]; [apply ret_ok|].
  assert (tlen (nd :: l) = tlen l + 1) by (unfold tlen; cbn [length]; lia). apply ret_bind; [apply r_check; [exact H|exact SU|rewrite N.mod_small; lia]|].
  intros [|] _; [apply IH; lia|apply ret_ok].
Qed.
Lemma r_leaves t d : usized t d -> returns (leaves t).
Proof. intros U. destruct (leaves_ok t d U) as (ls & -> & _). apply ret_ok. Qed.
Lemma r_creds t d : usized t d -> returns (supported_creds t).
Proof. intros U. unfold supported_creds. apply ret_bind; [eapply r_leaves, U|intros; apply ret_ok]. Qed.
Lemma r_keys t d : usized t d -> returns (keys t).
Proof. intros U. unfold keys. apply ret_bind; [eapply r_leaves, U|intros; apply ret_ok]. Qed.
Lemma r_find_leaf t d n : usized t d -> returns (find_leaf t n).
Proof.
  intros U. unfold find_leaf. apply ret_bind; [eapply r_leaves, U|intros ls _]. induction ls as [|[li l] ls IH]; cbn [find_leaf_in]; [apply ret_ok|].
  destruct (negb _); [exact IH|]. assert (A : returns (se_leaf_node n)) by calm. assert (B : returns (se_leaf_node l)) by calm.
  destruct A as [[a ->]|[e ->]], B as [[b ->]|[f ->]]; apply ret_ok.
Qed.
Lemma r_verify_leaves P cs gid creds now ls : steady P cs -> forall sks eks, returns (verify_leaves P cs gid creds now sks eks ls).
Proof.
  intros H. induction ls as [|[li l] ls IH]; intros sks eks; cbn [verify_leaves]; [apply ret_ok|]. apply ret_bind; [apply r_leaf_verify, H|intros; apply IH].
Qed.
Lemma r_climb d t li p : d <= 31 -> forall f k j, (N.to_nat (d - k) <= f)%nat -> k <= d -> li < 2 ^ d -> covers k j li ->
  returns (check_unmerged_climb f t (2 ^ d) p li (node_at k j)).
Proof.
  intros Hd. assert (P1 : 0 < 2 ^ d) by apply pow2_pos. assert (P2 : 2 ^ d <= 2147483648) by (change 2147483648 with (2 ^ 31); apply pow2_mono; exact Hd).
  pose proof (depth_pow2 d) as DP. induction f as [|f IH]; intros k j Hf Hk Hli C; cbn [check_unmerged_climb].
  - assert (k = d) by lia. subst k. assert (j = 0) as -> by (apply covers_div in C; rewrite <- C; apply N.div_small, Hli).
    rewrite <- DP at 2. rewrite parent_root by assumption. apply ret_err.
  - destruct (N.eq_dec k d) as [->|Ne].
    { assert (j = 0) as -> by (apply covers_div in C; rewrite <- C; apply N.div_small, Hli). rewrite <- DP at 2. rewrite parent_root by assumption. apply ret_err. }
    rewrite parent_in by (assumption || (rewrite DP; lia)). cbn [bind]. unfold step_up. pose proof (covers_step k j li C) as C'.
    destruct (_ =? p); [apply ret_ok|]. apply ret_bind; [calm|intros _ _]. apply IH; [lia|lia|exact Hli|exact C'].
Qed.
Lemma r_check_unmerged d t p l : d <= 31 -> (forall u, In u l -> u < 2 ^ d) -> returns (check_unmerged t (2 ^ d) p l).
Proof.
  intros Hd. induction l as [|u l IH]; intros B; cbn [check_unmerged]; [apply ret_ok|]. pose proof (B u (or_introl eq_refl)) as Bu.
  assert (2 ^ d <= 2 ^ 31) by (apply pow2_mono; exact Hd). change (2 ^ 31) with 2147483648 in *. unfold node_index, mul32, u32_max. destruct (N.leb_spec (2 * u) 4294967295); [|lia]. cbn [bind].
  apply ret_bind; [|intros; apply IH; intros; apply B; right; assumption]. rewrite <- node_at_leaf. apply r_climb; [exact Hd|lia|lia|exact Bu|]. apply covers_div. change (2 ^ 0) with 1. apply N.div_1_r.
Qed.
Lemma r_check_parents t d : d <= 31 -> forall l i eks, (forall p u, In (Some (Parent p)) l -> In u (pn_unmerged p) -> u < 2 ^ d) -> returns (check_parents t (2 ^ d) i eks l).
Proof.
  intros Hd. induction l as [|[[lf|p]|] l IH]; intros i eks B; cbn [check_parents]; [apply ret_ok|apply IH; intros; eapply B; [right; eassumption|assumption]| |apply IH; intros; eapply B; [right; eassumption|assumption]].
  apply ret_bind; [apply r_check_unmerged; [exact Hd|intros u; apply B; left; reflexivity]|intros _ _]. destruct (mem _ _ _); [apply ret_err|].
  apply IH. intros; eapply B; [right; eassumption|assumption].
Qed.
Lemma in_tget (t : tree) nd : In (Some nd) t -> exists x, tget t x = Some nd.
Proof.
  intros I. apply In_nth with (d := None) in I as (n & L & E). exists (N.of_nat n). unfold tget, tlen. destruct (N.ltb_spec (N.of_nat n) (N.of_nat (length t))); [|lia]. rewrite Nat2N.id. exact E.
Qed.

Section Tree.
Context (P : provider) (cs : cipher_suite) (t : tree) (d : N) (H : steady P cs) (S : tsized t d) (L : tlen t < 4294967296)
  (B : forall x p u, tget t x = Some (Parent p) -> In u (pn_unmerged p) -> u < 2 ^ d).
Let U : usized t d := small_usized t d S L.
Lemma c79_small : small_unmerged t.
Proof.
  intros x p u E I. pose proof (B x p u E I). assert (2 ^ d <= 2 ^ 31) by (apply pow2_mono, (usized_31 t d U)). change (2 ^ 31) with 2147483648 in *. lia.
Qed.
Lemma r_integrity ctx now : gc_suite ctx = cs -> returns (verify_integrity P t ctx now).
Proof.
  intros E. unfold verify_integrity. rewrite E. apply ret_bind; [eapply r_root_hash; [exact H|exact U]|intros h _]. destruct (negb _); [apply ret_err|].
  apply ret_bind; [apply r_verify_hashes; [exact H|exact c79_small|lia]|intros b _]. destruct (negb b); [apply ret_err|].
  apply ret_bind; [eapply r_creds, U|intros creds _]. apply ret_bind; [eapply r_leaves, U|intros ls _].
  apply ret_bind; [apply r_verify_leaves, H|intros [x eks] _]. rewrite (usized_leaves t d U). apply r_check_parents; [exact (usized_31 t d U)|].
  intros p u I. apply in_tget in I as [y Ey]. eapply B; exact Ey.
Qed.
Lemma r_resolve x : in_tree d x -> returns (resolve t x).
Proof.
  intros I. destruct (tm_onto d x I) as (k & j & -> & Lk & _). pose proof (usized_31 t d U). rewrite resolve_ok; [apply ret_ok|exact c79_small|lia].
Qed.
Lemma r_filtered x : in_tree d x -> returns (filtered_direct_path t x).
Proof. intros I. pose proof (filtered_spec t d x c79_small U I) as F. destruct F as (p & co & rs & _ & _ & _ & ->). apply ret_ok. Qed.
Lemma r_sph D sn : forall rpath t0 prev, (forall x, In x rpath -> exists k j, x = node_at (k + 1) j /\ k < 31) -> 
  returns (snd (set_parent_hashes P cs D sn t0 prev rpath)).
Proof.
  induction rpath as [|x rpath IH]; intros t0 prev W; cbn [set_parent_hashes]; [apply ret_ok|].
  assert (W' : forall y, In y rpath -> exists k j, y = node_at (k + 1) j /\ k < 31) by (intros y I; apply W; right; exact I).
  destruct (tget t0 x) as [[l|p]|]; [apply IH, W'| |apply IH, W']. destruct (W x (or_introl eq_refl)) as (k & j & -> & Lk). rewrite children_node by exact Lk.
  assert (T : returns (tree_hash P cs t0 (copath_child D sn (node_at k (2 * j)) (node_at k (2 * j + 1))) [])) by (unfold copath_child; destruct (_ || _); apply r_tree_hash; (exact H || lia)).
  destruct T as [[th ->]|[e ->]]; [|apply ret_err].
  match goal with |- context [parent_hash P cs ?q th] => destruct (r_parent_hash P cs q th H) as [[h ->]|[e ->]] end; [apply IH, W'|apply ret_err].
Qed.
Lemma r_merge i u : i < 2 ^ d -> returns (snd (merge_update_path P cs t i u)).
Proof.
  intros Hi. rewrite (mg_eq P cs t d i u c79_small U Hi). destruct (negb _); [apply ret_err|].
  match goal with |- context [set_parent_hashes P cs ?D ?sn ?t0 ?pr ?rp] => pose proof (r_sph D sn rp t0 pr) as R; destruct (set_parent_hashes P cs D sn t0 pr rp) as [t3 prev] eqn:E end.
  cbn [snd] in R. destruct R as [[a ->]|[e ->]]; [| |apply ret_err].
  - intros x I. rewrite <- in_rev in I. apply fpath_in in I as (e & Le & -> & _). pose proof (usized_31 t d U). exists e, (i / 2 ^ (e + 1)). split; [f_equal; lia|lia].
  - cbn [tbind]. repeat match goal with |- context [match ?m with _ => _ end] => destruct m end; first [apply ret_err|apply ret_ok].
Qed.
End Tree.

Lemma c79_tree P cs t d : steady P cs -> tsized t d -> tlen t < 4294967296 ->
  (forall x p u, tget t x = Some (Parent p) -> In u (pn_unmerged p) -> u < 2 ^ d) ->
  returns (root_tree_hash P cs t) /\ returns (verify_parent_hashes P cs t) /\
  (forall ctx now, gc_suite ctx = cs -> returns (verify_integrity P t ctx now)) /\
  returns (supported_creds t) /\ returns (keys t) /\ (forall l, returns (find_leaf t l)) /\
  (forall x, in_tree d x -> returns (resolve t x) /\ returns (filtered_direct_path t x)) /\
  (forall i, i < 2 ^ d -> (forall l, returns (tree_update t i l)) /\ returns (tree_remove t i) /\ (forall u, returns (snd (merge_update_path P cs t i u)))) /\
  (forall l, full_size t d -> tlen t < 4294967295 -> returns (tree_add t l)).
Proof.
  intros H S L B. pose proof (small_usized t d S L) as U. repeat match goal with |- _ /\ _ => split end.
  - eapply r_root_hash; eassumption.
  - apply r_verify_hashes; [exact H|exact (c79_small t d S L B)|lia].
  - intros ctx now. eapply r_integrity; eassumption.
  - eapply r_creds, U.
  - eapply r_keys, U.
  - intros l. eapply r_find_leaf, U.
  - intros x I. split; [eapply r_resolve|eapply r_filtered]; eassumption.
  - intros i Hi. split; [|split].
    + intros l. destruct (c17 t d i l S L Hi) as (t' & -> & _). apply ret_ok.
    + destruct (c18 t d i S L Hi) as (t' & -> & _). apply ret_ok.
    + intros u. eapply r_merge; eassumption.
  - intros l F L'. destruct (c15 t d l F) as (t' & d' & i & -> & _); [|apply ret_ok].
    red in F. rewrite F in L'. destruct (N.le_gt_cases d 30) as [Q|Q]; [exact Q|]. assert (2 ^ 32 <= 2 ^ (d + 1)) by (apply pow2_mono; lia). change (2 ^ 32) with 4294967296 in *. lia.
Qed.

Lemma c79_schemes p s key msg : 
  let bad := (s = ECDSA_SECP256R1_SHA256 /\ length key <> 32%nat) \/ (s = ECDSA_SECP384R1_SHA384 /\ length key <> 48%nat) in
  (bad -> rust_sign p s key msg = Panic /\ ring_sign p s key msg = Panic) /\ (~ bad -> returns (rust_sign p s key msg) /\ returns (ring_sign p s key msg)).
Proof.
  cbn zeta. unfold rust_sign, ring_sign. destruct s; cbv iota zeta; (split; [intros [[E N]|[E N]]; try discriminate E|intros NB]).
  all: try (destruct (Nat.eqb_spec (length key) 32); [congruence|split; reflexivity]).
  all: try (destruct (Nat.eqb_spec (length key) 48); [congruence|split; reflexivity]).
  all: try (split; calm).
  all: match goal with E : (_ =? _)%nat = false |- _ => apply Nat.eqb_neq in E; exfalso; apply NB; auto end.
Qed.
Lemma good_below t d : good t d -> forall x p u, tget t x = Some (Parent p) -> In u (pn_unmerged p) -> u < 2 ^ d.
Proof.
  intros G x p u E I. destruct (node_decomp x) as (k & j & ->). destruct (uo_below t (g_unmerged t d G) k j p u E I) as [C _]. eapply covers_lt_tree; [eapply g_in; eassumption|exact C].
Qed.
Lemma c79_verify p s key msg sig : steady_prims p -> returns (bundled_verify p s key msg sig).
Proof. intros S. destruct s; cbn [bundled_verify]; try apply ret_err; apply (sp_verify p S). Qed.
