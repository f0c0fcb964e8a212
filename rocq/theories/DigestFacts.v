(** Proofs about SpecDigest.v. *)
From Verif Require Import TreeHash TreeFacts Verified LayoutFacts SpecRatchet SpecSecrets SpecMessages KeyPackage SpecDigest SpecLayout SecretFacts MessageFacts Examples ExProvider KeyFacts.
From Coq Require Import ZifyBool ZifyNat ZifyN.
Local Open Scope N_scope.
Local Open Scope list_scope.

Lemma says_leaf_input i l : says (leaf_hash_input i l) (uint8 1 ++ uint32 i ++ optionalT rfc_leaf_node l).
Proof. unfold leaf_hash_input. apply says_seq; [apply says_u8|]. apply says_seq; [apply says_u32|]. apply says_option. exact l_leaf_node. Qed.
Lemma says_parent_input p lh rh : says (parent_node_hash_input p lh rh) (uint8 2 ++ optionalT rfc_parent_node p ++ opaqueV lh ++ opaqueV rh).
Proof. unfold parent_node_hash_input. apply says_seq; [apply says_u8|]. apply says_seq; [apply says_option; exact l_parent|]. apply says_seq; apply says_opaque. Qed.

Lemma mem_in u l : mem N.eqb u l = if in_dec N.eq_dec u l then true else false.
Proof.
  unfold mem. destruct (in_dec N.eq_dec u l) as [I|I].
  - apply existsb_exists. exists u. split; [exact I|apply N.eqb_refl].
  - destruct (existsb _ l) eqn:E; [|reflexivity]. apply existsb_exists in E as (y & Y & E). apply N.eqb_eq in E. subst. contradiction.
Qed.
Lemma in_double {A} j out (a b : A) : (if in_dec N.eq_dec (2 * j) (map (fun u => 2 * u) out) then a else b) = if in_dec N.eq_dec j out then a else b.
Proof.
  destruct (in_dec N.eq_dec (2 * j) _) as [I|I]; destruct (in_dec N.eq_dec j out) as [J|J]; try reflexivity; exfalso.
  - apply in_map_iff in I as (u & E & I). assert (u = j) by lia. subst. contradiction.
  - apply I. apply in_map_iff. exists j. auto.
Qed.
Lemma hashed_leaf_of t j out l : hashed_leaf (tget t (2 * j)) (mem N.eqb j out) = Ok l -> l = leaf_of (without t out (2 * j)).
Proof.
  unfold hashed_leaf, without. rewrite mem_in.
  destruct (tget t (2 * j)) as [[lf|p]|]; try rewrite in_double; destruct (in_dec N.eq_dec j out); intros E; try discriminate; injection E as <-; reflexivity.
Qed.
Lemma filter_all {A} (f : A -> bool) l : (forall x, In x l -> f x = true) -> filter f l = l.
Proof. induction l as [|x l IH]; intros H; cbn; [reflexivity|]. rewrite (H x) by (left; reflexivity). f_equal. apply IH. intros y Y. apply H. right. exact Y. Qed.
Lemma hashed_parent_of n t x out p : n = tget t x -> hashed_parent n out = Ok p -> p = parent_of (without t out x).
Proof.
  intros ->. unfold hashed_parent, without. destruct (tget t x) as [[lf|q]|]; intros E; try discriminate; injection E as <-; [|reflexivity].
  cbn [parent_of]. f_equal. destruct q as [key ph um]. cbn [pn_unmerged pn_encryption_key pn_parent_hash].
  assert (F : filter (fun li => negb (mem N.eqb li out)) um = filter (fun u => if in_dec N.eq_dec u out then false else true) um).
  { apply filter_ext. intros u. rewrite mem_in. destruct (in_dec N.eq_dec u out); reflexivity. }
  destruct um as [|u um]; [reflexivity|]. destruct out as [|o out].
  - cbn [length Nat.eqb negb andb]. f_equal. symmetry. apply filter_all. reflexivity.
  - cbn [length Nat.eqb negb andb]. rewrite F. reflexivity.
Qed.

Lemma c106_tree P cs h t out : p_hash P cs = Ok h -> forall k j b, (k <= 31)%nat -> tree_hash P cs t (node_at (N.of_nat k) j) out = Ok b ->
  b = rfc_tree_hash (h_digest h) (without t out) k j.
Proof.
  intros Hh. induction k as [|k IH]; intros j b L E.
  - apply leaf_hash_ok in E as (l & x & H & E1 & E2 & E3 & ->). rewrite Hh in E3. apply Ok_inj in E3. subst H.
    cbn [rfc_tree_hash]. f_equal. apply says_leaf_input in E2. subst x. change (N.of_nat 0) with 0. rewrite node_at_leaf. rewrite <- (hashed_leaf_of _ _ _ _ E1). reflexivity.
  - replace (N.of_nat (S k)) with (N.of_nat k + 1) in E by lia. apply parent_hash_ok in E as (lh & rh & p & x & H & E1 & E2 & E3 & E4 & E5 & ->); [|lia].
    rewrite Hh in E5. apply Ok_inj in E5. subst H. cbn [rfc_tree_hash]. f_equal. apply says_parent_input in E4. subst x.
    rewrite <- (IH (2 * j) lh), <- (IH (2 * j + 1) rh) by (assumption || lia).
    replace (N.of_nat (S k)) with (N.of_nat k + 1) by lia. rewrite <- (hashed_parent_of _ t (node_at (N.of_nat k + 1) j) out p eq_refl E3). reflexivity.
Qed.
Lemma without_nil t x : without t [] x = tget t x.
Proof.
  unfold without. destruct (tget t x) as [[l|p]|]; cbn; [reflexivity| |reflexivity]. rewrite filter_all by reflexivity. destruct p. reflexivity.
Qed.
Lemma rfc_tree_ext D f g : (forall x, f x = g x) -> forall k j, rfc_tree_hash D f k j = rfc_tree_hash D g k j.
Proof. intros E. induction k as [|k IH]; intros j; cbn [rfc_tree_hash]; rewrite E; [reflexivity|]. rewrite !IH. reflexivity. Qed.
Lemma c106_root P cs h t d b : p_hash P cs = Ok h -> tsized t d -> tlen t < 4294967296 -> root_tree_hash P cs t = Ok b ->
  b = rfc_tree_hash (h_digest h) (tget t) (N.to_nat d) 0.
Proof.
  intros Hh S L E. pose proof (small_usized t d S L) as U. rewrite (root_hash_node P cs t d U) in E. pose proof (usized_31 t d U) as Q.
  rewrite <- (N2Nat.id d) in E at 1. apply (c106_tree P cs h t [] Hh) in E; [|lia]. rewrite E. apply rfc_tree_ext. apply without_nil.
Qed.

(** ** When there is a hash *)
Lemma opaque_fits b : fits30 b -> exists x, se_opaque b = Ok x.
Proof. intros F. rewrite (se_opaque_vec b F). eauto. Qed.
Lemma seqw_made x y a b : x = Ok a -> y = Ok b -> x +++ y = Ok (a ++ b).
Proof. intros -> ->. reflexivity. Qed.
Lemma option_made {A} (g : A -> res bytes) (o : option A) : match o with None => True | Some a => exists b, g a = Ok b end -> exists b, se_option g o = Ok b.
Proof. destruct o as [a|]; intros E; [destruct E as (b & E); eexists; apply seqw_made; [reflexivity|exact E]|eexists; reflexivity]. Qed.
Lemma leaf_input_made i l : match l with None => True | Some l => exists b, se_leaf_node l = Ok b end -> exists b, leaf_hash_input i l = Ok b.
Proof.
  unfold leaf_hash_input. intros E. destruct (option_made se_leaf_node l E) as (b & B). eexists. apply seqw_made; [reflexivity|]. apply seqw_made; [reflexivity|exact B].
Qed.
Lemma parent_input_made p lh rh : match p with None => True | Some p => exists b, se_parent_node p = Ok b end -> fits30 lh -> fits30 rh ->
  exists b, parent_node_hash_input p lh rh = Ok b.
Proof.
  unfold parent_node_hash_input. intros E L R. apply opaque_fits in L as (x & X). apply opaque_fits in R as (y & Y). destruct (option_made se_parent_node p E) as (b & B).
  eexists. apply seqw_made; [reflexivity|]. apply seqw_made; [exact B|]. apply seqw_made; [exact X|exact Y].
Qed.
Lemma leaf_made t out j : hashable (without t out) 0 j -> exists l, hashed_leaf (tget t (2 * j)) (mem N.eqb j out) = Ok l /\
  match l with None => True | Some l => exists b, se_leaf_node l = Ok b end.
Proof.
  intros E. specialize (E 0 j ltac:(lia) ltac:(rewrite N.sub_0_r, N.pow_0_r, N.div_1_r; reflexivity)). rewrite node_at_leaf in E. unfold without in E. unfold hashed_leaf. rewrite mem_in.
  destruct (tget t (2 * j)) as [[l|p]|].
  - rewrite in_double in E. destruct (in_dec N.eq_dec j out); eexists; (split; [reflexivity|]); [exact I|]. exact (proj2 E).
  - destruct E as [E _]. lia.
  - eexists. split; [reflexivity|]. exact I.
Qed.
Lemma parent_made t out k j : hashable (without t out) (k + 1) j -> exists p, hashed_parent (tget t (node_at (k + 1) j)) out = Ok p /\
  match p with None => True | Some p => exists b, se_parent_node p = Ok b end.
Proof.
  intros E. specialize (E (k + 1) j ltac:(lia) ltac:(rewrite N.sub_diag, N.pow_0_r, N.div_1_r; reflexivity)).
  destruct (tget t (node_at (k + 1) j)) as [[l|p]|] eqn:G.
  - exfalso. unfold without in E. rewrite G in E. destruct (in_dec N.eq_dec (node_at (k + 1) j) _) as [I|I].
    + apply in_map_iff in I as (u & Q & _). rewrite <- (node_at_leaf u) in Q. apply node_at_inj in Q as [Q _]. lia.
    + destruct E as [E _]. lia.
  - destruct (hashed_parent (Some (Parent p)) out) as [q|e| |] eqn:Q; [|unfold hashed_parent in Q; discriminate..].
    exists q. split; [reflexivity|]. apply (hashed_parent_of (Some (Parent p)) t (node_at (k + 1) j) out q (eq_sym G)) in Q. rewrite Q. unfold without in *. rewrite G in *. cbn [parent_of]. exact (proj2 E).
  - exists None. split; [reflexivity|]. exact I.
Qed.
Lemma hashable_left t k j : hashable t (k + 1) j -> hashable t k (2 * j).
Proof.
  intros E k' j' L Q. apply E; [lia|]. replace (k + 1 - k') with (k - k' + 1) by lia. rewrite pow2_S, (N.mul_comm 2), <- N.div_div by (try apply N.pow_nonzero; lia).
  rewrite Q, N.mul_comm, N.div_mul by lia. reflexivity.
Qed.
Lemma hashable_right t k j : hashable t (k + 1) j -> hashable t k (2 * j + 1).
Proof.
  intros E k' j' L Q. apply E; [lia|]. replace (k + 1 - k') with (k - k' + 1) by lia. rewrite pow2_S, (N.mul_comm 2), <- N.div_div by (try apply N.pow_nonzero; lia).
  rewrite Q. symmetry. apply (N.div_unique _ 2 j 1); lia.
Qed.
Lemma hash_made_f P cs h t out : p_hash P cs = Ok h -> (forall b, fits30 (h_digest h b)) -> forall k f j, (k <= 31)%nat -> (k <= f)%nat ->
  hashable (without t out) (N.of_nat k) j -> exists b, tree_hash_f f P cs t (node_at (N.of_nat k) j) out = Ok b /\ fits30 b.
Proof.
  intros Hh F. induction k as [|k IH]; intros f j L Lf E.
  - apply leaf_made in E as (l & E1 & E2). apply (leaf_input_made j) in E2 as (b & E2).
    exists (h_digest h b). split; [|apply F]. change (N.of_nat 0) with 0. destruct f; cbn [tree_hash_f]; rewrite leaf_index_node; change (0 =? 0) with true; cbv iota; rewrite node_at_leaf, E1; cbn [bind]; rewrite E2; cbn [bind]; rewrite Hh; reflexivity.
  - destruct f as [|f]; [lia|]. replace (N.of_nat (S k)) with (N.of_nat k + 1) in * by lia.
    destruct (IH f (2 * j) ltac:(lia) ltac:(lia) (hashable_left _ _ _ E)) as (lh & EL & FL). destruct (IH f (2 * j + 1) ltac:(lia) ltac:(lia) (hashable_right _ _ _ E)) as (rh & ER & FR).
    apply parent_made in E as (p & E1 & E2). pose proof (parent_input_made p lh rh E2 FL FR) as (b & E3).
    exists (h_digest h b). split; [|apply F]. cbn [tree_hash_f]. rewrite leaf_index_node. destruct (N.eqb_spec (N.of_nat k + 1) 0); [lia|]. rewrite children_node by lia. cbn [bind].
    rewrite EL. cbn [bind]. rewrite ER. cbn [bind]. rewrite E1. cbn [bind]. rewrite E3. cbn [bind]. rewrite Hh. reflexivity.
Qed.
Local Opaque tree_hash_f.
Lemma c106_exact P cs h t out k j : p_hash P cs = Ok h -> (forall b, fits30 (h_digest h b)) -> k <= 31 -> hashable (without t out) k j ->
  tree_hash P cs t (node_at k j) out = Ok (rfc_tree_hash (h_digest h) (without t out) (N.to_nat k) j).
Proof.
  intros Hh F L E. assert (E' : hashable (without t out) (N.of_nat (N.to_nat k)) j) by (rewrite N2Nat.id; exact E). assert (L' : (N.to_nat k <= 31)%nat) by lia. assert (L2 : (N.to_nat k <= 33)%nat) by lia.
  destruct (hash_made_f P cs h t out Hh F (N.to_nat k) 33 j L' L2 E') as (b & B & _).
  pose proof (c106_tree P cs h t out Hh (N.to_nat k) j b L' B) as Q. rewrite N2Nat.id in B. unfold tree_hash. rewrite B, Q. reflexivity.
Qed.

(** ** The other hashes *)
Lemma c106_parent P cs h p s b : p_hash P cs = Ok h -> parent_hash P cs p s = Ok b -> b = rfc_parent_hash (h_digest h) p s.
Proof.
  intros Hh E. unfold parent_hash in E. apply bind_ok in E as (x & X & E). rewrite Hh in E. cbn [bind] in E. apply Ok_inj in E. subst b. unfold rfc_parent_hash. f_equal.
  revert x X. change (says (parent_hash_input (pn_encryption_key p) (pn_parent_hash p) s) (opaqueV (pn_encryption_key p) ++ opaqueV (pn_parent_hash p) ++ opaqueV s)).
  unfold parent_hash_input. apply says_seq; [apply says_opaque|]. apply says_seq; apply says_opaque.
Qed.
Lemma c106_confirmed P cs h c i b : p_hash P cs = Ok h -> confirmed_hash P cs c i = Ok b -> b = rfc_confirmed_hash (h_digest h) i c.
Proof.
  intros Hh E. unfold confirmed_hash in E. apply bind_ok in E as (x & X & E). rewrite Hh in E. cbn [bind] in E. apply Ok_inj in E. subst b. unfold rfc_confirmed_hash.
  apply l_confirmed in X. subst x. reflexivity.
Qed.
Lemma c106_interim P cs h c tag b : p_hash P cs = Ok h -> next_interim_hash P cs c tag = Ok b -> b = rfc_interim_hash (h_digest h) c tag.
Proof.
  intros Hh E. unfold next_interim_hash in E. apply bind_ok in E as (x & X & E). rewrite Hh in E. cbn [bind] in E. apply Ok_inj in E. subst b. unfold rfc_interim_hash.
  apply says_opaque in X. subst x. reflexivity.
Qed.
Lemma c106_transcript P cs h : p_hash P cs = Ok h -> forall l i b, transcript P cs i l = Ok b -> b = rfc_transcript (h_digest h) i l.
Proof.
  intros Hh. induction l as [|[c tag] l IH]; intros i b E; cbn [transcript rfc_transcript] in *; [apply Ok_inj in E; auto|].
  apply bind_ok in E as (x & X & E). apply bind_ok in E as (y & Y & E). apply (c106_confirmed _ _ _ _ _ _ Hh) in X. apply (c106_interim _ _ _ _ _ _ Hh) in Y. subst. apply IH. exact E.
Qed.
Lemma c106_ref P cs h l v b : p_hash P cs = Ok h -> ref_hash P cs l v = Ok b -> b = rfc_reference (h_digest h) l v.
Proof.
  intros Hh E. unfold ref_hash in E. apply bind_ok in E as (x & X & E). rewrite Hh in E. cbn [bind] in E. apply Ok_inj in E. subst b. unfold rfc_reference. f_equal.
  revert x X. change (says (se_opaque l +++ se_opaque v) (opaqueV l ++ opaqueV v)). apply says_seq; apply says_opaque.
Qed.
Lemma c106_package P h kp b : p_hash P (kp_suite (kp_payload kp)) = Ok h -> generate_ref P kp = Ok b ->
  b = rfc_reference (h_digest h) (str "MLS 1.0 KeyPackage Reference") (rfc_key_package kp).
Proof.
  intros Hh E. unfold generate_ref in E. apply bind_ok in E as (raw & R & E). apply l_kp in R. subst raw. exact (c106_ref _ _ _ _ _ _ Hh E).
Qed.

(** ** Chains of parent hashes *)
Lemma level_bound k j : node_at k j < 4294967296 -> k <= 32.
Proof.
  intros H. destruct (N.le_gt_cases k 32) as [|L]; [assumption|]. exfalso. unfold node_at in H. assert (2 ^ 33 <= 2 ^ k) by (apply pow2_mono; lia). change (2 ^ 33) with 8589934592 in *. nia.
Qed.
Lemma chain_rfc P cs h t i : p_hash P cs = Ok h -> tlen t < 4294967296 -> forall path ph, hash_chain P cs t i ph path -> rfc_chain (h_digest h) t i ph path.
Proof.
  intros Hh L. induction path as [|x path IH]; intros ph C; cbn [hash_chain rfc_chain] in *; [exact C|].
  destruct C as (p & s & th & G & (k & j & X & S & N) & T & E & C). exists p, k, j. split; [exact G|]. split; [exact X|]. split; [exact N|]. split; [|exact (IH _ C)].
  assert (B : x < tlen t) by (destruct (N.lt_ge_cases x (tlen t)) as [|Q]; [assumption|]; rewrite (tget_beyond _ _ Q) in G; discriminate). rewrite X in B. assert (K : k + 1 <= 32) by (eapply level_bound; eapply N.lt_trans; eassumption).
  apply (c106_parent _ _ _ _ _ _ Hh) in E. rewrite E. f_equal. subst s. rewrite <- (N2Nat.id k) in T. apply (c106_tree _ _ _ _ _ Hh) in T; [|lia]. rewrite T. apply rfc_tree_ext. apply without_nil.
Qed.
Lemma c106_merge P cs h t d i u t' : p_hash P cs = Ok h -> shaped t d -> merge_update_path P cs t i u = (t', Ok tt) ->
  exists fp ph, filtered_direct_path t (2 * i) = Ok fp /\ leaf_at t' i = Some (up_leaf u) /\ lp_source (ln_payload (up_leaf u)) = LSCommit ph /\ rfc_chain (h_digest h) t' i ph fp.
Proof.
  intros Hh S E. destruct (c26 P cs t d i u t' S E) as (fp & ph & A & B & C & D). exists fp, ph. split; [exact A|]. split; [exact B|]. split; [exact C|].
  apply (chain_rfc P cs h t' i Hh); [|exact D]. rewrite (proj2 (c19_length P cs t d (sh_size t d S) (sh_small t d S) (sh_unmerged t d S)) _ _ _ _ E). exact (sh_small t d S).
Qed.
Lemma c106_verified P t ctx now d h : tsized t d -> tlen t < 4294967296 -> (forall x nd, tget t x = Some nd -> in_tree d x) -> verify_integrity P t ctx now = Ok tt ->
  p_hash P (gc_suite ctx) = Ok h ->
  gc_tree_hash ctx = rfc_tree_hash (h_digest h) (tget t) (N.to_nat d) 0 /\
  forall k j p, tget t (node_at (k + 1) j) = Some (Parent p) ->
    let left := rfc_tree_hash (h_digest h) (without t (pn_unmerged p)) (N.to_nat k) (2 * j) in
    let right := rfc_tree_hash (h_digest h) (without t (pn_unmerged p)) (N.to_nat k) (2 * j + 1) in
    (linked t k (2 * j) (rfc_parent_hash (h_digest h) p right) /\ ~ linked t k (2 * j + 1) (rfc_parent_hash (h_digest h) p left)) \/
    (~ linked t k (2 * j) (rfc_parent_hash (h_digest h) p right) /\ linked t k (2 * j + 1) (rfc_parent_hash (h_digest h) p left)).
Proof.
  intros S L IN E Hh. apply (verify_integrity_iff P t ctx now d S L IN) in E. split; [exact (c106_root _ _ _ _ _ _ Hh S L (vf_hash _ _ _ _ _ E))|].
  intros k j p G. cbv zeta. destruct (vf_parent_hashes _ _ _ _ _ E k j p G) as (lh & rh & lph & rph & A & B & X & Y & Z).
  assert (K : k + 1 <= 32).
  { apply (level_bound (k + 1) j). destruct (N.lt_ge_cases (node_at (k + 1) j) (tlen t)) as [|Q]; [lia|]. rewrite (tget_beyond _ _ Q) in G. discriminate. }
  rewrite <- (N2Nat.id k) in A, B. apply (c106_tree _ _ _ _ _ Hh) in A; [|lia]. apply (c106_tree _ _ _ _ _ Hh) in B; [|lia].
  apply (c106_parent _ _ _ _ _ _ Hh) in X. apply (c106_parent _ _ _ _ _ _ Hh) in Y. rewrite <- A, <- B, <- X, <- Y. exact Z.
Qed.

(** ** Tags *)
Lemma c106_membership P cs h m k ctx m' : p_hash P cs = Ok h -> from_member m -> sign_membership_tag P cs m k ctx = Ok m' ->
  pm_tag m' = Some (h_mac h k (rfc_framed_content_tbs MLS10 WFPublicMessage (pm_content m) ctx ++ rfc_auth_data (kind (fc_content (pm_content m))) (pm_auth m))).
Proof.
  intros Hh (i & F) E. unfold sign_membership_tag in E. rewrite F in E. apply bind_ok in E as (raw & R & E). unfold sign_mac in E. rewrite Hh in E. cbn [bind] in E.
  apply Ok_inj in E. subst m'. cbn [pm_tag]. apply l_tbm in R. rewrite R. reflexivity.
Qed.
Lemma c106_tree_N P cs h t out k j b : p_hash P cs = Ok h -> k <= 31 -> tree_hash P cs t (node_at k j) out = Ok b ->
  b = rfc_tree_hash (h_digest h) (without t out) (N.to_nat k) j.
Proof. intros Hh L E. rewrite <- (N2Nat.id k) in E. apply (c106_tree P cs h t out Hh) in E; [exact E|lia]. Qed.

(** ** Examples *)
Definition made (r : res bytes) : bool := match r with Ok _ => true | _ => false end.
Lemma made_ok r : made r = true -> exists b, r = Ok b.
Proof. destruct r; try discriminate. eauto. Qed.
Definition hashable_at (n : option node) (k : N) : bool :=
  match n with None => true | Some (Leaf l) => (k =? 0) && made (se_leaf_node l) | Some (Parent p) => (0 <? k) && made (se_parent_node p) end.
Definition hashable_b (f : N -> option node) (k j : N) : bool :=
  forallb (fun k' => forallb (fun a => hashable_at (f (node_at k' (j * 2 ^ (k - k') + a))) k') (map N.of_nat (seq 0 (N.to_nat (2 ^ (k - k')))))) (map N.of_nat (seq 0 (S (N.to_nat k)))).
Lemma hashable_list f k j : hashable_b f k j = true -> hashable f k j.
Proof.
  intros F k' j' L E. unfold hashable_b in F. rewrite forallb_forall in F. specialize (F k'). assert (I : In k' (map N.of_nat (seq 0 (S (N.to_nat k))))).
  { apply in_map_iff. exists (N.to_nat k'). split; [lia|]. apply in_seq. lia. }
  specialize (F I). rewrite forallb_forall in F. pose proof (pow2_pos (k - k')) as Z. pose proof (N.div_mod j' (2 ^ (k - k')) ltac:(lia)) as D. pose proof (N.mod_lt j' (2 ^ (k - k')) ltac:(lia)) as M.
  specialize (F (j' mod 2 ^ (k - k'))). rewrite E in D. replace (j * 2 ^ (k - k') + j' mod 2 ^ (k - k')) with j' in F by lia.
  assert (J : In (j' mod 2 ^ (k - k')) (map N.of_nat (seq 0 (N.to_nat (2 ^ (k - k')))))). { apply in_map_iff. exists (N.to_nat (j' mod 2 ^ (k - k'))). split; [lia|]. apply in_seq. lia. }
  specialize (F J). unfold hashable_at in F. destruct (f (node_at k' j')) as [[l|p]|]; [| |exact Logic.I].
  - apply andb_true_iff in F as [A B]. split; [lia|]. apply made_ok, B.
  - apply andb_true_iff in F as [A B]. split; [lia|]. apply made_ok, B.
Qed.
Lemma c106_example : p_hash fixed Suite1 = Ok fixed_hash /\ (forall b, fits30 (h_digest fixed_hash b)) /\ hashable (without ex_tree [1]) 2 0 /\
  tree_hash toy Suite1 ex_tree (node_at 1 0) [1] = Ok (rfc_tree_hash (h_digest toy_hash) (without ex_tree [1]) 1 0) /\
  tree_hash toy Suite1 ex_tree (node_at 1 0) [1] <> tree_hash toy Suite1 ex_tree (node_at 1 0) [] /\
  without ex_tree [1] 1 = Some (Parent (MkParentNode (pn_encryption_key (ex_parent x31 [1])) (pn_parent_hash (ex_parent x31 [1])) [])) /\
  without ex_tree [1] 2 = None /\ without ex_tree [1] 0 = tget ex_tree 0.
Proof.
  split; [reflexivity|]. split; [intros b; unfold fits30; rewrite fixed_size; reflexivity|]. split.
  { apply hashable_list. vm_compute. reflexivity. }
  split; [vm_compute; reflexivity|]. split; [vm_compute; discriminate|]. split; [reflexivity|]. split; reflexivity.
Qed.
Lemma c106_example_hashes : good ex_two 1 /\ merge_update_path toy Suite1 ex_two 0 ex_path = (ex_merged, Ok tt) /\
  verify_integrity toy ex_verified (ex_context ex_verified) (fun _ => 5000%Z) = Ok tt /\
  (exists r, transcript toy Suite1 [] [(ex_confirmed 1, str "tag"); (ex_confirmed 2, str "other")] = Ok r) /\
  (exists r, generate_ref toy (ex_kp x41) = Ok r) /\ from_member ex_public /\ exists m, sign_membership_tag toy Suite1 ex_public (str "mk") ex_gc = Ok m.
Proof.
  split; [exact ex_two_good|]. split; [exact ex_merge|]. split; [exact (proj2 (proj2 ex_verified_ok))|]. split; [eexists; vm_compute; reflexivity|]. split; [eexists; vm_compute; reflexivity|].
  split; [eexists; reflexivity|]. eexists. vm_compute. reflexivity.
Qed.
