(** The errors of the checks give a true reason. *)
From Verif Require Export SpecReasons Verified KeyStoreFacts Merge.
From Coq Require Import ZifyBool ZifyNat ZifyN.
Local Open Scope N_scope.

Lemma check_extensions_err sup l e : check_extensions sup l = Err e ->
  exists x, In x l /\ e = ExtensionTypeUsedByLeafNodeNotSupportedByThatLeafNode (u16_of_extension_type (ext_type x)) /\ ~ In (ext_type x) sup.
Proof.
  induction l as [|x l IH]; cbn [check_extensions]; [discriminate|]. destruct (mem extension_type_eqb (ext_type x) sup) eqn:M.
  - intros E. destruct (IH E) as (y & I & H). exists y. split; [right; exact I|exact H].
  - intros E. injection E as <-. exists x. split; [left; reflexivity|]. split; [reflexivity|]. intros I. apply (mem_in _ extension_type_eqb_eq) in I. congruence.
Qed.
Lemma check_extensions_fate sup l : check_extensions sup l = Ok tt \/ exists e, check_extensions sup l = Err e.
Proof. apply check_extensions_ok_or. Qed.

Lemma is_ok_err {A} (r : res A) e : is_ok r = Err e -> False.
Proof. destruct r; discriminate. Qed.
Lemma leaf_sig_err P cs l ti e : leaf_verify_signature P cs l ti = Err e -> False.
Proof. unfold leaf_verify_signature. destruct (se_leaf_node_tbs _ _); try discriminate. apply is_ok_err. Qed.

Lemma leaf_reasons P l o e : leaf_verify P l o = Err e -> leaf_reason P l o e.
Proof.
  unfold leaf_verify. destruct (leaf_verify_signature _ _ _ _) as [[]|e0| |] eqn:S; cbn [bind negb]; [| |intros _; exfalso; eapply leaf_sig_err, S|discriminate|discriminate].
  2: { intros E. injection E as <-. cbn [leaf_reason]. intros H. apply leaf_verify_signature_iff in H. congruence. }
  destruct (mem credential_type_eqb _ _) eqn:C; cbn [negb].
  2: { intros E. injection E as <-. cbn [leaf_reason]. eexists. split; [reflexivity|]. split; [reflexivity|]. intros I. apply (mem_in _ credential_type_eqb_eq) in I. congruence. }
  match goal with |- (if ?c then _ else _) = _ -> _ => destruct c eqn:B end.
  { intros E. injection E as <-. cbn [leaf_reason]. destruct (lp_source (ln_payload l)) as [lt| |ph] eqn:L; try discriminate. exists lt. split; [reflexivity|].
    apply andb_prop in B as [B1 B2]. split; [lia|]. intros H. apply lifetime_iff in H. rewrite H in B2. discriminate. }
  destruct (check_extensions_fate (cap_extensions (lp_capabilities (ln_payload l))) (lp_extensions (ln_payload l))) as [X|[e0 X]]; rewrite X; cbn [bind].
  2: { intros E. injection E as <-. apply check_extensions_err in X as (x & I & -> & N). cbn [leaf_reason]. exists x. auto. }
  destruct (mem bytes_eqb (lp_signature_key _) _) eqn:M1; [intros E; injection E as <-; apply (mem_in _ bytes_eqb_eq), M1|].
  destruct (mem bytes_eqb (lp_encryption_key _) _) eqn:M2; [intros E; injection E as <-; apply (mem_in _ bytes_eqb_eq), M2|discriminate].
Qed.

Lemma package_reasons P kp ctx e : key_package_verify P kp ctx = Err e -> package_reason P kp ctx e.
Proof.
  unfold key_package_verify. destruct (version_eqb _ _) eqn:V; cbn [negb].
  2: { intros E. injection E as <-. cbn [package_reason]. intros H. apply version_eqb_eq in H. congruence. }
  destruct (suite_eqb _ _) eqn:S; cbn [negb].
  2: { intros E. injection E as <-. cbn [package_reason]. intros H. apply suite_eqb_eq in H. congruence. }
  destruct (lp_source _) as [lt| |ph] eqn:L; try (intros E; injection E as <-; cbn [package_reason]; intros [lt' H]; congruence).
  destruct (key_package_verify_signature P kp) as [[]|e0| |] eqn:K; cbn [is_ok bind negb]; try discriminate.
  - destruct (bytes_eqb _ _) eqn:B; [|discriminate]. intros E. injection E as <-. apply bytes_eqb_eq, B.
  - intros E. injection E as <-. cbn [package_reason]. intros H. apply package_signed_iff in H. congruence.
Qed.

(** ** Hashing *)

Lemma seqw_err x y e : x +++ y = Err e -> x = Err e \/ exists a, x = Ok a /\ y = Err e.
Proof. unfold seqw. destruct x as [a|e0| |]; cbn [bind]; try discriminate; [|auto]. destruct y; cbn [bind]; try discriminate; intros E; right; eauto. Qed.
Lemma bind_err {A B} (m : res A) (k : A -> res B) e : bind m k = Err e -> m = Err e \/ exists a, m = Ok a /\ k a = Err e.
Proof. destruct m as [a|e0| |]; cbn [bind]; try discriminate; intros E; [right; exists a; auto|left; congruence]. Qed.
Lemma sizing_err {A} (fits : A -> Prop) f a e : sizing fits f -> f a = Err e -> size_error e.
Proof. intros S E. destruct (S a) as [[_ [p H]]|[_ (e' & H & Z)]]; congruence. Qed.

Definition hash_fault (P : provider) (cs : cipher_suite) (t : tree) (e : error) : Prop :=
  p_hash P cs = Err e \/ (e = InvalidLeafNode /\ exists i p, tget t (2 * i) = Some (Parent p)) \/
  (e = InvalidParentNode /\ exists k j l, tget t (node_at (k + 1) j) = Some (Leaf l)) \/ (size_error e /\ too_long P cs t e).

Lemma tree_hash_digest P cs t f : forall k j h excl, (k <= 31)%nat -> (k <= f)%nat -> tree_hash_f f P cs t (node_at (N.of_nat k) j) excl = Ok h -> exists H b, p_hash P cs = Ok H /\ h = h_digest H b.
Proof.
  intros k j h excl _ _ E. destruct f; cbn [tree_hash_f] in E; apply bind_ok in E as (b & _ & E); apply bind_ok in E as (H & EH & E); injection E as <-; eauto.
Qed.
Lemma opaque_fault P cs t H b e : p_hash P cs = Ok H -> se_opaque (h_digest H b) = Err e -> hash_fault P cs t e.
Proof. intros EH E. right. right. right. split; [eapply (sizing_err _ _ _ _ sizing_opaque), E|]. right. right. eauto. Qed.

Lemma tree_hash_fault P cs t : forall k f j e, (k <= 31)%nat -> (k <= f)%nat -> tree_hash_f f P cs t (node_at (N.of_nat k) j) [] = Err e -> hash_fault P cs t e.
Proof.
  induction k as [|k IH]; intros f j e H L E.
  - assert (E' : bind (let* l := hashed_leaf (tget t (2 * j)) false in leaf_hash_input j l) (fun input => let* h := p_hash P cs in Ok (h_digest h input)) = Err e).
    { destruct f; cbn [tree_hash_f] in E; rewrite leaf_index_node in E; cbn [N.of_nat N.eqb] in E; rewrite node_at_leaf in E; exact E. }
    clear E. apply bind_err in E' as [E|(b & _ & E)]; [|left; apply bind_err in E as [E|(h & _ & E)]; [exact E|discriminate]].
    apply bind_err in E as [E|(l & Hl & E)].
    + right. left. unfold hashed_leaf in E. destruct (tget t (2 * j)) as [[lf|p]|] eqn:T; try discriminate. injection E as <-. eauto.
    + apply hashed_leaf_nil in Hl. unfold leaf_hash_input in E. apply seqw_err in E as [E|(a & _ & E)]; [discriminate|]. apply seqw_err in E as [E|(a' & _ & E)]; [discriminate|].
      destruct l as [lf|]; [|discriminate]. cbn [se_option] in E. apply seqw_err in E as [E|(a'' & _ & E)]; [discriminate|].
      right. right. right. split; [eapply (sizing_err _ _ _ _ sizing_leaf_node), E|]. left. eauto.
  - destruct f as [|f]; [lia|]. cbn [tree_hash_f] in E. rewrite leaf_index_node in E. destruct (N.eqb_spec (N.of_nat (S k)) 0); [lia|].
    replace (N.of_nat (S k)) with (N.of_nat k + 1) in E by lia. rewrite children_node in E by lia. cbn [bind] in E.
    apply bind_err in E as [E|(b & _ & E)]; [|left; apply bind_err in E as [E|(h & _ & E)]; [exact E|discriminate]].
    apply bind_err in E as [E|(lh & El & E)]; [eapply IH; [| |exact E]; lia|]. apply bind_err in E as [E|(rh & Er & E)]; [eapply IH; [| |exact E]; lia|].
    apply bind_err in E as [E|(p & Ep & E)].
    + right. right. left. unfold hashed_parent in E. destruct (tget t (node_at (N.of_nat k + 1) j)) as [[lf|q]|] eqn:T; try discriminate. injection E as <-. split; [reflexivity|]. eauto.
    + apply hashed_parent_nil in Ep. apply (tree_hash_digest P cs t f k) in El as (H1 & b1 & EH1 & ->); [|lia..]. apply (tree_hash_digest P cs t f k) in Er as (H2 & b2 & EH2 & ->); [|lia..].
      unfold parent_node_hash_input in E. apply seqw_err in E as [E|(a & _ & E)]; [discriminate|]. apply seqw_err in E as [E|(a' & _ & E)].
      * destruct p as [q|]; [|discriminate]. cbn [se_option] in E. apply seqw_err in E as [E|(a'' & _ & E)]; [discriminate|].
        right. right. right. split; [eapply (sizing_err _ _ _ _ sizing_parent_node), E|]. right. left. eauto.
      * apply seqw_err in E as [E|(a'' & _ & E)]; [exact (opaque_fault _ _ _ _ _ _ EH1 E)|exact (opaque_fault _ _ _ _ _ _ EH2 E)].
Qed.
Local Opaque tree_hash_f.
Lemma node_fault P cs t k j e : k <= 31 -> tree_hash P cs t (node_at k j) [] = Err e -> hash_fault P cs t e.
Proof.
  intros L E. assert (L1 : (N.to_nat k <= 31)%nat) by lia. assert (L2 : (N.to_nat k <= 33)%nat) by lia. refine (tree_hash_fault P cs t (N.to_nat k) 33 j e L1 L2 _). rewrite N2Nat.id. exact E.
Qed.
Lemma node_digest P cs t k j excl h : k <= 31 -> tree_hash P cs t (node_at k j) excl = Ok h -> exists H b, p_hash P cs = Ok H /\ h = h_digest H b.
Proof.
  intros L E. assert (L1 : (N.to_nat k <= 31)%nat) by lia. assert (L2 : (N.to_nat k <= 33)%nat) by lia. refine (tree_hash_digest P cs t 33 (N.to_nat k) j h excl L1 L2 _). rewrite N2Nat.id. exact E.
Qed.
Lemma root_fault P cs t d e : usized t d -> root_tree_hash P cs t = Err e -> hash_fault P cs t e.
Proof.
  intros U E. rewrite (root_hash_node P cs t d U) in E. exact (node_fault P cs t d 0 e (usized_31 t d U) E).
Qed.

(** ** Parent hashes *)

Lemma node_indices_val l r : node_indices l = Ok r -> r = map (fun u => 2 * u) l.
Proof.
  revert r. induction l as [|u l IH]; intros r E; cbn in E; [injection E as <-; reflexivity|]. apply bind_ok in E as (x & Ex & E). apply bind_ok in E as (r' & Er & E). injection E as <-.
  apply node_index_val in Ex as [-> _]. cbn [map]. f_equal. apply IH, Er.
Qed.
Lemma resolve_f_val t : forall k f j r, (k <= 31)%nat -> resolve_f f t (node_at (N.of_nat k) j) = Ok r -> r = resolution t k j.
Proof.
  induction k as [|k IH]; intros f j r Hk E.
  - destruct f; cbn [resolve_f resolution] in *; destruct (tget t (node_at (N.of_nat 0) j)) as [[l|p]|] eqn:G;
      try (injection E as <-; reflexivity); try (apply bind_ok in E as (us & Eu & E); injection E as <-; apply node_indices_val in Eu; subst us; reflexivity);
      change (N.of_nat 0) with 0 in E; rewrite node_at_leaf, Verified.children_leaf in E; cbn in E; injection E as <-; reflexivity.
  - destruct f as [|f]; cbn [resolve_f resolution] in *; (destruct (tget t (node_at (N.of_nat (S k)) j)) as [[l|p]|] eqn:G;
      [injection E as <-; reflexivity|apply bind_ok in E as (us & Eu & E); injection E as <-; apply node_indices_val in Eu; subst us; reflexivity|]);
    replace (N.of_nat (S k)) with (N.of_nat k + 1) in E by lia; rewrite children_node in E by lia; cbn [bind] in E; [discriminate|].
    apply bind_ok in E as (rl & El & E). apply bind_ok in E as (rr & Er & E). injection E as <-. apply IH in El; [|lia]. apply IH in Er; [|lia]. subst. reflexivity.
Qed.

Definition noerr {A} (r : res A) : Prop := forall e, r <> Err e.
Lemma noerr_bind {A B} (m : res A) (k : A -> res B) : noerr m -> (forall a, noerr (k a)) -> noerr (bind m k).
Proof. intros H K e E. apply bind_err in E as [E|(a & _ & E)]; [exact (H e E)|exact (K a e E)]. Qed.
Lemma noerr_if {A} (b : bool) (x y : res A) : noerr x -> noerr y -> noerr (if b then x else y).
Proof. destruct b; auto. Qed.
Lemma noerr_ok {A} (a : A) : noerr (Ok a). Proof. intros e. discriminate. Qed.
Lemma noerr_panic {A} : noerr (@Panic A). Proof. intros e. discriminate. Qed.
Lemma noerr_hang {A} : noerr (@Hang A). Proof. intros e. discriminate. Qed.
Ltac ne := repeat first [apply noerr_ok|apply noerr_panic|apply noerr_hang|apply noerr_if|apply noerr_bind; [|intros ?]|assumption].
Lemma noerr_level_loop f : forall x l, noerr (level_loop f x l).
Proof. induction f as [|f IH]; intros x l; cbn [level_loop]; unfold shr32, add32; ne. apply IH. Qed.
Local Opaque level_loop.
Lemma noerr_level x : noerr (level x).
Proof. unfold level. ne. apply noerr_level_loop. Qed.
Local Opaque level.
Lemma noerr_children x : noerr (children x).
Proof. unfold children. apply noerr_bind; [unfold left, sub32, shl32; ne; apply noerr_level|]. intros [l|]; [|ne]. apply noerr_bind; [unfold right, sub32, shl32; ne; apply noerr_level|]. intros r. ne. Qed.
Lemma noerr_root n : noerr (root n).
Proof. unfold root, width, ilog2, shl32, sub32, mul32, add32. ne. Qed.
Lemma noerr_parent n x : noerr (parent n x).
Proof. unfold parent, add32, shr32, shl32. ne; first [apply noerr_root|apply noerr_level]. Qed.
Lemma noerr_node_index u : noerr (node_index u).
Proof. unfold node_index, mul32. ne. Qed.
Lemma noerr_node_indices l : noerr (node_indices l).
Proof. induction l as [|u l IH]; cbn [node_indices]; ne. Qed.
Local Opaque children node_indices parent root node_index.
Lemma noerr_resolve f : forall t x, noerr (resolve_f f t x).
Proof.
  induction f as [|f IH]; intros t x; cbn [resolve_f]; (destruct (tget t x) as [[l|p]|]; ne; try apply noerr_node_indices; try apply noerr_children);
  match goal with |- noerr (match ?a with _ => _ end) => destruct a as [[l r]|] end; ne; apply IH.
Qed.

Lemma noerr_or_false {A} (m : res A) k : (forall a, noerr (k a)) -> noerr (ok_or_false m k).
Proof. intros H. destruct m; cbn [ok_or_false]; ne. apply H. Qed.
Local Opaque resolve_f tree_hash parent_hash.
Lemma noerr_check_parent_hash P cs t x nd : noerr (check_parent_hash P cs t x nd).
Proof.
  unfold check_parent_hash. destruct nd as [nd|]; ne; [apply noerr_children|]. destruct a as [[l r]|]; ne. destruct nd; ne.
  repeat (apply noerr_or_false; intros ?). ne; apply noerr_resolve.
Qed.
Lemma noerr_verify_hashes P cs t : forall l i, noerr (verify_parent_hashes_from P cs t i l).
Proof. induction l as [|nd l IH]; intros i; cbn [verify_parent_hashes_from]; ne; [apply noerr_check_parent_hash|apply IH]. Qed.

Lemma check_parent_hash_false P cs t k j p : k < 31 -> check_parent_hash P cs t (node_at (k + 1) j) (Some (Parent p)) = Ok false -> ~ hash_valid P cs t k j p.
Proof.
  intros L E (lh & rh & lph & rph & E1 & E2 & E3 & E4 & X). unfold check_parent_hash in E. rewrite children_node in E by exact L. cbn [bind] in E.
  rewrite E1 in E. cbn [ok_or_false] in E. rewrite E2 in E. cbn [ok_or_false] in E. rewrite E3 in E. cbn [ok_or_false] in E. rewrite E4 in E. cbn [ok_or_false] in E.
  apply bind_ok in E as (rl & Rl & E). apply bind_ok in E as (rr & Rr & E). apply Ok_inj in E. unfold resolve in Rl, Rr.
  rewrite <- (N2Nat.id k) in Rl, Rr. apply resolve_f_val in Rl; [|lia]. apply resolve_f_val in Rr; [|lia]. subst rl rr.
  pose proof (bool_xor _ _ _ _ (find_parent_hash_iff t (resolution t (N.to_nat k) (2 * j)) lph) (find_parent_hash_iff t (resolution t (N.to_nat k) (2 * j + 1)) rph)) as Y.
  assert (negb (Bool.eqb (find_parent_hash t (resolution t (N.to_nat k) (2 * j)) lph) (find_parent_hash t (resolution t (N.to_nat k) (2 * j + 1)) rph)) = true) by (apply Y, X). congruence.
Qed.
Lemma verify_hashes_false P cs t : forall l i, i + tlen l <= 4294967296 -> verify_parent_hashes_from P cs t i l = Ok false ->
  exists x, x < tlen l /\ check_parent_hash P cs t (i + x) (tget l x) = Ok false.
Proof.
  induction l as [|nd l IH]; intros i L E; cbn [verify_parent_hashes_from] in E; [discriminate|].
  assert (TL : tlen (nd :: l) = tlen l + 1) by (unfold tlen; cbn [length]; lia). rewrite TL in *. rewrite N.mod_small in E by lia. apply bind_ok in E as (b & Eb & E). destruct b.
  - apply IH in E as (x & Lx & E); [|lia]. exists (x + 1). split; [lia|]. rewrite tget_S. replace (i + (x + 1)) with (i + 1 + x) by lia. exact E.
  - exists 0. split; [lia|]. rewrite N.add_0_r, tget_0. exact Eb.
Qed.

(** ** Members *)

Lemma verify_leaves_err P cs gid creds now e : forall ls sks eks, verify_leaves P cs gid creds now sks eks ls = Err e ->
  exists pre i l post, ls = (pre ++ (i, l) :: post)%list /\
    leaf_verify P l (MkLeafOptions cs gid i creds (rev (map sk_of pre) ++ sks) (rev (map ek_of pre) ++ eks) (now i)) = Err e.
Proof.
  induction ls as [|[i l] ls IH]; intros sks eks E; cbn [verify_leaves] in E; [discriminate|]. apply bind_err in E as [E|([] & _ & E)].
  - exists [], i, l, ls. split; [reflexivity|exact E].
  - apply IH in E as (pre & i' & l' & post & -> & E). exists ((i, l) :: pre), i', l', post. split; [reflexivity|]. cbn [map rev]. rewrite <- !app_assoc. exact E.
Qed.

(** ** Unmerged leaves and parents *)

Lemma climb_err d t li K J e : d <= 31 -> K <= d -> forall f k j, covers k j li ->
  check_unmerged_climb f t (2 ^ d) (node_at K J) li (node_at k j) = Err e ->
  (e = UnmergedLeafIsNotDescendantOfTheParentNode /\ (k < K -> ~ covers K J li)) \/
  (e = NonBlankIntermediateNodeMissingUnmergedLeaf /\ exists k' j' q, k < k' /\ (k < K -> covers K J li -> k' < K) /\ covers k' j' li /\ tget t (node_at k' j') = Some (Parent q) /\ ~ In li (pn_unmerged q)).
Proof.
  intros Hd HK. assert (P1 : 0 < 2 ^ d) by apply pow2_pos. assert (P2 : 2 ^ d <= 2147483648) by (change 2147483648 with (2 ^ 31); apply pow2_mono; exact Hd).
  pose proof (depth_pow2 d) as DP. induction f as [|f IH]; intros k j C E; cbn [check_unmerged_climb] in E;
  (apply bind_err in E as [E|(y & Ey & E)]; [exfalso; exact (noerr_parent _ _ _ E)|]);
  (destruct (N.eq_dec (node_at k j) (node_at (depth (2 ^ d)) 0)) as [Q|Q];
   [rewrite Q, parent_root in Ey by assumption; injection Ey as <-; injection E as <-; left; split; [reflexivity|]; rewrite DP in Q; apply node_at_inj in Q as [-> ->]; intros ?; lia|]);
  (assert (Lk : k < 31) by
    (destruct (N.lt_ge_cases k 31) as [Lk|Lk]; [exact Lk|exfalso]; destruct (N.eq_dec k 31) as [->|Ne];
     [rewrite parent_top in Ey; [discriminate|assumption|assumption|intros [X1 X2]; apply Q; rewrite <- X1, X2; reflexivity]|rewrite parent_max in Ey by (assumption || lia); discriminate]));
  (rewrite parent_node_gen in Ey; [|assumption|assumption|assumption|intros [-> ->]; apply Q; reflexivity]); unfold step_up in Ey; injection Ey as <-;
  pose proof (covers_step k j li C) as C';
  (destruct (N.eqb_spec (node_at (k + 1) (j / 2)) (node_at K J)) as [QK|QK]; [discriminate|]);
  (assert (NK : k < K -> covers K J li -> k + 1 < K) by (intros A B; destruct (N.eq_dec K (k + 1)) as [->|]; [exfalso; apply QK; f_equal; eapply covers_same; eassumption|lia]));
  (apply bind_err in E as [E|([] & _ & E)];
   [destruct (tget t (node_at (k + 1) (j / 2))) as [[lf|q]|] eqn:T; try discriminate; destruct (has_unmerged_leaf q li) eqn:U; [discriminate|]; injection E as <-; right; split; [reflexivity|];
    exists (k + 1), (j / 2), q; split; [lia|]; split; [exact NK|]; split; [exact C'|]; split; [exact T|]; intros I; apply has_unmerged_iff in I; congruence|]); [discriminate|].
  apply IH in E; [|exact C']. destruct E as [[-> E]|[-> (k' & j' & q & A & B & E)]].
  - left. split; [reflexivity|]. intros A B. apply E; [apply NK; assumption|exact B].
  - right. split; [reflexivity|]. exists k', j', q. split; [lia|]. split; [intros X Y; apply B; [apply NK; assumption|exact Y]|exact E].
Qed.
Lemma check_unmerged_err t n p e : forall l, check_unmerged t n p l = Err e -> exists u, In u l /\ check_unmerged_climb 33 t n p u (2 * u) = Err e.
Proof.
  induction l as [|u l IH]; intros E; [discriminate|]. unfold check_unmerged in E; fold check_unmerged in E. apply bind_err in E as [E|(x & Ex & E)]; [exfalso; exact (noerr_node_index _ _ E)|].
  apply node_index_val in Ex as [-> _]. apply bind_err in E as [E|([] & _ & E)]; [exists u; split; [left; reflexivity|exact E]|]. destruct (IH E) as (v & I & H). exists v. split; [right; exact I|exact H].
Qed.
Lemma check_parents_err t n e : forall l i eks, i + tlen l <= 4294967296 -> check_parents t n i eks l = Err e ->
  (exists x p, In (x, p) (parents_from i l) /\ check_unmerged t n x (pn_unmerged p) = Err e) \/
  (e = DuplicateEncryptionKeyInRatchetTree /\ exists x p, In (x, p) (parents_from i l) /\
    (In (pn_encryption_key p) eks \/ exists x' p', In (x', p') (parents_from i l) /\ x' <> x /\ pn_encryption_key p' = pn_encryption_key p)).
Proof.
  induction l as [|nd l IH]; intros i eks L E; cbn [check_parents parents_from] in *; [discriminate|].
  assert (TL : tlen (nd :: l) = tlen l + 1) by (unfold tlen; cbn [length]; lia). rewrite TL in L.
  destruct nd as [[lf|q]|]; [apply IH in E; [exact E|lia]| |apply IH in E; [exact E|lia]].
  rewrite N.mod_small in E by lia. apply bind_err in E as [E|([] & _ & E)].
  - left. exists i, q. split; [left; reflexivity|exact E].
  - destruct (mem bytes_eqb (pn_encryption_key q) eks) eqn:M.
    + injection E as <-. right. split; [reflexivity|]. exists i, q. split; [left; reflexivity|]. left. apply (mem_in _ bytes_eqb_eq), M.
    + apply IH in E; [|lia]. destruct E as [(x & p & I & E)|[-> (x & p & I & E)]].
      * left. exists x, p. split; [right; exact I|exact E].
      * right. split; [reflexivity|]. exists x, p. split; [right; exact I|]. destruct E as [[E|E]|(x' & p' & I' & N' & E)].
        -- right. exists i, q. split; [left; reflexivity|]. split; [|exact E]. apply parents_in in I. lia.
        -- left. exact E.
        -- right. exists x', p'. split; [right; exact I'|]. auto.
Qed.

Lemma fault_reason P t ctx now e : hash_fault P (gc_suite ctx) t e -> p_hash P (gc_suite ctx) = Err e \/ tree_reason P t ctx now e.
Proof.
  intros [H|[[-> H]|[[-> H]|[SE H]]]]; [left; exact H|right; exact H|right; exact H|]. destruct SE as [E|E]; subst e; right; exact H.
Qed.
Lemma leaf_reason_dup P l cs gid i creds sks eks now e : leaf_reason P l (MkLeafOptions cs gid i creds sks eks now) e ->
  (e = DuplicateSignatureKeyInRatchetTree /\ In (lp_signature_key (ln_payload l)) sks) \/ (e = DuplicateEncryptionKeyInRatchetTree /\ In (lp_encryption_key (ln_payload l)) eks) \/
  (leaf_reason P l (MkLeafOptions cs gid i creds [] [] now) e /\
   match e with LeafNodeSignatureVerificationFailed | CredentialTypeUsedByLeafNodeNotSupportedByAllMembers _ | LifetimeVerificationFailed
   | ExtensionTypeUsedByLeafNodeNotSupportedByThatLeafNode _ => True | _ => False end).
Proof. destruct e; cbn [leaf_reason lo_signature_keys lo_encryption_keys]; intros H; try contradiction; auto; right; right; split; try exact H; exact I. Qed.

Lemma tree_reasons P t ctx now d e : tsized t d -> tlen t < 4294967296 -> (forall x nd, tget t x = Some nd -> in_tree d x) ->
  verify_integrity P t ctx now = Err e -> p_hash P (gc_suite ctx) = Err e \/ tree_reason P t ctx now e.
Proof.
  intros S L IN E. pose proof (small_usized t d S L) as U. pose proof (usized_31 t d U) as Hd. pose proof (usized_leaves t d U) as NLv.
  destruct (leaves_ok t d U) as (ls & EL & SL & ML). destruct (supported_total t d U) as (ls' & creds & EL' & EC & _).
  unfold verify_integrity in E. apply bind_err in E as [E|(h & Eh & E)]; [apply fault_reason, (root_fault P _ t d e U E)|].
  destruct (valid_kinds P _ t d _ U IN Eh) as [K1 K2].
  destruct (bytes_eqb h (gc_tree_hash ctx)) eqn:B; cbn [negb] in E.
  2: { right. injection E as <-. exists h. split; [exact Eh|]. intros Q. apply bytes_eqb_eq in Q. congruence. }
  right. apply bind_err in E as [E|(b & Ev & E)]; [exfalso; exact (noerr_verify_hashes _ _ _ _ _ _ E)|]. destruct b; cbn [negb] in E.
  2: { injection E as <-. unfold verify_parent_hashes in Ev. apply verify_hashes_false in Ev as (x & Lx & Ev); [|lia]. rewrite N.add_0_l in Ev.
    destruct (tget t x) as [nd|] eqn:T; [|discriminate]. destruct (node_decomp x) as (k & j & ->). destruct (N.eq_dec k 0) as [->|Q].
    - rewrite node_at_leaf in Ev. unfold check_parent_hash in Ev. rewrite Verified.children_leaf in Ev. discriminate.
    - replace k with (k - 1 + 1) in * by lia. destruct nd as [l|p]; [exfalso; eapply K2, T|]. pose proof (in_tree_level _ _ _ (IN _ _ T)).
      exists (k - 1), j, p. split; [exact T|]. apply check_parent_hash_false; [lia|exact Ev]. }
  rewrite EC in E. cbn [bind] in E. rewrite EL in E. cbn [bind] in E. apply bind_err in E as [E|([sks eks] & Vl & E)].
  - apply verify_leaves_err in E as (pre & i & l & post & -> & E). rewrite !app_nil_r in E. apply leaf_reasons, leaf_reason_dup in E.
    assert (Il : leaf_at t i = Some l) by (apply ML, in_or_app; right; left; reflexivity).
    assert (PRE : forall i' l', In (i', l') pre -> leaf_at t i' = Some l' /\ i' <> i).
    { intros i' l' I. split; [apply ML, in_or_app; left; exact I|]. intros ->. rewrite map_app in SL. apply sorted_NoDup in SL. cbn [map fst] in SL. apply NoDup_remove_2 in SL. apply SL, in_or_app. left. apply (in_map fst _ (i, l')), I. }
    destruct E as [[-> I]|[[-> I]|[R M]]].
    + apply in_rev in I. apply in_map_iff in I as ([i' l'] & Q & I). destruct (PRE _ _ I) as [A N']. exists i, i', l, l'. split; [congruence|]. auto.
    + apply in_rev in I. apply in_map_iff in I as ([i' l'] & Q & I). destruct (PRE _ _ I) as [A N']. exists (2 * i), (2 * i'), (Leaf l), (Leaf l'). split; [lia|].
      unfold leaf_at in A, Il. destruct (tget t (2 * i)) as [[a|a]|]; try discriminate. destruct (tget t (2 * i')) as [[a'|a']|]; try discriminate.
      injection A as ->. injection Il as ->. auto.
    + destruct e; try contradiction; exists i, l, creds; (split; [exact Il|]); (split; [exact EC|]); exact R.
  - apply verify_leaves_iff in Vl; [|constructor|constructor]. destruct Vl as (Q & _). rewrite !app_nil_r in Q. injection Q as -> ->.
    assert (PI : forall x p, In (x, p) (parents_from 0 t) <-> tget t x = Some (Parent p)).
    { intros x p. rewrite parents_in, N.sub_0_r. split; [intros [_ H]; exact H|intros H; split; [lia|exact H]]. }
    apply check_parents_err in E; [|lia]. destruct E as [(x & p & I & E)|[-> (x & p & I & E)]]; apply PI in I.
    + apply check_unmerged_err in E as (u & Iu & E). destruct (node_decomp x) as (K & J & ->). pose proof (in_tree_level _ _ _ (IN _ _ I)) as HK.
      assert (K0 : 0 < K). { destruct (N.eq_dec K 0) as [->|]; [|lia]. exfalso. rewrite node_at_leaf in I. eapply K1, I. }
      rewrite NLv, <- node_at_leaf in E. apply climb_err in E; [|exact Hd|exact HK|unfold covers; change (2 ^ 0) with 1; lia].
      destruct E as [[-> E]|[-> (k' & j' & q & A & B' & C & T & N')]].
      * exists K, J, p, u. auto.
      * exists K, J, p, u, k', j', q. auto 8.
    + destruct E as [E|(x' & p' & I' & N' & E)].
      * apply in_rev in E. apply in_map_iff in E as ([i l] & Q & E). apply ML in E. unfold leaf_at in E. destruct (tget t (2 * i)) as [[a|a]|] eqn:T; try discriminate. injection E as ->.
        exists x, (2 * i), (Parent p), (Leaf l). split; [intros ->; congruence|]. split; [exact I|]. split; [exact T|]. symmetry. exact Q.
      * apply PI in I'. exists x, x', (Parent p), (Parent p'). split; [congruence|]. split; [exact I|]. split; [exact I'|]. symmetry. exact E.
Qed.

(** ** Update paths *)

Lemma se_new_parent k h e : se_parent_node (MkParentNode k h []) = Err e -> se_opaque k = Err e \/ se_opaque h = Err e.
Proof.
  unfold se_parent_node. cbn [pn_encryption_key pn_parent_hash pn_unmerged]. intros E. apply seqw_err in E as [E|(a & _ & E)]; [left; exact E|]. apply seqw_err in E as [E|(b & _ & E)]; [right; exact E|]. vm_compute in E. discriminate.
Qed.
Local Transparent parent_hash.
Section PathReasons.
  Variables (P : provider) (cs : cipher_suite) (t : tree) (d i : N) (u : update_path).
  Hypotheses (SH : shaped t d) (Hi : i < 2 ^ d).
  Let nodes := up_nodes u.
  Definition made_of (h : bytes) : Prop := h = [] \/ exists H b, p_hash P cs = Ok H /\ h = h_digest H b.
  Definition path_inv (c : tree) : Prop := forall x nd, tget c x = Some nd -> tget t x = Some nd \/
    (on_path d i x /\ exists n h, In n nodes /\ made_of h /\ nd = Parent (MkParentNode (upn_encryption_key n) h [])).
  Definition path_fault (e : error) : Prop :=
    p_hash P cs = Err e \/ (size_error e /\ ((exists n, In n nodes /\ se_opaque (upn_encryption_key n) = Err e) \/ too_long P cs t e)).
  Lemma made_fault h e : made_of h -> se_opaque h = Err e -> path_fault e.
  Proof.
    intros [->|(H & b & EH & ->)] E; [vm_compute in E; discriminate|]. right. split; [eapply (sizing_err _ _ _ _ sizing_opaque), E|]. right. right. right. eauto.
  Qed.
  Lemma key_fault n e : In n nodes -> se_opaque (upn_encryption_key n) = Err e -> path_fault e.
  Proof. intros I E. right. split; [eapply (sizing_err _ _ _ _ sizing_opaque), E|]. left. eauto. Qed.
  Lemma inv_fault c e : path_inv c -> hash_fault P cs c e -> path_fault e.
  Proof.
    intros IV [H|[[-> (y & p & T)]|[[-> (k & j & l & T)]|[SE [(x & l & T & E)|[(x & p & T & E)|H]]]]]].
    - left. exact H.
    - exfalso. destruct (IV _ _ T) as [T'|[(k & j & L & Q & _) _]]; [eapply (sh_leaf t d SH), T'|]. rewrite <- node_at_leaf in Q. apply node_at_inj in Q. lia.
    - exfalso. destruct (IV _ _ T) as [T'|[_ (n & h & _ & _ & Q)]]; [eapply (sh_parent t d SH), T'|discriminate].
    - destruct (IV _ _ T) as [T'|[_ (n & h & _ & _ & Q)]]; [|discriminate]. right. split; [exact SE|]. right. left. eauto.
    - destruct (IV _ _ T) as [T'|[_ (n & h & I & M & Q)]]; [right; split; [exact SE|]; right; right; left; eauto|]. injection Q as ->.
      apply se_new_parent in E as [E|E]; [eapply key_fault; eassumption|eapply made_fault; eassumption].
    - right. split; [exact SE|]. right. right. right. exact H.
  Qed.
  Lemma sph_fault D rpath : (forall x, In x D <-> on_path d i x) -> (forall x, In x rpath -> on_path d i x) -> forall c prev c' e, path_inv c ->
    (forall x, In x rpath -> exists n h, In n nodes /\ made_of h /\ tget c x = Some (Parent (MkParentNode (upn_encryption_key n) h []))) -> NoDup rpath -> (forall h, prev = Some h -> made_of h) ->
    set_parent_hashes P cs D (2 * i) c prev rpath = (c', Err e) -> path_fault e.
  Proof.
    intros HD. induction rpath as [|y rpath IH]; intros OP c prev c' e IV KEYS ND PV E; cbn [set_parent_hashes] in E; [discriminate|].
    destruct (KEYS y (or_introl eq_refl)) as (n & h & In_ & Mh & T). rewrite T in E.
    pose proof (on_path_level d i y (OP y (or_introl eq_refl))) as (k & Lk & Qy). pose proof (usized_31 t d (shaped_usized t d SH)) as D31.
    rewrite Qy in E. rewrite children_node in E by lia. rewrite <- Qy in E.
    match type of E with context [tree_hash P cs c ?s []] => assert (SK : exists s', s = node_at k s') end.
    { unfold copath_child. match goal with |- context [if ?b then _ else _] => destruct b end; eauto. }
    destruct SK as [s' SK]. rewrite SK in E. destruct (tree_hash P cs c (node_at k s') []) as [th|e0| |] eqn:TH; [| |discriminate|discriminate].
    2: { injection E as _ <-. eapply inv_fault; [exact IV|]. eapply node_fault; [|exact TH]. lia. }
    cbn [pn_encryption_key pn_unmerged] in E. set (ph := match prev with Some h0 => h0 | None => [] end) in *.
    assert (MP : made_of ph) by (unfold ph; destruct prev; [apply PV; reflexivity|left; reflexivity]).
    set (q := MkParentNode (upn_encryption_key n) ph []) in *.
    assert (MT : made_of th). { assert (L31 : k <= 31) by lia. destruct (node_digest P cs c k s' [] th L31 TH) as (H & b & EH & ->). right. eauto. }
    destruct (parent_hash P cs q th) as [h'|e0| |] eqn:PH; [| |discriminate|discriminate].
    2: { injection E as _ <-. unfold parent_hash in PH. apply bind_err in PH as [PH|(b & _ & PH)]; [|left; apply bind_err in PH as [PH|(h' & _ & PH)]; [exact PH|discriminate]].
      unfold parent_hash_input in PH. cbn [q pn_encryption_key pn_parent_hash] in PH. apply seqw_err in PH as [PH|(a & _ & PH)]; [eapply key_fault; eassumption|].
      apply seqw_err in PH as [PH|(a' & _ & PH)]; [exact (made_fault _ _ MP PH)|exact (made_fault _ _ MT PH)]. }
    assert (MH : made_of h'). { unfold parent_hash in PH. apply bind_ok in PH as (b & _ & PH). apply bind_ok in PH as (H & EH & PH). injection PH as <-. right. eauto. }
    inversion ND as [|? ? NI ND']; subst. eapply IH; [intros x I; apply OP; right; exact I| | |exact ND'| |exact E].
    - intros x nd G. rewrite tget_tset in G. match type of G with (if ?b then _ else _) = _ => destruct b eqn:B end; [|apply IV, G]. injection G as <-. apply andb_prop in B as [B _]. apply N.eqb_eq in B. rewrite B.
      right. split; [apply OP; left; reflexivity|]. exists n, ph. auto.
    - intros x I. destruct (KEYS x (or_intror I)) as (n' & h0 & A & B & C). exists n', h0. split; [exact A|]. split; [exact B|]. rewrite tget_tset_other; [exact C|]. intros Q. apply NI. rewrite <- Q. exact I.
    - intros h0 Q. injection Q as <-. exact MH.
  Qed.
End PathReasons.

Lemma path_reasons P cs t d i u t' e fp : shaped t d -> i < 2 ^ d -> filtered_direct_path t (2 * i) = Ok fp -> merge_update_path P cs t i u = (t', Err e) ->
  p_hash P cs = Err e \/ path_reason P cs t i fp u e.
Proof.
  intros SH Hi EF E. pose proof (sh_unmerged t d SH) as SU. pose proof (shaped_usized t d SH) as U.
  rewrite (filtered_leaf t d i SU U Hi) in EF. apply Ok_inj in EF. pose proof (mg_eq P cs t d i u SU U Hi) as ME. rewrite EF in ME. rewrite ME in E.
  destruct (Nat.eqb_spec (length fp) (length (up_nodes u))) as [EL|EL]; cbn [negb] in E.
  2: { injection E as _ <-. right. exact EL. }
  destruct (set_parent_hashes P cs (up d i) (2 * i) _ None _) as [t3 prev] eqn:ES.
  assert (KEYS : forall x, In x fp -> exists n, In n (up_nodes u) /\ tget (set_path_keys (fold_left blank (up d i) t) fp (up_nodes u)) x = Some (Parent (MkParentNode (upn_encryption_key n) [] []))).
  { intros x I. destruct (nth_error_pair fp (up_nodes u) x EL I) as (m & n & A & B). exists n. split; [eapply nth_error_In, B|]. subst fp. exact (mg_t2_key t d i u U Hi m x n A B). }
  assert (OP : forall x, In x fp -> on_path d i x) by (intros x I; subst fp; eapply fpath_on_path, I).
  destruct prev as [prev|e0| |]; cbn [tbind] in E; try discriminate.
  - right. assert (Q : e = ParentHashMismatchForUpdatePathLeafNode).
    { destruct (lp_source (ln_payload (up_leaf u))); try (injection E as _ <-; reflexivity). destruct prev; try (injection E as _ <-; reflexivity).
      match type of E with context [if ?c then _ else _] => destruct c end; [injection E as _ <-; reflexivity|discriminate]. }
    subst e. cbn [path_reason]. split; [exact EL|]. destruct prev as [h|].
    + right. exists h. eexists. split.
      * intros S. rewrite S in E. rewrite (proj2 (bytes_eqb_eq h h) eq_refl) in E. discriminate.
      * pose proof (mg_eq P cs t d i (with_source u (LSCommit h)) SU U Hi) as ME'. rewrite EF in ME'. rewrite ME'. cbn [with_source up_nodes up_leaf ln_payload lp_source].
        destruct (Nat.eqb_spec (length fp) (length (up_nodes u))); [|contradiction]. cbn [negb]. rewrite ES. cbn [tbind]. rewrite (proj2 (bytes_eqb_eq h h) eq_refl). reflexivity.
    + left. destruct fp as [|x fp]; [reflexivity|]. exfalso. clear E ME. cbn [rev] in ES.
      assert (NN : forall rp c pv c', set_parent_hashes P cs (up d i) (2 * i) c pv rp = (c', Ok None) -> pv = None /\ forall y, In y rp -> ~ exists p, tget c y = Some (Parent p)).
      { clear. induction rp as [|y rp IH]; intros c pv c' E; cbn [set_parent_hashes] in E; [injection E as _ ->; split; [reflexivity|intros y []]|].
        destruct (tget c y) as [[l|p]|] eqn:T.
        - destruct (IH _ _ _ E) as [A B]. split; [exact A|]. intros z [<-|I]; [intros [p Q]; congruence|apply B, I].
        - exfalso. destruct (children y) as [[[l r]|]| | |]; try discriminate. destruct (tree_hash P cs c _ []); try discriminate. destruct (parent_hash P cs _ _); try discriminate. destruct (IH _ _ _ E) as [A _]. discriminate.
        - destruct (IH _ _ _ E) as [A B]. split; [exact A|]. intros z [<-|I]; [intros [p Q]; congruence|apply B, I]. }
      destruct (NN _ _ _ _ ES) as [_ B]. destruct (KEYS x (or_introl eq_refl)) as (n & _ & T). apply (B x); [apply in_or_app; right; left; reflexivity|eauto].
  - injection E as _ <-. assert (F : path_fault P cs t u e0).
    { eapply (sph_fault P cs t d i u SH Hi (up d i) (rev fp)); [intros x; apply in_up|intros x I; apply OP; rewrite in_rev; exact I| | | | |exact ES].
      - intros x nd T. destruct (in_dec N.eq_dec x fp) as [I|I].
        + right. split; [apply OP, I|]. destruct (KEYS x I) as (n & A & B). exists n, []. split; [exact A|]. split; [left; reflexivity|]. congruence.
        + destruct (on_path_dec d i x) as [O|O].
          * exfalso. subst fp. rewrite (mg_t2_blank t d i u x O I) in T. discriminate.
          * left. subst fp. rewrite <- (mg_t2_off t d i u x O). exact T.
      - intros x I. apply in_rev in I. destruct (KEYS x I) as (n & A & B). exists n, []. split; [exact A|]. split; [left; reflexivity|exact B].
      - subst fp. apply (mg_rev P cs t d i u U Hi).
      - discriminate. }
    destruct F as [F|[SE F]]; [left; exact F|right]. destruct SE as [Q|Q]; subst e0; exact F.
Qed.
