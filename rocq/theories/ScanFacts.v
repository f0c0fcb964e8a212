(** Proofs about what looking up unmerged leaves costs. *)
From Verif Require Import CodecLib TreeMathProofs TreeOps Verified CostFacts SizeFacts SpecSize ExProvider SpecScan.
From Coq Require Import ZifyBool ZifyNat ZifyN.
Local Open Scope N_scope.

Local Opaque check_unmerged_climb s_check_unmerged_climb.

Lemma fst_sbind {A B} (m : scanning A) (k : A -> scanning B) : fst (sbind m k) = let* a := fst m in fst (k a).
Proof. unfold sbind. destruct (fst m); reflexivity. Qed.
Lemma search_same li : forall l, fst (s_search li l) = mem N.eqb li l.
Proof.
  unfold mem. induction l as [|x l IH]; [reflexivity|]. cbn [s_search existsb]. rewrite (N.eqb_sym li x). destruct (x =? li); [reflexivity|]. exact IH.
Qed.
Lemma s_same_climb t n p li : forall fuel x, fst (s_check_unmerged_climb fuel t n p li x) = check_unmerged_climb fuel t n p li x.
Proof.
  induction fuel as [|fuel IH]; intros x; cbn [s_check_unmerged_climb check_unmerged_climb]; rewrite fst_sbind; apply bind_ext; intros [y|]; try reflexivity; (destruct (y =? p); [reflexivity|]); rewrite fst_sbind;
    (assert (E : forall k : unit -> res unit, (let* a := fst match tget t y with
            | Some (Parent q) => let found := s_search li (pn_unmerged q) in
                (if fst found then Ok tt else Err NonBlankIntermediateNodeMissingUnmergedLeaf, snd found)
            | _ => unscanned (Ok tt) end in k a) = (let* a := match tget t y with
                | Some (Parent q) => if has_unmerged_leaf q li then Ok tt else Err NonBlankIntermediateNodeMissingUnmergedLeaf
                | _ => Ok tt end in k a)) by (intros k; destruct (tget t y) as [[lf|q]|]; try reflexivity; cbv zeta; cbn [fst]; rewrite search_same; reflexivity); rewrite E; apply bind_ext; intros u; first [reflexivity|apply IH]).
Qed.
Lemma s_same_unmerged t n p : forall l, fst (s_check_unmerged t n p l) = check_unmerged t n p l.
Proof. induction l as [|li l IH]; cbn [s_check_unmerged check_unmerged]; [reflexivity|]. rewrite fst_sbind. apply bind_ext. intros x. rewrite fst_sbind, s_same_climb. apply bind_ext. intros u. apply IH. Qed.
Lemma s_same_parents t n : forall l i eks, fst (s_check_parents t n i eks l) = check_parents t n i eks l.
Proof.
  induction l as [|[[lf|p]|] l IH]; intros i eks; cbn [s_check_parents check_parents]; [reflexivity|apply IH| |apply IH]. rewrite fst_sbind, s_same_unmerged. apply bind_ext. intros u. destruct (mem _ _ _); [reflexivity|apply IH].
Qed.
Lemma scans_same P t ctx now : fst (s_verify_integrity P t ctx now) = verify_integrity P t ctx now.
Proof.
  unfold s_verify_integrity, verify_integrity. rewrite fst_sbind. apply bind_ext. intros h. destruct (negb _); [reflexivity|]. rewrite fst_sbind. apply bind_ext. intros b. destruct (negb b); [reflexivity|].
  rewrite fst_sbind. apply bind_ext. intros creds. rewrite fst_sbind. apply bind_ext. intros ls. rewrite fst_sbind. apply bind_ext. intros [a eks]. apply s_same_parents.
Qed.

(** ** An upper bound *)

Lemma snd_sbind {A B} (m : scanning A) (k : A -> scanning B) a b : snd m <= a -> (forall x, fst m = Ok x -> snd (k x) <= b) -> snd (sbind m k) <= a + b.
Proof. intros H K. unfold sbind. destruct (fst m) as [x| | |]; cbn [snd]; [specialize (K x eq_refl)|..]; lia. Qed.
Lemma snd_unscanned {A B} (m : res A) (k : A -> scanning B) b : (forall x, m = Ok x -> snd (k x) <= b) -> snd (sbind (unscanned m) k) <= b.
Proof. intros K. apply (snd_sbind (unscanned m) k 0 b); [cbn; lia|exact K]. Qed.
Lemma search_cost li : forall l, snd (s_search li l) <= N.of_nat (length l).
Proof. induction l as [|x l IH]; cbn [s_search length]; [cbn; lia|]. destruct (x =? li); cbn [snd]; lia. Qed.
Lemma longest_in : forall (t : tree) x p, tget t x = Some (Parent p) -> N.of_nat (length (pn_unmerged p)) <= longest_unmerged t.
Proof.
  intros t x p. unfold tget. destruct (x <? tlen t); [|discriminate]. generalize (N.to_nat x) as i. clear x. unfold longest_unmerged. induction t as [|nd t IH]; intros i E; [destruct i; discriminate|].
  cbn [map fold_right]. destruct i as [|i]; cbn [nth] in E; [subst; lia|]. specialize (IH i E). lia.
Qed.
Lemma s_cost_climb t n p li : forall fuel x, snd (s_check_unmerged_climb fuel t n p li x) <= (N.of_nat fuel + 1) * longest_unmerged t.
Proof.
  assert (Q : forall y, snd match tget t y with
            | Some (Parent q) => let found := s_search li (pn_unmerged q) in
                (if fst found then Ok tt else Err NonBlankIntermediateNodeMissingUnmergedLeaf, snd found)
            | _ => unscanned (Ok tt) end <= longest_unmerged t).
  { intros y. destruct (tget t y) as [[lf|q]|] eqn:E; cbn [snd unscanned]; try lia. apply longest_in in E. pose proof (search_cost li (pn_unmerged q)). cbv zeta. cbn [snd]. lia. }
  induction fuel as [|fuel IH]; intros x; cbn [s_check_unmerged_climb]; apply snd_unscanned; intros [y|] _; cbn [snd unscanned]; try lia; (destruct (y =? p); [cbn; lia|]).
  - replace ((N.of_nat 0 + 1) * longest_unmerged t) with (longest_unmerged t + 0) by lia. apply snd_sbind; [apply Q|cbn; lia].
  - replace ((N.of_nat (S fuel) + 1) * longest_unmerged t) with (longest_unmerged t + (N.of_nat fuel + 1) * longest_unmerged t) by lia. apply snd_sbind; [apply Q|intros; apply IH].
Qed.
Lemma s_cost_unmerged t n p : forall l, snd (s_check_unmerged t n p l) <= 34 * N.of_nat (length l) * longest_unmerged t.
Proof.
  induction l as [|li l IH]; cbn [s_check_unmerged]; [cbn; lia|]. apply snd_unscanned. intros x _.
  replace (34 * N.of_nat (length (li :: l)) * longest_unmerged t) with (34 * longest_unmerged t + 34 * N.of_nat (length l) * longest_unmerged t) by (cbn [length]; lia).
  apply snd_sbind; [apply (s_cost_climb t n p li 33)|intros; apply IH].
Qed.
Lemma s_cost_parents t n : forall l i eks, snd (s_check_parents t n i eks l) <= 34 * unmerged_entries l * longest_unmerged t.
Proof.
  induction l as [|[[lf|p]|] l IH]; intros i eks; cbn [s_check_parents]; [cbn; lia|apply IH| |apply IH].
  replace (34 * unmerged_entries (Some (Parent p) :: l) * longest_unmerged t) with (34 * N.of_nat (length (pn_unmerged p)) * longest_unmerged t + 34 * unmerged_entries l * longest_unmerged t) by (unfold unmerged_entries; cbn [map fold_right]; lia).
  apply snd_sbind; [apply s_cost_unmerged|]. intros u _. destruct (mem _ _ _); [cbn; lia|apply IH].
Qed.
Lemma scans_bound P t ctx now : snd (s_verify_integrity P t ctx now) <= 34 * unmerged_entries t * longest_unmerged t.
Proof.
  unfold s_verify_integrity. apply snd_unscanned. intros h _. destruct (negb _); [cbn; lia|]. apply snd_unscanned. intros b _. destruct (negb b); [cbn; lia|]. do 3 (apply snd_unscanned; intros ? _). apply s_cost_parents.
Qed.
Lemma longest_entries t : longest_unmerged t <= unmerged_entries t.
Proof. unfold longest_unmerged, unmerged_entries. induction (map _ t) as [|a l IH]; cbn [fold_right]; lia. Qed.

(** ** It is reached *)

Lemma search_last u : snd (s_search 0 (repeat 1 u ++ [0])%list) = N.of_nat u + 1 /\ fst (s_search 0 (repeat 1 u ++ [0])%list) = true.
Proof. induction u as [|u [IH IH']]; [split; reflexivity|]. cbn [repeat app s_search]. change (1 =? 0) with false. cbv iota. cbn [fst snd]. rewrite IH, IH'. split; [lia|reflexivity]. Qed.
Local Transparent s_check_unmerged_climb check_unmerged_climb.
Section Reached.
Variables (l0 : leaf_node) (k1 h1 k3 h3 : bytes) (o2 o4 o6 : option leaf_node) (u : nat).
Definition crowded : tree :=
  [Some (Leaf l0); Some (Parent (MkParentNode k1 h1 (repeat 1 u ++ [0])%list)); option_map Leaf o2;
   Some (Parent (MkParentNode k3 h3 (repeat 0 u))); option_map Leaf o4; None; option_map Leaf o6].
Lemma crowded_climb f : s_check_unmerged_climb (S f) crowded 4 3 0 0 = (Ok tt, N.of_nat u + 1).
Proof.
  cbn [s_check_unmerged_climb]. change (parent 4 0) with (Ok (Some 1)). unfold sbind at 1. cbn [fst snd unscanned]. change (1 =? 3) with false. cbv iota.
  change (tget crowded 1) with (Some (Parent (MkParentNode k1 h1 (repeat 1 u ++ [0])%list))). cbv iota zeta. cbn [pn_unmerged]. destruct (search_last u) as [-> ->].
  unfold sbind at 1. cbn [fst snd]. destruct f; cbn [s_check_unmerged_climb]; change (parent 4 1) with (Ok (Some 3)); unfold sbind; cbn [fst snd unscanned]; change (3 =? 3) with true; cbv iota; cbn [fst snd]; apply (f_equal (pair (Ok tt))); unfold unscanned; cbn [snd]; lia.
Qed.
Lemma crowded_root : forall n, s_check_unmerged crowded 4 3 (repeat 0 n) = (Ok tt, N.of_nat n * (N.of_nat u + 1)).
Proof.
  induction n as [|n IH]; [reflexivity|]. cbn [repeat s_check_unmerged]. change (node_index 0) with (Ok 0). unfold sbind at 1. cbn [fst snd unscanned].
  rewrite (crowded_climb 32). unfold sbind. cbn [fst snd]. rewrite IH. cbn [fst snd]. f_equal. lia.
Qed.
Lemma direct_child f t n p li x : parent n x = Ok (Some p) -> s_check_unmerged_climb f t n p li x = (Ok tt, 0).
Proof. intros E. destruct f; cbn [s_check_unmerged_climb]; rewrite E; unfold sbind; cbn [fst snd unscanned]; rewrite N.eqb_refl; reflexivity. Qed.
Lemma crowded_child : s_check_unmerged crowded 4 1 (repeat 1 u ++ [0])%list = (Ok tt, 0).
Proof.
  enough (H : forall n, s_check_unmerged crowded 4 1 (repeat 1 n ++ [0])%list = (Ok tt, 0)) by apply H. induction n as [|n IH].
  - cbn [repeat app s_check_unmerged]. change (node_index 0) with (Ok 0). unfold sbind at 1. cbn [fst snd unscanned]. rewrite direct_child by reflexivity. reflexivity.
  - cbn [repeat app s_check_unmerged]. change (node_index 1) with (Ok 2). unfold sbind at 1. cbn [fst snd unscanned]. rewrite direct_child by reflexivity. unfold sbind. cbn [fst snd]. rewrite IH. reflexivity.
Qed.
Lemma crowded_parents eks : check_parents crowded 4 0 eks crowded = Ok tt -> snd (s_check_parents crowded 4 0 eks crowded) = N.of_nat u * (N.of_nat u + 1).
Proof.
  assert (SK : forall (o : option leaf_node) i e r, s_check_parents crowded 4 i e (option_map Leaf o :: r) = s_check_parents crowded 4 (i + 1) e r) by (intros [lf|]; reflexivity).
  assert (PAR : forall p i e r, s_check_parents crowded 4 i e (Some (Parent p) :: r) = sbind (s_check_unmerged crowded 4 (i mod 4294967296) (pn_unmerged p)) (fun _ =>
      if mem bytes_eqb (pn_encryption_key p) e then unscanned (Err DuplicateEncryptionKeyInRatchetTree) else
      s_check_parents crowded 4 (i + 1) (pn_encryption_key p :: e) r)) by reflexivity.
  rewrite <- s_same_parents. replace (s_check_parents crowded 4 0 eks crowded) with (s_check_parents crowded 4 0 eks (option_map Leaf (Some l0) :: Some (Parent (MkParentNode k1 h1 (repeat 1 u ++ [0])%list)) :: option_map Leaf o2
     :: Some (Parent (MkParentNode k3 h3 (repeat 0 u))) :: option_map Leaf o4 :: option_map Leaf None :: option_map Leaf o6 :: [])) by reflexivity.
  rewrite SK, PAR. change ((0 + 1) mod 4294967296) with 1. cbn [pn_unmerged pn_encryption_key]. rewrite crowded_child. unfold sbind at 1 2. cbn [fst snd].
  destruct (mem bytes_eqb k1 eks); [discriminate|]. rewrite SK, PAR. change ((0 + 1 + 1 + 1) mod 4294967296) with 3. cbn [pn_unmerged pn_encryption_key]. rewrite crowded_root. unfold sbind. cbn [fst snd].
  destruct (mem bytes_eqb k3 (k1 :: eks)); [discriminate|]. rewrite !SK. cbn [s_check_parents unscanned fst snd]. intros _. unfold unscanned. cbn [snd]. lia.
Qed.
Lemma crowded_cost P ctx now : verify_integrity P crowded ctx now = Ok tt -> snd (s_verify_integrity P crowded ctx now) = N.of_nat u * (N.of_nat u + 1).
Proof.
  unfold verify_integrity, s_verify_integrity. intros E. apply bind_ok in E as (h & E1 & E). rewrite E1. unfold sbind at 1. cbn [fst snd unscanned]. destruct (negb _); [discriminate|].
  apply bind_ok in E as (b & E2 & E). rewrite E2. unfold sbind at 1. cbn [fst snd unscanned]. destruct (negb b); [discriminate|].
  apply bind_ok in E as (creds & E3 & E). rewrite E3. unfold sbind at 1. cbn [fst snd unscanned].
  apply bind_ok in E as (ls & E4 & E). rewrite E4. unfold sbind at 1. cbn [fst snd unscanned].
  apply bind_ok in E as ([a eks] & E5 & E). rewrite E5. unfold sbind at 1. cbn [fst snd unscanned].
  change (num_leaves crowded) with 4 in *. rewrite crowded_parents by exact E. lia.
Qed.
Lemma crowded_entries : unmerged_entries crowded = 2 * N.of_nat u + 1.
Proof. unfold unmerged_entries, crowded. destruct o2, o4, o6; cbn [map fold_right option_map pn_unmerged]; rewrite app_length, !repeat_length; cbn [length]; lia. Qed.
End Reached.

Lemma scans_received P bs t rest ctx now : de_ratchet_tree bs = Ok (t, rest) -> snd (s_verify_integrity P t ctx now) <= 136 * N.of_nat (length bs) * N.of_nat (length bs).
Proof.
  intros D. pose proof (scans_bound P t ctx now). pose proof (longest_entries t). pose proof (entries_size t). destruct (tree_no_bigger bs t rest D) as (S & _).
  eapply N.le_trans; [eassumption|]. transitivity (34 * (2 * N.of_nat (length bs)) * (2 * N.of_nat (length bs))); [apply N.mul_le_mono; lia|lia].
Qed.

Definition ex_crowd1 : list N := [1; 1; 1; 0].
Definition ex_crowd_h1 : bytes := ok_or [] (let* th := tree_hash toy Suite1 (repeat None 7) 5 [] in parent_hash toy Suite1 (MkParentNode [x78] [] [0; 0; 0]) th).
Definition ex_crowd_h0 : bytes := ok_or [] (let* th := tree_hash toy Suite1 (repeat None 7) 2 [] in parent_hash toy Suite1 (MkParentNode [x77] ex_crowd_h1 ex_crowd1) th).
Definition ex_crowd_leaf : leaf_node := ex_signed x01 (LSCommit ex_crowd_h0) (str "group") 0.
Lemma scans_example : let t := crowded ex_crowd_leaf [x77] ex_crowd_h1 [x78] [] None None None 3 in
  verify_integrity toy t (ex_context t) (fun _ => 5000%Z) = Ok tt /\ exists b, se_ratchet_tree t = Ok b /\ de_ratchet_tree b = Ok (t, []).
Proof. cbv zeta. split; [vm_compute; reflexivity|]. eexists. split; vm_compute; reflexivity. Qed.
