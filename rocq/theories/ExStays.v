(** Groups for C95: one whose changes are all checked, and some whose changes pass every check of the library. *)
From Coq Require Import Strings.Byte.
From Verif Require Import CommitFacts ExCommit ExPassive ExKeys Verified LeafFacts MessageFacts StaysFacts TreeInv TreeFacts HashFacts MemberFacts ReplicaFacts.
From Verif Require Import SpecStays SpecCommit SpecMembers.
Local Open Scope N_scope.
Import Coq.Strings.Byte.

Definition es_now : N -> Z := fun _ => 0%Z.
Lemma pj_verified : verify_integrity toy pj_tree pj_ctx es_now = Ok tt.
Proof. vm_compute. reflexivity. Qed.
Lemma pj_no_repetitions : no_repetitions pj_tree.
Proof.
  intros i l L. destruct (pj_leaves i l L) as [->| ->]; vm_compute in L; injection L as <-; cbn; repeat constructor; cbn; intuition discriminate.
Qed.
Lemma not_joinable t ctx : good t 1 -> (verified toy t ctx es_now 1 -> False) -> verify_integrity toy t ctx es_now <> Ok tt.
Proof. intros G H V. apply H. apply (verify_integrity_iff toy t ctx es_now 1 (g_size _ _ G) (g_small _ _ G) (g_in _ _ G)). exact V. Qed.

(** A commit whose path node has the encryption key of the leaf in the same path. *)
Lemma c95_refuted_keys : exists P cs t d ctx epoch b t' now, good t d /\ no_repetitions t /\ verify_integrity P t ctx now = Ok tt /\ passive_commit P cs t ctx epoch b = Ok t' /\
  (exists h, root_tree_hash P cs t' = Ok h) /\ verify_parent_hashes P cs t' = Ok true /\ forall ctx', gc_suite ctx' = cs -> verify_integrity P t' ctx' now <> Ok tt.
Proof.
  exists toy, Suite1, pj_tree, 1, pj_ctx, pj_epoch, (ec_bytes (str "group") [] (Some (ec_path pj_tree x51 [[x51; x11; x12]]))), (ec_after [] x51 [[x51; x11; x12]]), es_now.
  assert (A : passive_commit toy Suite1 pj_tree pj_ctx pj_epoch (ec_bytes (str "group") [] (Some (ec_path pj_tree x51 [[x51; x11; x12]]))) = Ok (ec_after [] x51 [[x51; x11; x12]])) by (vm_compute; reflexivity).
  split; [exact pj_good|]. split; [exact pj_no_repetitions|]. split; [exact pj_verified|]. split; [exact A|]. split; [eexists; vm_compute; reflexivity|]. split; [vm_compute; reflexivity|].
  intros ctx' _. apply not_joinable.
  - eapply (c94_tree toy Suite1 toy_sig toy_hash toy_hpke pj_tree 1 pj_ctx pj_epoch); [reflexivity|reflexivity|reflexivity|exact pj_good|exact pj_distinct|exact A].
  - intros V. assert (Q : 0 = 1); [|discriminate]. eapply (vf_encryption_keys _ _ _ _ _ V 0 1); [vm_compute; reflexivity|vm_compute; reflexivity|reflexivity].
Qed.
(** A commit whose leaf no longer supports the credentials that everybody, its sender included, has. *)
Definition es_caps : capabilities := MkCapabilities [MLS10] [Suite1] [ExtUnknown 0xff01] [] [CtX509].
Lemma c95_refuted_credentials : exists P cs t d ctx epoch b t' now, good t d /\ no_repetitions t /\ verify_integrity P t ctx now = Ok tt /\ passive_commit P cs t ctx epoch b = Ok t' /\
  (exists h, root_tree_hash P cs t' = Ok h) /\ verify_parent_hashes P cs t' = Ok true /\ forall ctx', gc_suite ctx' = cs -> verify_integrity P t' ctx' now <> Ok tt.
Proof.
  set (u := ec_path_caps pj_tree x51 es_caps [[x61]]). set (b := ec_bytes (str "group") [] (Some u)).
  exists toy, Suite1, pj_tree, 1, pj_ctx, pj_epoch, b, (ok_or [] (passive_commit toy Suite1 pj_tree pj_ctx pj_epoch b)), es_now.
  assert (A : passive_commit toy Suite1 pj_tree pj_ctx pj_epoch b = Ok (ok_or [] (passive_commit toy Suite1 pj_tree pj_ctx pj_epoch b))) by (vm_compute; reflexivity).
  split; [exact pj_good|]. split; [exact pj_no_repetitions|]. split; [exact pj_verified|]. split; [exact A|]. split; [eexists; vm_compute; reflexivity|]. split; [vm_compute; reflexivity|].
  intros ctx' _. apply not_joinable.
  - eapply (c94_tree toy Suite1 toy_sig toy_hash toy_hpke pj_tree 1 pj_ctx pj_epoch); [reflexivity|reflexivity|reflexivity|exact pj_good|exact pj_distinct|exact A].
  - intros V. destruct (vf_leaves _ _ _ _ _ V) as (creds & C & L). assert (creds = [CtX509]) as ->. { vm_compute in C. injection C as <-. reflexivity. }
    assert (K : leaf_at (ok_or [] (passive_commit toy Suite1 pj_tree pj_ctx pj_epoch b)) 1 = Some (kp_leaf (kp_payload pj_kp))) by (vm_compute; reflexivity). destruct (L 1 _ K) as (_ & [Q|[]] & _). vm_compute in Q. discriminate.
Qed.

(** ** A group in which every change is checked *)

Definition es_keys (t : tree) : list bytes := flat_map (fun n => match n with Some n => [node_key n] | None => [] end) t.
Lemma es_used t k : used_key t k -> In k (es_keys t).
Proof.
  intros (x & n & X & <-). unfold tget in X. destruct (x <? tlen t) eqn:L; [|discriminate]. apply N.ltb_lt in L. unfold es_keys. apply in_flat_map. exists (Some n). split; [|left; reflexivity].
  rewrite <- X. apply nth_In. unfold tlen in L. lia.
Qed.
Lemma es_fresh t k : forallb (fun q => negb (bytes_eqb q k)) (es_keys t) = true -> ~ used_key t k.
Proof. intros H U. apply es_used in U. rewrite forallb_forall in H. specialize (H k U). rewrite (proj2 (bytes_eqb_eq k k) eq_refl) in H. discriminate. Qed.
Definition es_first : leaf_node := ex_signed x01 LSUpdate (str "group") 0.
Lemma es_fit_first : fit toy Suite1 (str "group") es_now [] 0 es_first.
Proof.
  split.
  - apply leaf_verify_signature_iff. vm_compute. reflexivity.
  - intros lt Q. vm_compute in Q. discriminate.
  - intros e I. vm_compute in I. destruct I as [<-|[]]. vm_compute. auto.
  - vm_compute. auto.
  - intros j m _ L. unfold leaf_at in L. rewrite tget_beyond in L by (cbn; lia). discriminate.
  - vm_compute. repeat constructor; cbn; intuition discriminate.
  - intros j m _ L. unfold leaf_at in L. rewrite tget_beyond in L by (cbn; lia). discriminate.
  - apply es_fresh. reflexivity.
Qed.
Lemma es_fit_second : fit toy Suite1 (str "group") es_now [Some (Leaf es_first)] 1 (kp_leaf (kp_payload pj_kp)).
Proof.
  assert (S : forall j m, leaf_at [Some (Leaf es_first)] j = Some m -> m = es_first) by (intros j m L; apply single_leaf in L; apply L).
  split.
  - apply leaf_verify_signature_iff. vm_compute. reflexivity.
  - unfold es_now. intros; lia.
  - intros e I. vm_compute in I. destruct I.
  - vm_compute. auto.
  - intros j m _ L. apply S in L. subst m. vm_compute. auto.
  - vm_compute. repeat constructor; cbn; intuition discriminate.
  - intros j m _ L. apply S in L. subst m. vm_compute. discriminate.
  - apply es_fresh. vm_compute. reflexivity.
Qed.
Definition es_path : update_path := ec_path pj_tree x51 [[x61]].
Definition es_merged : tree := fst (merge_update_path toy Suite1 pj_tree 0 es_path).
Lemma es_fit_path : fit toy Suite1 (str "group") es_now pj_tree 0 (up_leaf es_path).
Proof.
  assert (S : forall j m, j <> 0 -> leaf_at pj_tree j = Some m -> m = kp_leaf (kp_payload pj_kp)).
  { intros j m N L. destruct (pj_leaves j m L) as [->| ->]; [contradiction|]. vm_compute in L. injection L as <-. vm_compute. reflexivity. }
  split.
  - apply leaf_verify_signature_iff. vm_compute. reflexivity.
  - intros lt Q. vm_compute in Q. discriminate.
  - intros e I. vm_compute in I. destruct I as [<-|[]]. vm_compute. auto.
  - vm_compute. auto.
  - intros j m N L. rewrite (S j m N L). vm_compute. auto.
  - vm_compute. repeat constructor; cbn; intuition discriminate.
  - intros j m N L. rewrite (S j m N L). vm_compute. discriminate.
  - apply es_fresh. vm_compute. reflexivity.
Qed.
Lemma es_fair : ~ coincidence toy Suite1 es_merged 0.
Proof.
  intros (k & own & far & p & th & h & C1 & C2 & Q & Ep & _ & _ & L). rewrite covers_div in C1, C2. rewrite N.div_small in C1, C2 by (pose proof (pow2_pos k); lia).
  subst own. change (0 / 2) with 0 in *. assert (F : far = 1). { pose proof (N.div_mod far 2 ltac:(lia)). pose proof (N.mod_lt far 2 ltac:(lia)). lia. } subst far.
  assert (TL : tlen es_merged = 3) by (vm_compute; reflexivity).
  assert (K : node_at (k + 1) 0 < 3). { destruct (N.lt_ge_cases (node_at (k + 1) 0) 3) as [|Z]; [assumption|]. rewrite tget_beyond in Ep by (rewrite TL; exact Z). discriminate Ep. }
  clear TL Ep.
  assert (k = 0) as ->. { destruct (N.le_gt_cases 1 k) as [Z|]; [|lia]. exfalso. assert (2 ^ 2 <= 2 ^ (k + 1)) by (apply pow2_mono; lia). unfold node_at in K. change (2 ^ 2) with 4 in *. lia. }
  revert L; apply leaf_not_linked; intros x n I E; vm_compute in I; destruct I as [<-|[]]; vm_compute in E; injection E as <-; reflexivity.
Qed.
Lemma es_history : fit_history toy Suite1 (str "group") es_now [Some (Leaf es_first)] es_merged.
Proof.
  apply (fth_cons _ _ _ _ _ pj_tree).
  - apply (fth_cons _ _ _ _ _ [Some (Leaf es_first)]); [apply fth_nil|]. eapply (ft_add _ _ _ _ _ 1 (kp_leaf (kp_payload pj_kp))).
    + exists 0. left. reflexivity.
    + vm_compute. reflexivity.
    + reflexivity.
    + vm_compute. reflexivity.
    + exact es_fit_second.
    + intros h Q. vm_compute in Q. discriminate.
  - destruct (root_tree_hash toy Suite1 es_merged) as [h|e| |] eqn:E; [|vm_compute in E; discriminate..].
    apply (ft_merge _ _ _ _ pj_tree 0 es_path es_merged h).
    + vm_compute. reflexivity.
    + exact E.
    + exact es_fair.
    + exact es_fit_path.
    + vm_compute. repeat constructor; cbn; intuition discriminate.
    + intros n I. vm_compute in I. destruct I as [<-|[]]. apply es_fresh. vm_compute. reflexivity.
Qed.

(** A new member who does not support the others' credentials; all that the library can check of it is in order. *)
Definition es_third : leaf_node :=
  let p := MkLeafPayload [x71; x11; x12] [x71; x21] (CredBasic (str "carol")) es_caps (LSKeyPackage (MkLifetime 10 20)) [] in
  MkLeafNode p (ok_or [] (let* tbs := se_leaf_node_tbs p (TIUpdateOrCommit (str "group") 1) in sign_with_label toy Suite1 [x71; x21] leaf_node_label tbs)).
Definition es_pair : tree := ok_or [] (tree_add [Some (Leaf es_first)] es_third).
Lemma c95_refuted_add : exists P t d ctx now ss es creds i l t', good t d /\ no_repetitions t /\ verify_integrity P t ctx now = Ok tt /\
  keys t = Ok (ss, es) /\ supported_creds t = Ok creds /\ leaf_verify P l (MkLeafOptions (gc_suite ctx) (gc_group_id ctx) i creds ss es (now i)) = Ok tt /\
  tree_add t l = Ok t' /\ leaf_at t i = None /\ leaf_at t' i = Some l /\ (exists h, root_tree_hash P (gc_suite ctx) t' = Ok h) /\ forall ctx', verify_integrity P t' ctx' now <> Ok tt.
Proof.
  exists toy, [Some (Leaf es_first)], 0, (ex_context [Some (Leaf es_first)]), es_now. eexists _, _, _. exists 1, es_third, es_pair.
  split; [apply good_single|]. split; [intros j m L; apply single_leaf in L as (_ & ->); vm_compute; repeat constructor; cbn; intuition discriminate|]. split; [vm_compute; reflexivity|].
  split; [vm_compute; reflexivity|]. split; [vm_compute; reflexivity|]. split; [vm_compute; reflexivity|]. split; [vm_compute; reflexivity|]. split; [reflexivity|]. split; [vm_compute; reflexivity|]. split; [eexists; vm_compute; reflexivity|].
  intros ctx'. assert (G : good es_pair 1).
  { destruct (history_good toy Suite1 _ 0 es_pair (good_single es_first)) as [Q|(d & G)].
    - eapply th_cons; [apply th_nil|]; eapply ts_add; [exists 0; left; reflexivity|vm_compute; reflexivity].
    - exfalso. vm_compute in Q. discriminate Q.
    - assert (d = 1) as <-; [|exact G]. eapply size_unique; [exact (g_size _ _ G)|]. left. vm_compute. reflexivity. }
  apply (not_joinable es_pair ctx' G). intros V. destruct (vf_leaves _ _ _ _ _ V) as (creds & C & L). assert (creds = [CtX509]) as ->. { vm_compute in C. injection C as <-. reflexivity. }
  assert (K : leaf_at es_pair 0 = Some es_first) by (vm_compute; reflexivity). destruct (L 0 _ K) as (_ & [Q|[]] & _). vm_compute in Q. discriminate Q.
Qed.
