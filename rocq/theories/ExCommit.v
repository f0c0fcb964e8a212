(** Commits to the group of [ExPassive], by its first member. *)
From Coq Require Import Strings.Byte.
From Verif Require Import PassiveFacts CommitFacts PropWelcome Verified LeafFacts MessageFacts KeyFacts ReplicaFacts CodecFacts ProposalFacts TreeInv MemberFacts HashFacts AuthFacts.
From Verif Require Import WireWF SpecWelcome ExKeys ExPassive SpecPassive SpecAgree SpecCommit SpecHashes.
Local Open Scope N_scope.
Import Coq.Strings.Byte.

(** The hash that the leaf of member [i] has to carry when a path with the keys [nodes] is merged into [t]. *)
Definition ec_hash (t : tree) (i : N) (nodes : list update_path_node) : bytes :=
  ok_or [] (let* direct := direct_path (num_leaves t) (2 * i) in
            let t := fold_left blank direct t in
            let* fp := filtered_direct_path t (2 * i) in
            let* h := snd (set_parent_hashes toy Suite1 direct (2 * i) (set_path_keys t fp nodes) None (rev fp)) in
            match h with Some h => Ok h | None => Err OtherError end).
(** A leaf with a new encryption key [k], the signature key [s] and the capabilities [cp]. *)
Definition ec_leaf (k s : byte) (cp : capabilities) (ph : bytes) (i : N) : leaf_node :=
  let p := MkLeafPayload [k; x11; x12] [s; x21] (CredBasic (str "alice")) cp (LSCommit ph) [MkExtension (ExtUnknown 0xff01) [x07]] in
  MkLeafNode p (ok_or [] (let* tbs := se_leaf_node_tbs p (TIUpdateOrCommit (str "group") i) in sign_with_label toy Suite1 [s; x21] leaf_node_label tbs)).
Definition ec_nodes (ks : list bytes) : list update_path_node := map (fun k => MkUpdatePathNode k [MkHpkeCiphertext [x01] [x02]]) ks.
(** A path of member 0 for the tree [t]. *)
Definition ec_path_caps (t : tree) (k : byte) (cp : capabilities) (ks : list bytes) : update_path := MkUpdatePath (ec_leaf k x01 cp (ec_hash t 0 (ec_nodes ks)) 0) (ec_nodes ks).
Definition ec_path (t : tree) (k : byte) (ks : list bytes) : update_path := ec_path_caps t k ex_caps ks.
Definition ec_content (g : bytes) (ps : list proposal) (u : option update_path) : framed_content :=
  MkFramed g 1 (SMember 0) [] (CCommit (MkCommit (map PorProposal ps) u)).
Definition ec_key : bytes := ok_or [] (derive_secret toy Suite1 pj_epoch (str "membership")).
Definition ec_bytes (g : bytes) (ps : list proposal) (u : option update_path) : bytes :=
  ok_or [] (send_public toy Suite1 pj_ctx [x01; x21] ec_key (ec_content g ps u)).

(** The tree with a third member. *)
Definition ec_three : tree := ok_or [] (tree_apply pj_tree [PAdd (MkAdd (ex_package x41))] [0]).
Definition ec_after (ps : list proposal) (k : byte) (ks : list bytes) : tree :=
  ok_or [] (passive_commit toy Suite1 pj_tree pj_ctx pj_epoch (ec_bytes (str "group") ps (Some (ec_path pj_tree k ks)))).

Lemma pj_reachable : reachable toy Suite1 pj_tree.
Proof. exact (iv_reachable _ _ _ _ _ _ _ _ _ _ _ _ _ _ _ pj_invited). Qed.
Lemma pj_good : good pj_tree 1.
Proof.
  destruct pj_reachable as (l & H & N). destruct (history_good toy Suite1 _ 0 pj_tree (good_single l) H) as [Q|(d & G)]; [contradiction|].
  assert (d = 1) as <-; [|exact G]. eapply size_unique; [exact (g_size _ _ G)|]. left. vm_compute. reflexivity.
Qed.
Lemma pj_leaves i l : leaf_at pj_tree i = Some l -> i = 0 \/ i = 1.
Proof.
  intros L. unfold leaf_at in L. destruct (N.lt_ge_cases (2 * i) (tlen pj_tree)) as [Q|Q]; [|rewrite tget_beyond in L by exact Q; discriminate].
  assert (E : tlen pj_tree = 3) by (vm_compute; reflexivity). rewrite E in Q. lia.
Qed.
Lemma pj_distinct : distinct_keys pj_tree.
Proof.
  intros i i' l l' L L' Q. destruct (pj_leaves i l L) as [->| ->], (pj_leaves i' l' L') as [->| ->]; try reflexivity; exfalso; vm_compute in L, L'; injection L as <-; injection L' as <-; destruct Q as [Q|Q]; vm_compute in Q; discriminate.
Qed.
Lemma ec_accepted : passive_commit toy Suite1 pj_tree pj_ctx pj_epoch (ec_bytes (str "group") [] (Some (ec_path pj_tree x51 [[x61]]))) = Ok (ec_after [] x51 [[x61]]) /\
  leaf_at (ec_after [] x51 [[x61]]) 0 = Some (up_leaf (ec_path pj_tree x51 [[x61]])) /\ (exists h, tget (ec_after [] x51 [[x61]]) 1 = Some (Parent (MkParentNode [x61] h []))) /\
  leaf_at (ec_after [] x51 [[x61]]) 1 = Some (kp_leaf (kp_payload pj_kp)).
Proof. split; [vm_compute; reflexivity|]. split; [vm_compute; reflexivity|]. split; [exists []; vm_compute; reflexivity|vm_compute; reflexivity]. Qed.

(** The commit that removes member 1 is accepted, and member 1 is still there. *)
Lemma c94_refuted_proposals : exists P cs t d ctx epoch b i c ps t2 t' j l, good t d /\ carries b i c ps /\ tree_apply t ps (repeat i (length ps)) = Ok t2 /\
  passive_commit P cs t ctx epoch b = Ok t' /\ leaf_at t2 j = None /\ leaf_at t' j = Some l.
Proof.
  exists toy, Suite1, pj_tree, 1, pj_ctx, pj_epoch, (ec_bytes (str "group") [PRemove (MkRemove 1)] (Some (ec_path pj_tree x51 [[x61]]))), 0.
  exists (MkCommit [PorProposal (PRemove (MkRemove 1))] (Some (ec_path pj_tree x51 [[x61]]))), [PRemove (MkRemove 1)].
  eexists. exists (ec_after [PRemove (MkRemove 1)] x51 [[x61]]), 1, (kp_leaf (kp_payload pj_kp)). split; [exact pj_good|]. split.
  - eexists MLS10, _, []. split; [vm_compute; reflexivity|]. split; [reflexivity|]. split; vm_compute; reflexivity.
  - split; [vm_compute; reflexivity|]. split; [vm_compute; reflexivity|]. split; vm_compute; reflexivity.
Qed.
(** The commit that adds a third member has a path for the tree with the three; it is refused. *)
Lemma c94_refuted_rfc : exists P cs t d ctx epoch b i c ps u t2 t3 e, good t d /\ carries b i c ps /\ cm_path c = Some u /\
  tree_apply t ps (repeat i (length ps)) = Ok t2 /\ passive_path P cs t2 ctx i (up_leaf u) u = Ok t3 /\
  (exists l, leaf_at t i = Some l /\ signature_key l = signature_key (up_leaf u)) /\ passive_commit P cs t ctx epoch b = Err e.
Proof.
  exists toy, Suite1, pj_tree, 1, pj_ctx, pj_epoch, (ec_bytes (str "group") [PAdd (MkAdd (ex_package x41))] (Some (ec_path ec_three x51 [[x61]; [x62]]))), 0.
  exists (MkCommit [PorProposal (PAdd (MkAdd (ex_package x41)))] (Some (ec_path ec_three x51 [[x61]; [x62]]))), [PAdd (MkAdd (ex_package x41))], (ec_path ec_three x51 [[x61]; [x62]]).
  eexists ec_three, _, _. split; [exact pj_good|]. split.
  - eexists MLS10, _, []. split; [vm_compute; reflexivity|]. split; [reflexivity|]. split; vm_compute; reflexivity.
  - split; [reflexivity|]. split; [vm_compute; reflexivity|]. split; [vm_compute; reflexivity|]. split; [|vm_compute; reflexivity]. eexists. split; [vm_compute; reflexivity|vm_compute; reflexivity].
Qed.
(** The message names another group, and its confirmation tag is empty. *)
Lemma c94_refuted_unchecked : exists P cs t d ctx epoch b v m rest t', good t d /\ de_mls_message b = Ok (MkMLSMessage v (WMPublic m), rest) /\
  passive_commit P cs t ctx epoch b = Ok t' /\ fc_group_id (pm_content m) <> gc_group_id ctx /\ ad_confirmation_tag (pm_auth m) = [].
Proof.
  exists toy, Suite1, pj_tree, 1, pj_ctx, pj_epoch, (ec_bytes (str "other") [PAdd (MkAdd (ex_package x41))] None), MLS10. eexists _, [], pj_tree.
  split; [exact pj_good|]. split; [vm_compute; reflexivity|]. split; [vm_compute; reflexivity|]. split; [vm_compute; discriminate|reflexivity].
Qed.
