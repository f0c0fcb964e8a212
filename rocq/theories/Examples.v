(** Concrete, non-trivial values used to show that theorem hypotheses can be met. *)
From Verif Require Export SpecCodec CodecPanics.
Local Open Scope N_scope.

Definition ex_caps : capabilities :=
  MkCapabilities [MLS10] [Suite1; Suite3; SuiteUnknown 0x0a0a] [ExtUnknown 0xff01] [] [CtBasic; CtX509].
Definition ex_payload (k : byte) (src : leaf_node_source) : leaf_node_payload :=
  MkLeafPayload [k; x11; x12] [k; x21] (CredBasic (str "alice")) ex_caps src [MkExtension ExtApplicationId [x07]].
Definition ex_leaf (k : byte) : leaf_node := MkLeafNode (ex_payload k (LSKeyPackage (MkLifetime 10 20))) [x0a; x0b].
Definition ex_leaf_commit (k : byte) (h : bytes) : leaf_node := MkLeafNode (ex_payload k (LSCommit h)) [x0a].
Definition ex_leaf_update (k : byte) : leaf_node := MkLeafNode (ex_payload k LSUpdate) [x0a].
Definition ex_parent (k : byte) (u : list N) : parent_node := MkParentNode [k; x33] [x44] u.
Definition ex_kp (k : byte) : key_package :=
  MkKeyPackage (MkKeyPackageTBS MLS10 Suite1 [k; x55] (ex_leaf k) []) [x66].
Definition ex_psk : psk_id := MkPskId (PResumption (MkResumption UseBranch (str "g") 7)) [x01; x02].
Definition ex_commit : commit :=
  MkCommit [PorProposal (PAdd (MkAdd (ex_kp x41))); PorReference [x99]; PorProposal (PRemove (MkRemove 3));
            PorProposal (PPreSharedKey (MkPskProposal ex_psk))]
           (Some (MkUpdatePath (ex_leaf_commit x42 [x01])
              [MkUpdatePathNode [x01; x02] [MkHpkeCiphertext [x03] [x04; x05]; MkHpkeCiphertext [] []]])).
Definition ex_gc : group_context :=
  MkGroupContext MLS10 Suite2 (str "group") 5 [x0a] [x0b; x0c] [MkExtension (ExtUnknown 0x0a0a) []].
Definition ex_framed (s : sender) (c : content) : framed_content := MkFramed (str "group") 5 s [x01] c.
Definition ex_public : public_message :=
  MkPublic (ex_framed (SMember 2) (CCommit ex_commit)) (MkAuth [x0e] [x0f]) (Some [x10]).
Definition ex_message : mls_message := MkMLSMessage MLS10 (WMPublic ex_public).
Definition ex_tree : ratchet_tree :=
  [Some (Leaf (ex_leaf x01)); Some (Parent (ex_parent x31 [1])); Some (Leaf (ex_leaf x02)); None;
   Some (Leaf (ex_leaf x03)); None; None].

Ltac u16_ex v := exists v; split; [reflexivity|reflexivity].
Ltac ex_wf :=
  repeat first
  [ exact I | reflexivity | discriminate
  | match goal with
    | |- _ /\ _ => split
    | |- Forall _ _ => constructor
    | |- from_u16 _ MLS10 => u16_ex 1
    | |- from_u16 _ (VersionUnsupported ?v) => u16_ex v
    | |- from_u16 _ Suite1 => u16_ex 1
    | |- from_u16 _ Suite2 => u16_ex 2
    | |- from_u16 _ Suite3 => u16_ex 3
    | |- from_u16 _ (SuiteUnknown ?v) => u16_ex v
    | |- from_u16 _ (ExtUnknown ?v) => u16_ex v
    | |- from_u16 _ ExtApplicationId => u16_ex 1
    | |- from_u16 _ CtBasic => u16_ex 1
    | |- from_u16 _ CtX509 => u16_ex 2
    | |- is_u64 _ => reflexivity
    | |- is_u32 _ => reflexivity
    | |- is_u16 _ => reflexivity
    end
  | progress cbn ].

Lemma ex_leaf_wf k : wf_leaf_node (ex_leaf k).
Proof. unfold wf_leaf_node, wf_leaf_payload, wf_capabilities, wf_leaf_node_source, wf_lifetime, wf_extensions, wf_extension. ex_wf. Qed.
Lemma ex_leaf_commit_wf k h : wf_leaf_node (ex_leaf_commit k h).
Proof. unfold wf_leaf_node, wf_leaf_payload, wf_capabilities, wf_leaf_node_source, wf_lifetime, wf_extensions, wf_extension. ex_wf. Qed.
Lemma ex_kp_wf k : wf_key_package (ex_kp k).
Proof.
  unfold wf_key_package, wf_key_package_tbs. cbn. split; [u16_ex 1|]. split; [u16_ex 1|].
  split; [apply ex_leaf_wf|constructor].
Qed.
Lemma ex_commit_wf : wf_commit ex_commit.
Proof.
  split; cbn; [|apply ex_leaf_commit_wf].
  repeat constructor; cbn; try apply ex_kp_wf. all: try (u16_ex 1). all: ex_wf.
  all: apply (ex_leaf_wf x41).
Qed.
Lemma ex_framed_wf i : is_u32 i -> wf_framed_content (ex_framed (SMember i) (CCommit ex_commit)).
Proof. intros H. split; [reflexivity|]. split; [exact H|exact ex_commit_wf]. Qed.
Lemma ex_message_wf : wf_mls_message ex_message.
Proof.
  split; [reflexivity|]. cbn. split; [apply ex_framed_wf; reflexivity|]. split; [exact I|discriminate].
Qed.
Lemma ex_gc_wf : wf_group_context ex_gc.
Proof. split; [reflexivity|]. split; [u16_ex 2|]. split; [reflexivity|]. constructor; [|constructor]. u16_ex 0x0a0a. Qed.
Lemma ex_tree_wf : wf_tree ex_tree.
Proof.
  unfold wf_tree, ex_tree.
  repeat (apply Forall_cons; [cbn [opt_P wf_node]; first [exact I | apply ex_leaf_wf | (repeat constructor)]|]).
  apply Forall_nil.
Qed.

(** Ok part of an outcome, for computing witnesses. *)
Definition ok_or {A} (d : A) (r : res A) : A := match r with Ok a => a | _ => d end.
