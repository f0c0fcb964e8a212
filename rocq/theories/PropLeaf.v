(** Properties C31, C33, C34 and C35: credentials, leaf lookup, leaf validation, lifetimes. *)
From Verif Require Import LeafFacts.
Local Open Scope N_scope.

(* ------------------------------------------------------------------------------------------- *)
(** * C31 *)

Theorem C31_refuted_accepts : exists t d cs, good t d /\ supported_creds t = Ok cs /\ In CtX509 cs /\
  exists i l, leaf_at t i = Some l /\ ~ In CtX509 (cap_credentials (lp_capabilities (ln_payload l))).
Proof. exact c31_refuted_accepts. Qed.
Print Assumptions C31_refuted_accepts.

Theorem C31_refuted_rejects : exists t d cs, good t d /\ supported_creds t = Ok cs /\ ~ In CtBasic cs /\ (exists i l, leaf_at t i = Some l) /\
  forall i l, leaf_at t i = Some l -> In CtBasic (cap_credentials (lp_capabilities (ln_payload l))).
Proof. exact c31_refuted_rejects. Qed.
Print Assumptions C31_refuted_rejects.

(** The property holds when there is a member and no member lists a type twice. *)
Theorem C31_supported_partial : forall t d, tsized t d -> tlen t < 4294967296 -> (exists i l, leaf_at t i = Some l) ->
  (forall i l, leaf_at t i = Some l -> NoDup (cap_credentials (lp_capabilities (ln_payload l)))) ->
  exists cs, supported_creds t = Ok cs /\
    forall ct, In ct cs <-> forall i l, leaf_at t i = Some l -> In ct (cap_credentials (lp_capabilities (ln_payload l))).
Proof. exact c31. Qed.
Print Assumptions C31_supported_partial.

(** In general: the types that the members' lists, put together, name as many times as there are members. *)
Theorem C31_exact : forall t d dec, tsized t d -> tlen t < 4294967296 ->
  exists cs ls, supported_creds t = Ok cs /\ NoDup (map fst ls) /\ (forall i l, In (i, l) ls <-> leaf_at t i = Some l) /\
    forall ct, In ct cs <-> ls <> [] /\
      count_occ dec (concat (map (fun il => cap_credentials (lp_capabilities (ln_payload (snd il)))) ls)) ct = length ls.
Proof. exact c31_exact. Qed.
Print Assumptions C31_exact.

Example C31_example : tsized ex_tree 2 /\ leaf_at ex_tree 0 = Some (ex_leaf x01) /\
  NoDup (cap_credentials (lp_capabilities (ln_payload (ex_leaf x01)))) /\ supported_creds ex_tree = Ok [CtBasic; CtX509].
Proof.
  split; [left; reflexivity|]. split; [reflexivity|]. split; [|reflexivity].
  constructor; [intros [Q|[]]; discriminate|constructor; [intros []|constructor]].
Qed.

(* ------------------------------------------------------------------------------------------- *)
(** * C33 *)

(** When no two members share an encryption key (which integrity verification ensures, C24), lookup succeeds iff the
    leaf is in the tree, and gives its position. *)
Theorem C33_find_leaf_partial : forall t d node i p, tsized t d -> tlen t < 4294967296 ->
  wf_leaf_node node -> (forall a l, leaf_at t a = Some l -> wf_leaf_node l) ->
  (forall a b l l', leaf_at t a = Some l -> leaf_at t b = Some l' ->
     lp_encryption_key (ln_payload l) = lp_encryption_key (ln_payload l') -> a = b) ->
  se_leaf_node node = Ok p ->
  (find_leaf t node = Ok (i, true) <-> leaf_at t i = Some node /\ forall j, leaf_at t j = Some node -> i <= j) /\
  ((exists j, leaf_at t j = Some node) <-> exists j, find_leaf t node = Ok (j, true)).
Proof. exact c33. Qed.
Print Assumptions C33_find_leaf_partial.

(** A reported position is right on every tree. *)
Theorem C33_find_leaf_sound : forall t d node i, tsized t d -> tlen t < 4294967296 ->
  wf_leaf_node node -> (forall a l, leaf_at t a = Some l -> wf_leaf_node l) ->
  find_leaf t node = Ok (i, true) -> get_leaf t i = Ok (Some node) /\ forall j, leaf_at t j = Some node -> i <= j.
Proof. exact c33_sound. Qed.
Print Assumptions C33_find_leaf_sound.

(** With a shared encryption key a leaf of the tree may not be found. *)
Theorem C33_refuted : exists t d node j, tsized t d /\ tlen t < 4294967296 /\
  wf_leaf_node node /\ (forall a l, leaf_at t a = Some l -> wf_leaf_node l) /\
  leaf_at t j = Some node /\ find_leaf t node = Ok (0, false).
Proof. exact c33_refuted. Qed.
Print Assumptions C33_refuted.

Example C33_example : tsized ex_tree 2 /\ wf_leaf_node (ex_leaf x03) /\ find_leaf ex_tree (ex_leaf x03) = Ok (2, true).
Proof. split; [left; reflexivity|]. split; [apply ex_leaf_wf|]. vm_compute. reflexivity. Qed.

(* ------------------------------------------------------------------------------------------- *)
(** * C34 *)

(** [lifetime_accepted] is C35's condition. [leaf_signed] says that the signature verifies over the leaf's contents with group id and position. *)
Theorem C34_leaf_verify : forall P l o, leaf_verify P l o = Ok tt <->
  leaf_signed P (lo_suite o) l (lo_group_id o) (lo_leaf_index o) /\
  In (credential_type_of (lp_credential (ln_payload l))) (lo_supported_creds o) /\
  (forall lt, lp_source (ln_payload l) = LSKeyPackage lt -> (0 < lo_now o)%Z -> lifetime_accepted lt (lo_now o)) /\
  (forall e, In e (lp_extensions (ln_payload l)) -> In (ext_type e) (cap_extensions (lp_capabilities (ln_payload l)))) /\
  ~ In (lp_signature_key (ln_payload l)) (lo_signature_keys o) /\
  ~ In (lp_encryption_key (ln_payload l)) (lo_encryption_keys o).
Proof. exact leaf_verify_iff. Qed.
Print Assumptions C34_leaf_verify.

(** The signed bytes determine the whole payload and, for update and commit leaves, group id and position. *)
Theorem C34_signed_bytes : forall p p' g g' i i' b b' m,
  wf_leaf_payload p -> wf_leaf_payload p' -> i < 4294967296 -> i' < 4294967296 ->
  se_leaf_node_tbs p (TIUpdateOrCommit g i) = Ok b -> se_leaf_node_tbs p' (TIUpdateOrCommit g' i') = Ok b' ->
  mls_prefix_label_data (str "LeafNodeTBS") b = Ok m -> mls_prefix_label_data (str "LeafNodeTBS") b' = Ok m ->
  p = p' /\ ((forall lt, lp_source p <> LSKeyPackage lt) -> g = g' /\ i = i').
Proof. exact leaf_signed_inj. Qed.
Print Assumptions C34_signed_bytes.

(** Required capabilities are not looked at: integrity verification accepts a member that lacks one. *)
Theorem C34_refuted_required : exists P t ctx now r, verify_integrity P t ctx now = Ok tt /\
  find_extension_data (gc_extensions ctx) ExtRequiredCapabilities <> None /\
  (forall b, find_extension_data (gc_extensions ctx) ExtRequiredCapabilities = Some b -> de_required_capabilities b = Ok (r, [])) /\
  exists e i l, In e (rc_extensions r) /\ leaf_at t i = Some l /\ ~ In e (cap_extensions (lp_capabilities (ln_payload l))).
Proof. exact c34_refuted_required. Qed.
Print Assumptions C34_refuted_required.

(** Nor is the source: a key-package leaf is judged the same in every group and position. *)
Theorem C34_refuted_source : forall P l o g i lt, lp_source (ln_payload l) = LSKeyPackage lt ->
  leaf_verify P l o = leaf_verify P l (MkLeafOptions (lo_suite o) g i (lo_supported_creds o) (lo_signature_keys o) (lo_encryption_keys o) (lo_now o)).
Proof. exact leaf_verify_any_group. Qed.
Print Assumptions C34_refuted_source.

Example C34_example :
  leaf_verify toy (ex_signed x01 LSUpdate (str "group") 3) (ex_options 3) = Ok tt /\
  leaf_verify toy (ex_signed x01 LSUpdate (str "group") 3) (ex_options 4) = Err LeafNodeSignatureVerificationFailed /\
  leaf_verify toy (ex_signed x99 LSUpdate (str "group") 3) (ex_options 3) = Err DuplicateSignatureKeyInRatchetTree.
Proof. vm_compute. auto. Qed.

(* ------------------------------------------------------------------------------------------- *)
(** * C35 *)

(** Times are nanoseconds since 1970, lifetimes in microseconds. A lifetime is accepted iff it has expired and is at
    least 36 minutes long. *)
Theorem C35_lifetime : forall l t, lifetime_verify l t = true <->
  (Z.of_N (not_after l) * 1000 < t)%Z /\ not_before l + 2160000000 <= not_after l.
Proof. exact lifetime_iff. Qed.
Print Assumptions C35_lifetime.

(** So everyone whose lifetime covers the present is refused. *)
Theorem C35_refuted : forall l t, (Z.of_N (not_before l) * 1000 <= t <= Z.of_N (not_after l) * 1000)%Z -> lifetime_verify l t = false.
Proof. exact lifetime_inverted. Qed.
Print Assumptions C35_refuted.

Example C35_example : lifetime_verify (MkLifetime 0 2160000000) 2160000000001%Z = true /\ lifetime_verify (MkLifetime 0 2160000000) 1000%Z = false.
Proof. vm_compute. auto. Qed.
