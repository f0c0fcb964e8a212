(** C85: a signature that the library accepts under a key is the owner's, on that statement and for that purpose. *)
From Verif Require Import AuthFacts LeafFacts SpecAuth ExProvider.
Local Open Scope N_scope.

(** No byte string is the signed text of two statements with different meanings: not of two kinds, and not of two places, packages,
    group states or contents of one kind. *)
Theorem C85_one_meaning : forall s s', sayable s -> sayable s' -> signed_text s = signed_text s' -> same_said s s'.
Proof. exact one_meaning. Qed.
Print Assumptions C85_one_meaning.

(** A leaf that is accepted was stated by the owner of its key, for this group and this position unless it came with a key package. *)
Theorem C85_leaf : forall P pk log l o, only_said P (lo_suite o) pk log -> wf_leaf_payload (ln_payload l) -> lo_leaf_index o < 4294967296 ->
  lp_signature_key (ln_payload l) = pk -> leaf_verify P l o = Ok tt -> is_said log (SaidLeaf (ln_payload l) (lo_group_id o) (lo_leaf_index o)).
Proof. exact c85_leaf. Qed.
Print Assumptions C85_leaf.

(** So was every leaf of an accepted tree. *)
Theorem C85_tree : forall P t d ctx now pk log i l, tsized t d -> tlen t < 4294967296 -> (forall x nd, tget t x = Some nd -> in_tree d x) ->
  verify_integrity P t ctx now = Ok tt -> only_said P (gc_suite ctx) pk log ->
  i < 4294967296 -> leaf_at t i = Some l -> wf_leaf_payload (ln_payload l) -> lp_signature_key (ln_payload l) = pk ->
  is_said log (SaidLeaf (ln_payload l) (gc_group_id ctx) i).
Proof. exact c85_tree. Qed.
Print Assumptions C85_tree.

Theorem C85_package : forall P pk log kp ctx, only_said P (kp_suite (kp_payload kp)) pk log -> wf_key_package_tbs (kp_payload kp) ->
  lp_signature_key (ln_payload (kp_leaf (kp_payload kp))) = pk -> key_package_verify P kp ctx = Ok tt -> is_said log (SaidPackage (kp_payload kp)).
Proof. exact c85_package. Qed.
Print Assumptions C85_package.

Theorem C85_info : forall P pk log g, only_said P (gc_suite (gi_context g)) pk log -> wf_group_info g ->
  group_info_verify_signature P g pk = Ok tt -> is_said log (SaidInfo g).
Proof. exact c85_info. Qed.
Print Assumptions C85_info.

Theorem C85_content : forall P cs pk log a ctx, only_said P cs pk log -> wf_framed_content (ac_content a) -> wf_group_context ctx ->
  verify_content_signature P cs a pk ctx = Ok tt -> is_said log (SaidContent (ac_wire_format a) (ac_content a) ctx).
Proof. exact c85_content. Qed.
Print Assumptions C85_content.

(** What the library itself signs is the text of one of these statements. (It signs leaves and key packages with the public key, see C51.) *)
Theorem C85_signs : forall P cs,
  (forall sk w c ctx a, new_auth_content P cs sk w c ctx = Ok a ->
     exists s, p_sig P cs = Ok s /\ s_sign s sk (signed_text (SaidContent w c ctx)) = Ok (ad_signature (ac_auth a))) /\
  (forall fill cred skp src caps exts g i l kp, leaf_node_new P fill cs cred skp src caps exts (TIUpdateOrCommit g i) = Ok (l, kp) ->
     exists s, p_sig P cs = Ok s /\ s_sign s (skp_public skp) (signed_text (SaidLeaf (ln_payload l) g i)) = Ok (ln_signature l)) /\
  (forall fill v cred skp lt kexts caps lexts init k kp, key_package_from_keys P fill v cs cred skp lt kexts caps lexts init = Ok (k, kp) ->
     exists s, p_sig P cs = Ok s /\ s_sign s (skp_public skp) (signed_text (SaidPackage (kp_payload k))) = Ok (kp_signature k) /\
       let l := kp_leaf (kp_payload k) in forall g i, s_sign s (skp_public skp) (signed_text (SaidLeaf (ln_payload l) g i)) = Ok (ln_signature l)).
Proof. exact c85_signs. Qed.
Print Assumptions C85_signs.

(** A key that was used for a leaf at position 3, a key package and a message: the leaf and the message are accepted where they were made for,
    the leaf is refused at position 4, and the message by members in another epoch. *)
Example C85_example :
  let P := log_provider ex_log in let leaf := ex_signed x01 LSUpdate (str "group") 3 in
  let msg := MkAuthContent WFPublicMessage (ex_framed (SMember 3) (CApplication [x07])) (MkAuth [x01] []) in
  (forall cs pk, only_said P cs pk ex_log) /\
  leaf_verify P leaf (ex_options 3) = Ok tt /\ leaf_verify P leaf (ex_options 4) = Err LeafNodeSignatureVerificationFailed /\
  verify_content_signature P Suite1 msg [x01; x21] ex_gc = Ok tt /\
  verify_content_signature P Suite1 msg [x01; x21] (MkGroupContext MLS10 Suite2 (str "group") 6 [x0a] [] []) = Err RustCryptoError /\
  is_said ex_log ex_said_content /\ ~ is_said ex_log (SaidLeaf (ln_payload leaf) (str "group") 4).
Proof.
  cbv zeta. split; [exact ex_log_only|]. split; [vm_compute; reflexivity|]. split; [vm_compute; reflexivity|]. split; [vm_compute; reflexivity|].
  split; [vm_compute; reflexivity|]. split.
  - exists ex_said_content. split; [right; right; left; reflexivity|]. cbn. auto.
  - intros (s & [<-|[<-|[<-|[]]]] & H); [|exact H|exact H]. destruct H as [_ H]. destruct H as [_ H]; [intros lt Q; discriminate Q|discriminate H].
Qed.
