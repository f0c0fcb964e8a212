(** Model of the methods of ratchet_tree/leaf_node.rs (the data types and codecs are in Wire.v). *)
From Verif Require Export Crypto.
Local Open Scope N_scope.

(** Derived PartialEq of CredentialType (crypto/credential.rs:12-20). *)
Definition credential_type_eqb (a b : credential_type) : bool :=
  match a, b with
  | CtBasic, CtBasic | CtX509, CtX509 => true
  | CtUnknown v, CtUnknown w => v =? w
  | _, _ => false
  end.

(** HashSet::contains (ratchet_tree/leaf_node.rs:484, 503, 512, 517); a set is a list of its elements, in any order, possibly repeated. *)
Definition mem {A} (eqb : A -> A -> bool) (x : A) (l : list A) : bool := existsb (eqb x) l.

(** std::time::SystemTime: nanoseconds relative to UNIX_EPOCH, possibly negative. A lifetime bound is at
    most 2^64 microseconds, which SystemTime (64-bit seconds) represents, so [UNIX_EPOCH.add] at
    leaf_node.rs:242-248 does not overflow. *)
Notation time := Z (only parsing).

(** Models ratchet_tree/leaf_node.rs:242-244 (Lifetime::not_before_time). *)
Definition not_before_time (l : lifetime) : time := (Z.of_N (not_before l) * 1000)%Z.
(** Models ratchet_tree/leaf_node.rs:246-248 (Lifetime::not_after_time). *)
Definition not_after_time (l : lifetime) : time := (Z.of_N (not_after l) * 1000)%Z.
(** Models ratchet_tree/leaf_node.rs:200 (MAX_LEAF_NODE_LIFETIME), in nanoseconds. *)
Definition max_lifetime : Z := (3 * 30 * 24 * 1000000000)%Z.

(** Models ratchet_tree/leaf_node.rs:252-264 (Lifetime::verify); [duration_since] is Ok iff the difference
    is not negative. *)
Definition lifetime_verify (l : lifetime) (t : time) : bool :=
  let nb := not_before_time l in
  let na := not_after_time l in
  if (nb <=? na)%Z
  then let d := (na - nb)%Z in
       if (d =? 0)%Z || (d <? max_lifetime)%Z then false
       else (nb <? t)%Z && (na <? t)%Z
  else false.

(** Models ratchet_tree/leaf_node.rs:16. *)
Definition leaf_node_label : bytes := str "LeafNodeTBS".

(** Models ratchet_tree/leaf_node.rs:393-431 (LeafNode::new). [fill n] is the outcome of filling a
    buffer of [n] random bytes. The signing key is the pair's public key, as in the code (line 425). *)
Definition leaf_node_new (P : provider) (fill : N -> res bytes) (cs : cipher_suite) (cred : credential)
    (skp : signature_key_pair) (src : leaf_node_source) (caps : capabilities) (exts : list extension)
    (ti : tree_info_tbs) : res (leaf_node * hpke_key_pair) :=
  let* h := p_hash P cs in
  let* ikm := fill (h_size h) in
  let* k := p_hpke P cs in
  let* ekp := k_derive_key_pair k ikm in
  let payload := MkLeafPayload (hkp_public ekp) (skp_public skp) cred caps src exts in
  let* tbs := se_leaf_node_tbs payload ti in
  let* sig := sign_with_label P cs (skp_public skp) leaf_node_label tbs in
  Ok (MkLeafNode payload sig, ekp).

(** [result.is_ok()] (ratchet_tree/leaf_node.rs:460): a panic inside the call is still a panic. *)
Definition is_ok {A} (m : res A) : res bool :=
  match m with Ok _ => Ok true | Err _ => Ok false | Panic => Panic | Hang => Hang end.

(** Models ratchet_tree/leaf_node.rs:437-461 (LeafNode::verify_signature). *)
Definition leaf_verify_signature (P : provider) (cs : cipher_suite) (l : leaf_node) (ti : tree_info_tbs) : res bool :=
  match se_leaf_node_tbs (ln_payload l) ti with
  | Ok tbs => is_ok (verify_with_label P cs (lp_signature_key (ln_payload l)) leaf_node_label tbs (ln_signature l))
  | Err _ => Ok false
  | Panic => Panic
  | Hang => Hang
  end.

(** Models ratchet_tree/leaf_node.rs:527-535 (LeafNodeVerifyOptions); [now] is the value the clock returns. *)
Record leaf_options : Type := MkLeafOptions {
  lo_suite : cipher_suite;
  lo_group_id : bytes;
  lo_leaf_index : N;
  lo_supported_creds : list credential_type;
  lo_signature_keys : list bytes;
  lo_encryption_keys : list bytes;
  lo_now : time }.

(** Models the loop at ratchet_tree/leaf_node.rs:502-510: the first extension not in [supported]. *)
Fixpoint check_extensions (supported : list extension_type) (l : list extension) : res unit :=
  match l with
  | [] => Ok tt
  | e :: r =>
      if mem extension_type_eqb (ext_type e) supported then check_extensions supported r
      else Err (ExtensionTypeUsedByLeafNodeNotSupportedByThatLeafNode (u16_of_extension_type (ext_type e)))
  end.

(** Models ratchet_tree/leaf_node.rs:466-523 (LeafNode::verify). *)
Definition leaf_verify (P : provider) (l : leaf_node) (o : leaf_options) : res unit :=
  let p := ln_payload l in
  let* sig_ok := leaf_verify_signature P (lo_suite o) l (TIUpdateOrCommit (lo_group_id o) (lo_leaf_index o)) in
  if negb sig_ok then Err LeafNodeSignatureVerificationFailed else
  let ct := credential_type_of (lp_credential p) in
  if negb (mem credential_type_eqb ct (lo_supported_creds o))
  then Err (CredentialTypeUsedByLeafNodeNotSupportedByAllMembers (u16_of_credential_type ct)) else
  let bad_lifetime :=
    match lp_source p with
    | LSKeyPackage lt => (0 <? lo_now o)%Z && negb (lifetime_verify lt (lo_now o))
    | _ => false
    end in
  if bad_lifetime then Err LifetimeVerificationFailed else
  let* _ := check_extensions (cap_extensions (lp_capabilities p)) (lp_extensions p) in
  if mem bytes_eqb (lp_signature_key p) (lo_signature_keys o) then Err DuplicateSignatureKeyInRatchetTree else
  if mem bytes_eqb (lp_encryption_key p) (lo_encryption_keys o) then Err DuplicateEncryptionKeyInRatchetTree else
  Ok tt.
