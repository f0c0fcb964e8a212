(** Model of how the project's own tests use the library as a client: join from a welcome
    (rmls/src/utilities/serde/serde_test.rs) and exchange public messages (rmls/src/group/group_test.rs). A failed
    assertion of the test is a panic. *)
From Verif Require Export Messages Group RatchetTree Proposals.
Local Open Scope N_scope.

(** [assert!(b)]. *)
Definition assert (b : bool) : res unit := if b then Ok tt else Panic.
(** [assert!(m.is_ok())]. *)
Definition assert_ok {A} (m : res A) : res unit := let* b := is_ok m in assert b.

(** Models serde_test.rs:312-316 (deserialize_message), for a welcome and for a key package. *)
Definition welcome_of (bs : bytes) : res welcome :=
  let* m := de_exact de_mls_message bs in
  match mm_wire m with WMWelcome w => Ok w | _ => Panic end.
(** See [welcome_of]. *)
Definition key_package_of (bs : bytes) : res key_package :=
  let* m := de_exact de_mls_message bs in
  match mm_wire m with WMKeyPackage k => Ok k | _ => Panic end.

(** Models serde_test.rs:113-120: the first external PSK with the id. *)
Fixpoint find_psk (known : list (bytes * bytes)) (id : bytes) : option bytes :=
  match known with
  | [] => None
  | (i, p) :: r => if bytes_eqb i id then Some p else find_psk r id
  end.
(** Models serde_test.rs:109-125: the PSKs the welcome asks for. *)
Fixpoint psks_for (known : list (bytes * bytes)) (ids : list psk_id) : res (list bytes) :=
  match ids with
  | [] => Ok []
  | i :: r => match pi_psk i with
              | PExternal id => match find_psk known id with
                                | Some p => let* l := psks_for known r in Ok (p :: l)
                                | None => Panic
                                end
              | _ => Panic
              end
  end.

(** What the new member ends up with. *)
Record joined : Type := MkJoined {
  jn_tree : ratchet_tree; jn_info : group_info; jn_joiner : bytes; jn_psk : bytes; jn_epoch : bytes }.

(** Models serde_test.rs:66-198, from the bytes of key package and welcome to the epoch secret. [tree] is a tree received
    apart from the welcome, if any; the clock gives 1970, which turns the lifetime check off. The checks of the key pairs
    in the test vector (86-103) are left out. *)
Definition passive_join (P : provider) (cs : cipher_suite) (known : list (bytes * bytes)) (kpb init_priv wb : bytes) (tree : option bytes) : res joined :=
  let* w := welcome_of wb in
  let* kp := key_package_of kpb in
  let* ref := generate_ref P kp in
  let* gs := decrypt_group_secrets P w ref init_priv in
  let* one := single_reinit_or_branch gs in
  let* _ := assert one in
  let* psks := psks_for known (gs_psk_ids gs) in
  let* psk := extract_psk_secret P cs (gs_psk_ids gs) psks in
  let* gi := decrypt_group_info P w (gs_joiner_secret gs) psk in
  let* raw := match tree with
              | Some raw => Ok raw
              | None => match find_extension_data (gi_extensions gi) ExtRatchetTree with Some raw => Ok raw | None => Err OtherError end
              end in
  let* t := de_exact de_ratchet_tree raw in
  let* signer := get_leaf t (gi_signer gi) in
  match signer with
  | None => Err OtherError
  | Some signer =>
      let* _ := assert_ok (group_info_verify_signature P gi (lp_signature_key (ln_payload signer))) in
      let* _ := assert_ok (group_info_verify_tag P gi (gs_joiner_secret gs) psk) in
      let* _ := assert (suite_eqb (gc_suite (gi_context gi)) (kp_suite (kp_payload kp))) in
      let* _ := verify_integrity P t (gi_context gi) (fun _ => 0%Z) in
      let* (_, found) := find_leaf t (kp_leaf (kp_payload kp)) in
      let* _ := assert found in
      let* e := extract_epoch_secret P (gi_context gi) (gs_joiner_secret gs) psk in
      Ok (MkJoined t gi (gs_joiner_secret gs) psk e)
  end.

(** Models group_test.rs:161-171: frame, sign and tag a content for the group, and encode it as a message. *)
Definition send_public (P : provider) (cs : cipher_suite) (ctx : group_context) (sk membership_key : bytes) (c : framed_content) : res bytes :=
  let* m := new_public_message P cs sk c ctx in
  let* m := sign_membership_tag P cs m membership_key ctx in
  se_mls_message (MkMLSMessage MLS10 (WMPublic m)).
(** Models group_test.rs:153-159 and 176-200: decode, verify signature and tag. *)
Definition receive_public (P : provider) (cs : cipher_suite) (ctx : group_context) (pk membership_key : bytes) (b : bytes) : res framed_content :=
  let* m := de_exact de_mls_message b in
  match mm_wire m with
  | WMPublic m =>
      let* _ := assert_ok (verify_content_signature P cs (public_auth_content m) pk ctx) in
      let* _ := assert_ok (verify_membership_tag P cs m membership_key ctx) in
      Ok (pm_content m)
  | _ => Panic
  end.
