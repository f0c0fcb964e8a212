(** Model of welcomes, group info and groups: rmls/src/framing/welcome.rs, rmls/src/framing/group_info.rs, rmls/src/group/creation.rs. *)
From Verif Require Export KeyPackage KeySchedule.
Local Open Scope N_scope.

(** Models framing/welcome.rs:68-75 (find_secret). *)
Fixpoint find_egs (l : list encrypted_group_secrets) (r : bytes) : option encrypted_group_secrets :=
  match l with
  | [] => None
  | e :: l => if bytes_eqb (egs_new_member e) r then Some e else find_egs l r
  end.
(** Models framing/welcome.rs:68-75 (find_secret). *)
Definition find_secret (w : welcome) (r : bytes) : option encrypted_group_secrets := find_egs (w_secrets w) r.

(** Models framing/welcome.rs:77-97 (decrypt_group_secrets). *)
Definition decrypt_group_secrets (P : provider) (w : welcome) (r init_priv : bytes) : res group_secrets :=
  match find_secret w r with
  | Some e =>
      let* raw := decrypt_with_label P (w_suite w) init_priv (str "Welcome") (w_group_info w) (hc_kem_output (egs_secrets e)) (hc_ciphertext (egs_secrets e)) in
      de_exact de_group_secrets raw
  | None => Err EncryptedGroupSecretsNotFoundForProvidedKeyPackageRef
  end.

(** Models framing/welcome.rs:105-129: the nonce and key of the encrypted group info. *)
Definition welcome_key_nonce (P : provider) (cs : cipher_suite) (joiner psk : bytes) : res (bytes * bytes) :=
  let* ws := extract_welcome_secret P cs joiner psk in
  let* k := p_hpke P cs in
  let* nonce := expand_with_label P cs ws (str "nonce") [] (a_nonce_size k mod 65536) in
  let* key := expand_with_label P cs ws (str "key") [] (a_key_size k mod 65536) in
  Ok (key, nonce).
(** Models framing/welcome.rs:99-138 (decrypt_group_info). *)
Definition decrypt_group_info (P : provider) (w : welcome) (joiner psk : bytes) : res group_info :=
  let* (key, nonce) := welcome_key_nonce P (w_suite w) joiner psk in
  let* k := p_hpke P (w_suite w) in
  let* raw := a_open k key nonce (w_group_info w) [] in
  de_exact de_group_info raw.

(** Models framing/group_info.rs:68-85 (GroupInfo::verify_signature). *)
Definition group_info_verify_signature (P : provider) (g : group_info) (pk : bytes) : res unit :=
  let* tbs := se_group_info_base g in
  verify_with_label P (gc_suite (gi_context g)) pk (str "GroupInfoTBS") tbs (gi_signature g).

(** Models framing/group_info.rs:87-106 (GroupInfo::verify_confirmation_tag). *)
Definition group_info_verify_tag (P : provider) (g : group_info) (joiner psk : bytes) : res unit :=
  let cs := gc_suite (gi_context g) in
  let* es := extract_epoch_secret P (gi_context g) joiner psk in
  let* key := derive_secret P cs es label_confirm in
  verify_mac P cs key (gc_confirmed (gi_context g)) (gi_confirmation_tag g).

(** Models group/mod.rs:22-28 (Group), group/config.rs:3-6, crypto/config.rs:4-8. *)
Record group : Type := MkGroup { g_version : protocol_version; g_suite : cipher_suite; g_credential : credential; g_signature_key : bytes; g_group_id : bytes }.
(** Models the derived Default at group/mod.rs:22. *)
Definition default_group : group := MkGroup MLS10 Suite1 (CredBasic []) [] [].

(** Models group/creation.rs:17-38 (Group::new); [fill n] is the outcome of filling a buffer of [n] random bytes. *)
Definition group_new (fill : N -> res bytes) (v : protocol_version) (cs : cipher_suite) (cred : credential) (skp : signature_key_pair) (id : option bytes) : res group :=
  let* gid := match id with Some i => Ok i | None => fill 16 end in
  Ok (MkGroup v cs cred (skp_public skp) gid).

(** Models group/creation.rs:46-52: the first entry of the welcome that the store knows. *)
Fixpoint find_stored (s : key_store) (l : list encrypted_group_secrets) : option bytes :=
  match l with
  | [] => None
  | e :: l => match ks_retrieve s (egs_new_member e) with Some v => Some v | None => find_stored s l end
  end.
(** [Option::ok_or] (group/creation.rs:51, 61). *)
Definition ok_or_no_match {A} (o : option A) : res A := match o with Some x => Ok x | None => Err NoMatchingKeyPackage end.
(** Models group/creation.rs:40-68 (Group::from_welcome): the store afterwards and the result. *)
Definition from_welcome (P : provider) (s : key_store) (w : welcome) : key_store * res group :=
  sbind s (ok_or_no_match (find_stored s (w_secrets w))) (fun raw =>
  sbind s (de_exact de_key_package raw) (fun kp =>
  sbind s (generate_ref P kp) (fun ref =>
  let s := ks_delete s ref in
  sbind s (ok_or_no_match (ks_retrieve s (kp_init_key (kp_payload kp)))) (fun rawi =>
  sbind s (de_exact de_secret_key rawi) (fun _ =>
  let s := ks_delete s (kp_init_key (kp_payload kp)) in
  (s, Ok default_group)))))).

(** The same call as a thread that shares the store: one step for each access to the store (each takes the lock
    once). Models group/creation.rs:40-68. *)
Inductive thread : Type :=
| TSearch (l : list encrypted_group_secrets)      (** find_map, creation.rs:48-50: entries still to look up *)
| TDeletePackage (kp : key_package) (ref : bytes)  (** creation.rs:53-55 *)
| TInit (kp : key_package)                         (** creation.rs:57-62 *)
| TDeleteInit (kp : key_package)                   (** creation.rs:63-65 *)
| TDone (r : res group).
(** The thread after reading a stored package: group/creation.rs:46-55. *)
Definition found (P : provider) (raw : bytes) : thread :=
  match (let* kp := de_exact de_key_package raw in let* ref := generate_ref P kp in Ok (kp, ref)) with
  | Ok (kp, ref) => TDeletePackage kp ref
  | Err e => TDone (Err e) | Panic => TDone Panic | Hang => TDone Hang
  end.
(** One access to the store of group/creation.rs:40-68, and what follows up to the next one. *)
Definition thread_step (P : provider) (s : key_store) (t : thread) : key_store * thread :=
  match t with
  | TSearch [] => (s, TDone (Err NoMatchingKeyPackage))
  | TSearch (e :: l) => match ks_retrieve s (egs_new_member e) with Some v => (s, found P v) | None => (s, TSearch l) end
  | TDeletePackage kp ref => (ks_delete s ref, TInit kp)
  | TInit kp =>
      match ks_retrieve s (kp_init_key (kp_payload kp)) with
      | None => (s, TDone (Err NoMatchingKeyPackage))
      | Some raw => match de_exact de_secret_key raw with
                    | Ok _ => (s, TDeleteInit kp)
                    | Err e => (s, TDone (Err e)) | Panic => (s, TDone Panic) | Hang => (s, TDone Hang)
                    end
      end
  | TDeleteInit kp => (ks_delete s (kp_init_key (kp_payload kp)), TDone (Ok default_group))
  | TDone r => (s, TDone r)
  end.
