(** Properties C56, C58, C63 and C64: welcomes, group info and the group a member gets (SpecWelcome.v). *)
From Verif Require Import MessageFacts WelcomeFacts.
From Verif Require Import WireWF SpecWelcome ExKeys.
Local Open Scope N_scope.

(* ------------------------------------------------------------------------------------------- *)
(** * C56 *)

Theorem C56_found : forall w r e, find_secret w r = Some e <-> first_entry (w_secrets w) r e.
Proof. exact c56_find. Qed.
Print Assumptions C56_found.
Theorem C56_absent : forall w r, find_secret w r = None <-> forall x, In x (w_secrets w) -> egs_new_member x <> r.
Proof. exact c56_absent. Qed.
Print Assumptions C56_absent.

(** What was encrypted to the member's init key for its reference, with the encrypted group info as context, is what it gets. *)
Theorem C56_group_secrets : forall P w r sk pk ent gs raw e kem ct, hpke_pair_ok P (w_suite w) sk pk -> wf_group_secrets gs -> se_group_secrets gs = Ok raw ->
  encrypt_with_label P (w_suite w) ent pk (str "Welcome") (w_group_info w) raw = Ok (kem, ct) ->
  first_entry (w_secrets w) r e -> egs_secrets e = MkHpkeCiphertext kem ct ->
  decrypt_group_secrets P w r sk = Ok gs.
Proof. exact c56_secrets. Qed.
Print Assumptions C56_group_secrets.
(** Exactly when and to what it decrypts. *)
Theorem C56_group_secrets_iff : forall P w r sk gs, decrypt_group_secrets P w r sk = Ok gs <->
  In (w_suite w) [Suite1; Suite2; Suite3] /\ fits30 (w_group_info w) /\
  exists e raw rest, first_entry (w_secrets w) r e /\
    p_base_open P (w_suite w) sk (labelled (str "Welcome") (w_group_info w)) (hc_kem_output (egs_secrets e)) (hc_ciphertext (egs_secrets e)) = Ok raw /\
    de_group_secrets raw = Ok (gs, rest).
Proof. exact c56_secrets_iff. Qed.
Print Assumptions C56_group_secrets_iff.

(** The group info that was sealed under the welcome key is what the joiner gets. *)
Theorem C56_group_info : forall P w k joiner psk gi key nonce raw, p_hpke P (w_suite w) = Ok k -> aead_ok P (w_suite w) -> welcome_keys k joiner psk key nonce ->
  wf_group_info gi -> se_group_info gi = Ok raw -> a_seal k key nonce raw [] = Ok (w_group_info w) -> decrypt_group_info P w joiner psk = Ok gi.
Proof. exact c56_info. Qed.
Print Assumptions C56_group_info.
Theorem C56_group_info_iff : forall P w k joiner psk gi, p_hpke P (w_suite w) = Ok k ->
  (decrypt_group_info P w joiner psk = Ok gi <->
   exists key nonce raw rest, welcome_keys k joiner psk key nonce /\ a_open k key nonce (w_group_info w) [] = Ok raw /\ de_group_info raw = Ok (gi, rest)).
Proof. exact c56_info_iff. Qed.
Print Assumptions C56_group_info_iff.

(** A whole welcome: group info and two members' secrets. *)
Definition ex_gi : group_info := MkGroupInfo ex_ctx1 [MkExtension (ExtUnknown 0x0a0a) [x01]] [x0d] 1 [x0e; x0f].
Definition ex_gs : group_secrets := MkGroupSecrets (str "joiner") (Some [x01; x02]) [ex_psk].
Definition ex_wkeys : bytes * bytes := ok_or ([], []) (welcome_key_nonce toy Suite1 (str "joiner") []).
Definition ex_egi : bytes := ok_or [] (a_seal toy_hpke (fst ex_wkeys) (snd ex_wkeys) (ok_or [] (se_group_info ex_gi)) []).
Definition ex_sealed (pk : bytes) : hpke_ciphertext :=
  let '(kem, ct) := ok_or ([], []) (encrypt_with_label toy Suite1 [x0a] pk (str "Welcome") ex_egi (ok_or [] (se_group_secrets ex_gs))) in MkHpkeCiphertext kem ct.
Definition ex_full : welcome := MkWelcome Suite1 [MkEGS (str "alice") (ex_sealed [x01; x41]); MkEGS (str "bob") (ex_sealed [x01; x42])] ex_egi.
Lemma toy_hpke_pair cs sk : hpke_pair_ok toy cs sk (x01 :: sk).
Proof.
  intros info e p kem ct H. cbn [toy p_base_seal p_base_open] in *. apply CodecLib.Ok_inj in H. injection H as <- <-. unfold toy_strip.
  assert (E : (x01 :: sk ++ info ++ e ++ p)%list = (((x01 :: sk) ++ info ++ e) ++ p)%list) by (cbn; rewrite <- !app_assoc; reflexivity). rewrite E.
  rewrite firstn_app, Nat.sub_diag, firstn_all, firstn_O, app_nil_r, bytes_eqb_refl, skipn_app, Nat.sub_diag, skipn_all. reflexivity.
Qed.
Example C56_example : hpke_pair_ok toy Suite1 [x42] [x01; x42] /\ aead_ok toy Suite1 /\
  decrypt_group_secrets toy ex_full (str "bob") [x42] = Ok ex_gs /\ decrypt_group_info toy ex_full (str "joiner") [] = Ok ex_gi /\
  find_secret ex_full (str "carol") = None /\
  decrypt_group_secrets toy ex_full (str "carol") [x42] = Err EncryptedGroupSecretsNotFoundForProvidedKeyPackageRef /\
  decrypt_group_secrets toy ex_full (str "alice") [x42] = Err RustCryptoError.
Proof.
  split; [apply toy_hpke_pair|]. split; [apply toy_aead|]. split; [vm_compute; reflexivity|]. split; [vm_compute; reflexivity|].
  split; [vm_compute; reflexivity|]. split; [vm_compute; reflexivity|vm_compute; reflexivity].
Qed.

(* ------------------------------------------------------------------------------------------- *)
(** * C58 *)

Theorem C58_signature : forall P g pk a, p_sig P (gc_suite (gi_context g)) = Ok a ->
  (group_info_verify_signature P g pk = Ok tt <-> exists m, group_info_signed g m /\ s_verify a pk m (gi_signature g) = Ok tt).
Proof. exact c58_signature. Qed.
Print Assumptions C58_signature.
Theorem C58_covers : forall g g' m, wf_group_info g -> wf_group_info g' -> group_info_signed g m -> group_info_signed g' m ->
  gi_context g = gi_context g' /\ gi_extensions g = gi_extensions g' /\ gi_confirmation_tag g = gi_confirmation_tag g' /\ gi_signer g = gi_signer g'.
Proof. exact c58_covers. Qed.
Print Assumptions C58_covers.
Theorem C58_tag : forall P g k h joiner psk, p_hpke P (gc_suite (gi_context g)) = Ok k -> p_hash P (gc_suite (gi_context g)) = Ok h ->
  (group_info_verify_tag P g joiner psk = Ok tt <->
   exists key, confirmation_key k (gi_context g) joiner psk key /\ gi_confirmation_tag g = h_mac h key (gc_confirmed (gi_context g))).
Proof. exact c58_tag. Qed.
Print Assumptions C58_tag.
Theorem C58_tag_rejected : forall P g k h joiner psk, p_hpke P (gc_suite (gi_context g)) = Ok k -> p_hash P (gc_suite (gi_context g)) = Ok h ->
  forall key, confirmation_key k (gi_context g) joiner psk key -> gi_confirmation_tag g <> h_mac h key (gc_confirmed (gi_context g)) ->
  group_info_verify_tag P g joiner psk = Err VerifyConfirmationTagFailed.
Proof. exact c58_reject. Qed.
Print Assumptions C58_tag_rejected.

Definition ex_ckey : bytes := ok_or [] (let* es := extract_epoch_secret toy ex_ctx1 (str "joiner") [] in derive_secret toy Suite1 es (str "confirm")).
Definition ex_tagged : group_info :=
  let g := MkGroupInfo ex_ctx1 [] (h_mac toy_hash ex_ckey (gc_confirmed ex_ctx1)) 1 [] in
  MkGroupInfo ex_ctx1 [] (gi_confirmation_tag g) 1 (str "pk" ++ labelled (str "GroupInfoTBS") (ok_or [] (se_group_info_base g)))%list.
Lemma ex_gi_wf : wf_group_info ex_gi.
Proof.
  split; [split; [reflexivity|]; split; [u16_ex 1|]; split; [reflexivity|constructor]|]. split; [constructor; [u16_ex 0x0a0a|constructor]|reflexivity].
Qed.
Example C58_example : wf_group_info ex_gi /\ (exists m, group_info_signed ex_gi m) /\
  group_info_verify_tag toy ex_tagged (str "joiner") [] = Ok tt /\ group_info_verify_signature toy ex_tagged (str "pk") = Ok tt /\
  group_info_verify_tag toy ex_gi (str "joiner") [] = Err VerifyConfirmationTagFailed /\ group_info_verify_signature toy ex_tagged (str "no") = Err RustCryptoError.
Proof.
  split; [exact ex_gi_wf|]. split; [eexists; eexists; split; [vm_compute; reflexivity|split; [vm_compute; reflexivity|reflexivity]]|].
  split; [vm_compute; reflexivity|]. split; [vm_compute; reflexivity|]. split; [vm_compute; reflexivity|vm_compute; reflexivity].
Qed.

(* ------------------------------------------------------------------------------------------- *)
(** * C63 *)

(** The group a joiner gets is the same whatever the welcome says: it is never decrypted. *)
Theorem C63_default : forall P s w s' g, from_welcome P s w = (s', Ok g) -> g = MkGroup MLS10 Suite1 (CredBasic []) [] [].
Proof. exact c63_default. Qed.
Print Assumptions C63_default.
Theorem C63_ignores : forall P s w w', map egs_new_member (w_secrets w) = map egs_new_member (w_secrets w') -> from_welcome P s w = from_welcome P s w'.
Proof. exact c63_ignores. Qed.
Print Assumptions C63_ignores.
(** A welcome whose group secrets and group info decrypt, and that describes a group other than the one returned. *)
Definition ex_join_key : bytes := kp_init_key (kp_payload (ex_package x31)).
Definition ex_joinable : welcome := MkWelcome Suite1 [MkEGS (ex_ref x31) (ex_sealed ex_join_key)] ex_egi.
Theorem C63_refuted : exists P s w r sk gs gi s' g,
  decrypt_group_secrets P w r sk = Ok gs /\ decrypt_group_info P w (gs_joiner_secret gs) [] = Ok gi /\
  from_welcome P s w = (s', Ok g) /\ g_group_id g <> gc_group_id (gi_context gi).
Proof.
  exists toy, ex_store1, ex_joinable, (ex_ref x31), (tl ex_join_key), ex_gs, ex_gi, (fst (from_welcome toy ex_store1 ex_joinable)), default_group.
  split; [vm_compute; reflexivity|]. split; [vm_compute; reflexivity|]. split; [vm_compute; reflexivity|]. vm_compute. discriminate.
Qed.
Print Assumptions C63_refuted.

(* ------------------------------------------------------------------------------------------- *)
(** * C64 *)

Theorem C64_new : forall fill v cs cred skp id g, group_new fill v cs cred skp id = Ok g <->
  g_version g = v /\ g_suite g = cs /\ g_credential g = cred /\ g_signature_key g = skp_public skp /\
  match id with Some i => g_group_id g = i | None => fill 16 = Ok (g_group_id g) end.
Proof. exact c64_new. Qed.
Print Assumptions C64_new.
Example C64_example : exists g g', group_new (ex_fill x07) MLS10 Suite3 (CredBasic (str "bob")) ex_skp None = Ok g /\ g_group_id g = repeat x07 16 /\
  group_new (fun _ => Err OtherError) MLS10 Suite3 (CredBasic (str "bob")) ex_skp (Some (str "id")) = Ok g' /\ g_group_id g' = str "id" /\
  group_new (fun _ => Err OtherError) MLS10 Suite3 (CredBasic (str "bob")) ex_skp None = Err OtherError.
Proof. eexists. eexists. split; [reflexivity|]. split; [reflexivity|]. split; [reflexivity|]. split; reflexivity. Qed.
