(** What the welcome and group-info properties talk about (RFC 9420, Sections 12.4.3 and 12.4.3.1). *)
From Verif Require Export WireWF SpecSecrets SpecMessages SpecKeys.
Local Open Scope N_scope.

(** [e] is the first entry of the list for the reference [r]. *)
Definition first_entry (l : list encrypted_group_secrets) (r : bytes) (e : encrypted_group_secrets) : Prop :=
  exists pre post, l = (pre ++ e :: post)%list /\ egs_new_member e = r /\ forall x, In x pre -> egs_new_member x <> r.

(** The key and nonce of the encrypted group info. *)
Definition welcome_keys (k : hpke_alg) (joiner psk key nonce : bytes) : Prop :=
  exists ws, welcome_secret k joiner psk ws /\
    expand_label k ws (str "nonce") [] (a_nonce_size k mod 65536) = Ok nonce /\
    expand_label k ws (str "key") [] (a_key_size k mod 65536) = Ok key.

(** The bytes signed for a group info: everything but the signature. *)
Definition group_info_signed (g : group_info) (m : bytes) : Prop :=
  exists raw, (let* c := se_group_context (gi_context g) in let* e := se_extensions (gi_extensions g) in
               let* t := se_opaque (gi_confirmation_tag g) in Ok (c ++ e ++ t ++ be 4 (gi_signer g))%list) = Ok raw /\
    fits30 raw /\ m = labelled (str "GroupInfoTBS") raw.

(** The key of the confirmation tag: derived from the epoch secret. *)
Definition confirmation_key (k : hpke_alg) (g : group_context) (joiner psk key : bytes) : Prop :=
  exists es, epoch_secret k g joiner psk es /\ expand_label k es (str "confirm") [] (nh k) = Ok key.
