(** What an invitation to a group gives away (RFC 9420, sections 8 and 12.4.3.1). *)
From Verif Require Export SpecForward SpecWelcome.
Local Open Scope N_scope.

(** The secret from which both the welcome secret and the epoch secret are derived. *)
Definition member_secret (k : hpke_alg) (e : epoch_run) (me : bytes) : Prop := k_extract k (psk_or_zero k (er_psk e)) (er_joiner e) = Ok me.

(** The welcome secret of an epoch, and the key and the nonce with which its group info is encrypted. *)
Definition welcome_value (k : hpke_alg) (e : epoch_run) (b : bytes) : Prop :=
  welcome_secret k (er_joiner e) (er_psk e) b \/ exists key nonce, welcome_keys k (er_joiner e) (er_psk e) key nonce /\ (b = key \/ b = nonce).

(** The calls made for these. *)
Definition welcome_made (k : hpke_alg) (e : epoch_run) (c : kdf_call) : Prop :=
  c = CExtract (er_joiner e) (psk_or_zero k (er_psk e)) \/
  (exists me, member_secret k e me /\ c = CExpand me (kdf_label (str "welcome") [] (nh k)) (nh k)) \/
  exists ws, welcome_secret k (er_joiner e) (er_psk e) ws /\
    (c = CExpand ws (kdf_label (str "key") [] (a_key_size k mod 65536)) (a_key_size k mod 65536) \/
     c = CExpand ws (kdf_label (str "nonce") [] (a_nonce_size k mod 65536)) (a_nonce_size k mod 65536)).
