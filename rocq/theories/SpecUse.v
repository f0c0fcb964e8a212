(** The keys, nonces and secrets of the epochs of groups, by what they are for (RFC 9420, sections 6.3, 8, 9 and 12.4.3.1). *)
From Verif Require Export SpecForward SpecWelcome Messages Group.
Local Open Scope N_scope.

(** An epoch of a group: the run of its key schedule, the depth of its tree, its encryption secret and its secret tree. *)
Record session : Type := Session { ss_run : epoch_run; ss_depth : N; ss_encryption : bytes; ss_tree : secret_tree }.
Definition session_of (P : provider) (cs : cipher_suite) (s : session) : Prop :=
  wf_group_context (er_context (ss_run s)) /\ runs P cs (ss_run s) /\ ss_depth s <= 31 /\
  derive_secret P cs (er_epoch (ss_run s)) label_encryption = Ok (ss_encryption s) /\ new_secret_tree P cs (2 ^ ss_depth s) (ss_encryption s) = Ok (ss_tree s).

(** What a value of an epoch is for: a leaf's ratchet in a generation, or the key or nonce of the message in that generation; one of the
    secrets derived from the epoch secret; key or nonce of the sender data of a message with the ciphertext [ct]; key or nonce of the group
    info in the welcome. *)
Inductive use : Type :=
| UItem (it : item) | USecret (label : bytes) | USenderKey (ct : bytes) | USenderNonce (ct : bytes) | UWelcomeKey | UWelcomeNonce.
Definition use_value (P : provider) (cs : cipher_suite) (s : session) (u : use) (b : bytes) : Prop :=
  match u with
  | UItem it => item_value P cs (ss_tree s) it b
  | USecret label => In label schedule_labels /\ derive_secret P cs (er_epoch (ss_run s)) label = Ok b
  | USenderKey ct => exists x, derive_secret P cs (er_epoch (ss_run s)) label_sender_data = Ok x /\ sender_data_key P cs x ct = Ok b
  | USenderNonce ct => exists x, derive_secret P cs (er_epoch (ss_run s)) label_sender_data = Ok x /\ sender_data_nonce P cs x ct = Ok b
  | UWelcomeKey => exists n, welcome_key_nonce P cs (er_joiner (ss_run s)) (er_psk (ss_run s)) = Ok (b, n)
  | UWelcomeNonce => exists x, welcome_key_nonce P cs (er_joiner (ss_run s)) (er_psk (ss_run s)) = Ok (x, b)
  end.

(** The bytes of a ciphertext that go into the key and nonce of its sender data. *)
Definition sample (k : hpke_alg) (ct : bytes) : bytes := firstn (N.to_nat (k_extract_size k)) ct.
(** The same use; key and nonce of sender data are for all ciphertexts that begin with the same bytes. *)
Definition same_use (k : hpke_alg) (u v : use) : Prop :=
  match u, v with
  | USenderKey c, USenderKey c' | USenderNonce c, USenderNonce c' => sample k c = sample k c'
  | _, _ => u = v
  end.
(** The same epoch of the same group: same context and same secrets in. *)
Definition same_epoch (k : hpke_alg) (e e' : epoch_run) : Prop :=
  er_context e = er_context e' /\ er_before e = er_before e' /\ er_commit e = er_commit e' /\ psk_or_zero k (er_psk e) = psk_or_zero k (er_psk e') /\
  er_joiner e = er_joiner e'.

(** The calls of the KDF made in an epoch: for the key schedule, the secret tree and the ratchets; for the welcome; and for the sender
    data of the message, if that is the use. *)
Definition session_made (k : hpke_alg) (s : session) (u : use) (c : kdf_call) : Prop :=
  let e := ss_run s in
  epoch_made k e c \/ tree_made k (ss_depth s) (ss_encryption s) c \/
  (exists me, k_extract k (psk_or_zero k (er_psk e)) (er_joiner e) = Ok me /\
    (c = CExpand me (kdf_label (str "welcome") [] (nh k)) (nh k) \/
     exists w, call k (CExpand me (kdf_label (str "welcome") [] (nh k)) (nh k)) = Ok w /\
       (c = CExpand w (kdf_label (str "key") [] (a_key_size k mod 65536)) (a_key_size k mod 65536) \/
        c = CExpand w (kdf_label (str "nonce") [] (a_nonce_size k mod 65536)) (a_nonce_size k mod 65536)))) \/
  (exists x ct, call k (CExpand (er_epoch e) (kdf_label label_sender_data [] (nh k)) (nh k)) = Ok x /\ (u = USenderKey ct \/ u = USenderNonce ct) /\
    (c = CExpand x (kdf_label (str "key") (sample k ct) (a_key_size k mod 65536)) (a_key_size k mod 65536) \/
     c = CExpand x (kdf_label (str "nonce") (sample k ct) (a_nonce_size k mod 65536)) (a_nonce_size k mod 65536))).
