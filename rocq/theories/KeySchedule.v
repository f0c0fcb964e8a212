(** Model of rmls/src/key_schedule/mod.rs: the secrets and transcript hashes (the wire types are in Wire.v). *)
From Verif Require Export Crypto.
Local Open Scope N_scope.

(** [vec![0u8; n]], as at key_schedule/mod.rs:154, 187 and 591. *)
Definition zeros (n : N) : bytes := repeat x00 (N.to_nat n).

(** Models key_schedule/mod.rs:124-145 (extract_joiner_secret). *)
Definition extract_joiner_secret (P : provider) (g : group_context) (prev_init commit_secret : bytes) : res bytes :=
  let cs := gc_suite g in
  let* k := p_hpke P cs in
  let* extracted := k_extract k commit_secret prev_init in
  let* raw := se_group_context g in
  let* k := p_hpke P cs in
  expand_with_label P cs extracted (str "joiner") raw (k_extract_size k mod 65536).

(** Models key_schedule/mod.rs:147-177 (extract_epoch_secret). *)
Definition extract_epoch_secret (P : provider) (g : group_context) (joiner psk_secret : bytes) : res bytes :=
  let cs := gc_suite g in
  let* k := p_hpke P cs in
  let zero := zeros (k_extract_size k) in
  let* extracted := k_extract k (match psk_secret with [] => zero | _ => psk_secret end) joiner in
  let* raw := se_group_context g in
  expand_with_label P cs extracted (str "epoch") raw (k_extract_size k mod 65536).

(** Models key_schedule/mod.rs:180-198 (extract_welcome_secret). *)
Definition extract_welcome_secret (P : provider) (cs : cipher_suite) (joiner psk_secret : bytes) : res bytes :=
  let* k := p_hpke P cs in
  let zero := zeros (k_extract_size k) in
  let* extracted := k_extract k (match psk_secret with [] => zero | _ => psk_secret end) joiner in
  derive_secret P cs extracted (str "welcome").

(** Models key_schedule/mod.rs:200-208 (the SECRET_LABEL constants, in order). *)
Definition label_init : bytes := str "init".
(** Models key_schedule/mod.rs:201. *)
Definition label_sender_data : bytes := str "sender data".
(** Models key_schedule/mod.rs:202. *)
Definition label_encryption : bytes := str "encryption".
(** Models key_schedule/mod.rs:203. *)
Definition label_exporter : bytes := str "exporter".
(** Models key_schedule/mod.rs:204. *)
Definition label_external : bytes := str "external".
(** Models key_schedule/mod.rs:205. *)
Definition label_confirm : bytes := str "confirm".
(** Models key_schedule/mod.rs:206. *)
Definition label_membership : bytes := str "membership".
(** Models key_schedule/mod.rs:207. *)
Definition label_resumption : bytes := str "resumption".
(** Models key_schedule/mod.rs:208. *)
Definition label_authentication : bytes := str "authentication".

(** Models key_schedule/mod.rs:272-285 (ConfirmedTranscriptHashInput::hash). *)
Definition confirmed_hash (P : provider) (cs : cipher_suite) (c : confirmed_input) (interim : bytes) : res bytes :=
  let* raw := se_confirmed_input c in
  let* h := p_hash P cs in Ok (h_digest h (interim ++ raw)).

(** Models key_schedule/mod.rs:304-319 (next_interim_transcript_hash). *)
Definition next_interim_hash (P : provider) (cs : cipher_suite) (confirmed tag : bytes) : res bytes :=
  let* raw := se_opaque tag in
  let* h := p_hash P cs in Ok (h_digest h (confirmed ++ raw)).

(** The loop at key_schedule/mod.rs:594-617, from index [i] on; [count] is [psk_ids.len()]. Both lists have
    the same length. *)
Fixpoint psk_loop (P : provider) (cs : cipher_suite) (zero : bytes) (size count i : N) (l : list (psk_id * bytes)) (acc : bytes) : res bytes :=
  match l with
  | [] => Ok acc
  | (id, psk) :: l =>
      let* k := p_hpke P cs in
      let* psk_extracted := k_extract k psk zero in
      let* raw := se_psk_label (MkPskLabel id (i mod 65536) (count mod 65536)) in
      let* psk_input := expand_with_label P cs psk_extracted (str "derived psk") raw (size mod 65536) in
      let* k := p_hpke P cs in
      let* acc := k_extract k acc psk_input in
      psk_loop P cs zero size count (i + 1) l acc
  end.

(** Models key_schedule/mod.rs:580-620 (extract_psk_secret). *)
Definition extract_psk_secret (P : provider) (cs : cipher_suite) (ids : list psk_id) (psks : list bytes) : res bytes :=
  if negb (length ids =? length psks)%nat then Err PskIDsAndPskLenNotMatch else
  let* k := p_hpke P cs in
  let zero := zeros (k_extract_size k) in
  psk_loop P cs zero (k_extract_size k) (N.of_nat (length ids)) 0 (combine ids psks) zero.
