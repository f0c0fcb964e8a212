(** What a client asks of a private message (RFC 9420, Section 6.3), over the primitives. *)
From Verif Require Export SpecTraffic SpecAuth PassivePrivate.
Local Open Scope N_scope.

(** The nonce with the reuse guard: its first bytes are those of [nonce] exclusive or those of [guard]. *)
Definition guarded (nonce guard n : bytes) : Prop :=
  (length guard <= length nonce)%nat /\ length n = length nonce /\
  forall i, (i < length nonce)%nat ->
    b2n (nth i n x00) = if (i <? length guard)%nat then N.lxor (b2n (nth i nonce x00)) (b2n (nth i guard x00)) else b2n (nth i nonce x00).

(** The encrypted sender data of [m] hold [sd]. Key and nonce come from the sender data secret and the first bytes of the
    ciphertext; group, epoch and content type are authenticated. *)
Definition sender_is (k : hpke_alg) (sds : bytes) (m : private_message) (sd : sender_data) : Prop :=
  let sample := firstn (N.to_nat (k_extract_size k)) (pv_ciphertext m) in
  exists key nonce aad p rest,
    expand_label k sds (str "key") sample (a_key_size k) = Ok key /\ expand_label k sds (str "nonce") sample (a_nonce_size k) = Ok nonce /\
    se_sender_data_aad (MkSenderDataAAD (pv_group_id m) (pv_epoch m) (pv_content_type m)) = Ok aad /\
    a_open k key nonce (pv_sender_data m) aad = Ok (p ++ rest)%list /\ wf_sender_data sd /\ se_sender_data sd = Ok p.

(** The ciphertext of [m] holds [pc] and zeros, under key and nonce of generation [g] of the ratchet of the leaf at the end of
    [path]; the header is authenticated. *)
Definition content_is (k : hpke_alg) (encryption : bytes) (path : list bool) (g : N) (guard : bytes) (m : private_message) (pc : private_content) : Prop :=
  exists key nonce n aad p pad,
    message_key k encryption path (pv_content_type m) (N.to_nat g) = Ok key /\
    message_nonce k encryption path (pv_content_type m) (N.to_nat g) = Ok nonce /\ guarded nonce guard n /\
    se_private_content_aad (MkPrivateAAD (pv_group_id m) (pv_epoch m) (pv_content_type m) (pv_auth_data m)) = Ok aad /\
    a_open k key n (pv_ciphertext m) aad = Ok (p ++ pad)%list /\ Forall (fun b => b = x00) pad /\
    wf_private_content pc /\ content_type_of (pc_content pc) = pv_content_type m /\ se_private_content pc = Ok p.

(** What the message says: the header, the sender and the content. *)
Definition says_it (m : private_message) (sd : sender_data) (pc : private_content) : framed_content :=
  MkFramed (pv_group_id m) (pv_epoch m) (SMember (sd_leaf_index sd)) (pv_auth_data m) (pc_content pc).

(** ... and the signature of the key [pk] for the state [ctx] of the group. *)
Definition private_signed (sa : sig_alg) (pk : bytes) (ctx : group_context) (m : private_message) (sd : sender_data) (pc : private_content) : Prop :=
  exists x, content_signed WFPrivateMessage (says_it m sd pc) ctx x /\ s_verify sa pk x (ad_signature (pc_auth pc)) = Ok tt.

(** Encrypting anew what somebody else has sent, in generation [g] of the ratchet of leaf [leaf], with the secrets every member
    has, and without a signature key. *)
Definition reencrypt (P : provider) (cs : cipher_suite) (k : hpke_alg) (encryption sds : bytes) (path : list bool) (leaf g : N) (guard : bytes)
    (m : private_message) (pc : private_content) (m' : private_message) : Prop :=
  exists key nonce n aad p ct esd,
    message_key k encryption path (pv_content_type m) (N.to_nat g) = Ok key /\
    message_nonce k encryption path (pv_content_type m) (N.to_nat g) = Ok nonce /\ guarded nonce guard n /\
    se_private_content_aad (MkPrivateAAD (pv_group_id m) (pv_epoch m) (pv_content_type m) (pv_auth_data m)) = Ok aad /\
    se_private_content pc = Ok p /\ a_seal k key n p aad = Ok ct /\
    encrypt_sender_data P cs sds (MkSenderData leaf g guard) (MkFramed (pv_group_id m) (pv_epoch m) (SMember leaf) (pv_auth_data m) (pc_content pc)) ct = Ok esd /\
    m' = MkPrivate (pv_group_id m) (pv_epoch m) (pv_content_type m) (pv_auth_data m) esd ct.
