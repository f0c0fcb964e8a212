(** An invitation to a group, made as RFC 9420, Sections 12.4.3 and 12.4.3.1, prescribe. *)
From Verif Require Export SpecRatchet SpecWelcome SpecJoin SpecProposals SpecTraffic Passive.
Local Open Scope N_scope.

(** [p] is the first value kept for the id. *)
Definition first_kept (known : list (bytes * bytes)) (id p : bytes) : Prop :=
  exists pre post, known = (pre ++ (id, p) :: post)%list /\ forall x, In x pre -> fst x <> id.
(** All PSKs of the epoch are external ones, and the new member keeps them. *)
Definition keeps (known : list (bytes * bytes)) (ids : list psk_id) (psks : list bytes) : Prop :=
  Forall2 (fun i p => exists id, pi_psk i = PExternal id /\ first_kept known id p) ids psks.

(** The new member gets the bytes of the tree apart from the welcome, or in the extensions of the group info. *)
Definition tree_sent (gi : group_info) (tree : option bytes) (raw : bytes) : Prop :=
  match tree with
  | Some r => r = raw
  | None => exists pre post, gi_extensions gi = (pre ++ MkExtension ExtRatchetTree raw :: post)%list /\ forall e, In e pre -> ext_type e <> ExtRatchetTree
  end.

(** The owner of the key package [kp] is invited into the group that has the tree [t], the context of [gi], the joiner secret
    [joiner] and the PSKs [ids], [psks] with PSK secret [psk]. *)
Record invited (P : provider) (k : hpke_alg) (h : hash_alg) (t : tree) (gi : group_info) (joiner psk : bytes)
    (ids : list psk_id) (psks : list bytes) (kp : key_package) (init_priv : bytes) (known : list (bytes * bytes))
    (kpb wb : bytes) (tree : option bytes) : Prop := {
  (** The tree is one the library can make, passes the check and has the new member in it. *)
  iv_reachable : reachable P (gc_suite (gi_context gi)) t;
  iv_nodes : wf_tree t;
  iv_verified : verify_integrity P t (gi_context gi) (fun _ => 0%Z) = Ok tt;
  iv_member : exists i, leaf_at t i = Some (kp_leaf (kp_payload kp));
  iv_sent : exists raw, se_ratchet_tree t = Ok raw /\ tree_sent gi tree raw;
  (** The key package and the private key of its init key. *)
  iv_package : wf_key_package kp /\ kp_suite (kp_payload kp) = gc_suite (gi_context gi) /\
    se_mls_message (MkMLSMessage MLS10 (WMKeyPackage kp)) = Ok kpb;
  iv_init : hpke_pair_ok P (gc_suite (gi_context gi)) init_priv (kp_init_key (kp_payload kp));
  (** The PSK secret. *)
  iv_psk : extract_psk_secret P (gc_suite (gi_context gi)) ids psks = Ok psk;
  iv_keeps : keeps known ids psks;
  (** The group info, signed by a member and with the confirmation tag of the epoch. *)
  iv_info : wf_group_info gi;
  iv_signed : exists l sk a m, leaf_at t (gi_signer gi) = Some l /\ key_pair_ok P (gc_suite (gi_context gi)) sk (lp_signature_key (ln_payload l)) /\
    p_sig P (gc_suite (gi_context gi)) = Ok a /\ group_info_signed gi m /\ s_sign a sk m = Ok (gi_signature gi);
  iv_tag : exists key, confirmation_key k (gi_context gi) joiner psk key /\ gi_confirmation_tag gi = h_mac h key (gc_confirmed (gi_context gi));
  (** The welcome: the group info under the welcome key, and the group secrets to the init key. *)
  iv_welcome : exists w, wf_welcome w /\ w_suite w = gc_suite (gi_context gi) /\ se_mls_message (MkMLSMessage MLS10 (WMWelcome w)) = Ok wb /\
    (exists key nonce raw, welcome_keys k joiner psk key nonce /\ se_group_info gi = Ok raw /\ a_seal k key nonce raw [] = Ok (w_group_info w)) /\
    exists ref e path gs raw ent kem ct, generate_ref P kp = Ok ref /\ first_entry (w_secrets w) ref e /\
      gs = MkGroupSecrets joiner path ids /\ wf_group_secrets gs /\ se_group_secrets gs = Ok raw /\
      encrypt_with_label P (w_suite w) ent (kp_init_key (kp_payload kp)) (str "Welcome") (w_group_info w) raw = Ok (kem, ct) /\
      egs_secrets e = MkHpkeCiphertext kem ct }.

(** The secret tree and the sender data secret of an epoch, as every member computes them. *)
Definition epoch_keys (P : provider) (cs : cipher_suite) (t : tree) (epoch : bytes) : res (secret_tree * bytes) :=
  let* s := derive_secret P cs epoch label_encryption in
  let* st := new_secret_tree P cs (num_leaves t) s in
  let* sds := derive_secret P cs epoch label_sender_data in Ok (st, sds).

(** What a new member has checked when it has joined with the result [j]. *)
Record checked (P : provider) (k : hpke_alg) (h : hash_alg) (cs : cipher_suite) (known : list (bytes * bytes))
    (kpb init_priv wb : bytes) (tree : option bytes) (j : joined) : Prop := {
  (** The tree is the one that was sent, with the hash of the context and all the rest of the check (C33). *)
  ck_tree : exists raw rest, tree_sent (jn_info j) tree raw /\ de_ratchet_tree raw = Ok (jn_tree j, rest);
  ck_verified : exists d, full_size (jn_tree j) d /\ tlen (jn_tree j) < 4294967296 /\ nodes_wf (jn_tree j) /\
    verified P (jn_tree j) (gi_context (jn_info j)) (fun _ => 0%Z) d;
  (** The group info is signed by the key of a member. *)
  ck_signed : exists l a m, leaf_at (jn_tree j) (gi_signer (jn_info j)) = Some l /\ p_sig P (gc_suite (gi_context (jn_info j))) = Ok a /\
    group_info_signed (jn_info j) m /\ s_verify a (lp_signature_key (ln_payload l)) m (gi_signature (jn_info j)) = Ok tt;
  (** The confirmation tag belongs to the joiner and PSK secret. *)
  ck_tag : exists key, confirmation_key k (gi_context (jn_info j)) (jn_joiner j) (jn_psk j) key /\
    gi_confirmation_tag (jn_info j) = h_mac h key (gc_confirmed (gi_context (jn_info j)));
  (** The owner of the key package is in the tree, in its cipher suite, and the secrets are what the welcome has for it. *)
  ck_member : exists v kp rest, de_mls_message kpb = Ok (MkMLSMessage v (WMKeyPackage kp), rest) /\
    kp_suite (kp_payload kp) = gc_suite (gi_context (jn_info j)) /\
    (exists i, leaf_at (jn_tree j) i = Some (kp_leaf (kp_payload kp))) /\
    exists v' w rest' ref gs psks, de_mls_message wb = Ok (MkMLSMessage v' (WMWelcome w), rest') /\
      generate_ref P kp = Ok ref /\ decrypt_group_secrets P w ref init_priv = Ok gs /\ gs_joiner_secret gs = jn_joiner j /\
      keeps known (gs_psk_ids gs) psks /\ extract_psk_secret P cs (gs_psk_ids gs) psks = Ok (jn_psk j) /\
      decrypt_group_info P w (jn_joiner j) (jn_psk j) = Ok (jn_info j);
  (** The epoch secret is the one of the key schedule. *)
  ck_epoch : epoch_secret k (gi_context (jn_info j)) (jn_joiner j) (jn_psk j) (jn_epoch j) }.

(** The public message [b] has one membership tag for two different inputs: for the contexts [ctx] and [ctx'] under the membership keys
    [mk] and [mk']. *)
Definition tag_collision (h : hash_alg) (b : bytes) (ctx : group_context) (mk : bytes) (ctx' : group_context) (mk' : bytes) : Prop :=
  exists v m rest x x', de_mls_message b = Ok (MkMLSMessage v (WMPublic m), rest) /\
    membership_input m ctx x /\ membership_input m ctx' x' /\ x <> x' /\ pm_tag m = Some (h_mac h mk x) /\ h_mac h mk x = h_mac h mk' x'.
