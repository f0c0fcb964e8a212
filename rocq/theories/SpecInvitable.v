(** What it takes to invite new members. *)
From Verif Require Export SpecPassive SpecSendable SpecStuck SpecHeard.
Local Open Scope N_scope.

(** The provider seals, opens, hashes, tags and runs the key schedule. *)
Record hosts (P : provider) (cs : cipher_suite) (k : hpke_alg) (h : hash_alg) : Prop := {
  ho_suite : In cs [Suite1; Suite2; Suite3];
  ho_seals : seals P cs k;
  ho_opens : aead_ok P cs;
  ho_schedules : schedules P cs k;
  ho_hashes : hashes P cs h;
  ho_tags : tags P cs }.

(** Somebody to invite: their key package, the private key of its init key, and the path secret they are to get, if any. *)
Record guest : Type := MkGuest { gt_package : key_package; gt_private : bytes; gt_path : option bytes }.
(** The package is for the suite, has an encoding, its leaf is in the tree, and with some randomness one can encrypt to its init key. *)
Record welcome_guest (P : provider) (cs : cipher_suite) (t : tree) (g : guest) : Prop := {
  wg_readable : wf_key_package (gt_package g);
  wg_suite : kp_suite (kp_payload (gt_package g)) = cs;
  wg_size : within 536870912 (se_key_package (gt_package g));
  wg_member : exists i, leaf_at t i = Some (kp_leaf (kp_payload (gt_package g)));
  wg_pair : hpke_pair_ok P cs (gt_private g) (kp_init_key (kp_payload (gt_package g)));
  wg_reached : forall info p, N.of_nat (length p) < 2147483648 -> exists entropy kem ct, p_base_seal P cs (kp_init_key (kp_payload (gt_package g))) info entropy p = Ok (kem, ct) /\
    N.of_nat (length kem) < 65536 /\ N.of_nat (length ct) < N.of_nat (length p) + 65536 }.

(** New members get the tree apart from the welcome, or in the extensions. *)
Definition tree_given (exts : extensions) (tree : option bytes) (raw : bytes) : Prop :=
  match tree with
  | Some r => r = raw
  | None => exists pre post, exts = (pre ++ MkExtension ExtRatchetTree raw :: post)%list /\ forall e, In e pre -> ext_type e <> ExtRatchetTree
  end.

(** A group with the tree [t], context [ctx], joiner secret [joiner] and PSKs [ids], [psks], and a member [i] who can sign for it. *)
Record host (P : provider) (cs : cipher_suite) (t : tree) (ctx : group_context) (joiner psk : bytes) (ids : list psk_id) (psks : list bytes)
    (exts : extensions) (i : N) (sk : bytes) : Prop := {
  hs_suite : gc_suite ctx = cs;
  hs_reachable : reachable P cs t;
  hs_nodes : wf_tree t;
  hs_verified : verify_integrity P t ctx (fun _ => 0%Z) = Ok tt;
  hs_context : wf_group_context ctx /\ within 268435456 (se_group_context ctx);
  hs_extensions : wf_extensions exts /\ within 268435456 (se_extensions exts);
  hs_psk : extract_psk_secret P cs ids psks = Ok psk /\ Forall wf_psk_id ids;
  hs_signer : i < 4294967296 /\ signs P cs sk /\ exists l, leaf_at t i = Some l /\ key_pair_ok P cs sk (lp_signature_key (ln_payload l)) }.
