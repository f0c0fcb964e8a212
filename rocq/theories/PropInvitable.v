(** C132: everybody whose leaf is in the tree can be welcomed, all of them with one message. *)
From Verif Require Import SpecInvitable SpecStays InvitableFacts GrownFacts SpecProvider PrimFacts Primitives BundledSend HostBundled.
Local Open Scope N_scope.

(** A member who can sign, in a group whose tree passes the checks, has for any guests with different key packages whose leaves are in the tree
    one welcome, with which each of them, by the project's client, joins the epoch of the group: the same context, extensions, joiner secret, PSK secret and tree,
    and so the epoch secret of the members. *)
Theorem C132_welcome : forall P cs k h t ctx joiner psk ids psks exts i sk known tree raw n gs, hosts P cs k h -> host P cs t ctx joiner psk ids psks exts i sk ->
  keeps known ids psks -> se_ratchet_tree t = Ok raw -> tree_given exts tree raw ->
  Forall (fun g => welcome_guest P cs t g /\ within n (se_group_secrets (MkGroupSecrets joiner (gt_path g) ids))) gs -> NoDup (map (fun g => generate_ref P (gt_package g)) gs) ->
  n < 536870912 -> N.of_nat (length gs) * (n + 300000) < 536870912 ->
  exists gi wb, gi_context gi = ctx /\ gi_extensions gi = exts /\ gi_signer gi = i /\
    forall g, In g gs -> exists kpb t' e, se_mls_message (MkMLSMessage MLS10 (WMKeyPackage (gt_package g))) = Ok kpb /\
      passive_join P cs known kpb (gt_private g) wb tree = Ok (MkJoined t' gi joiner psk e) /\
      copy_of t t' /\ (forall x, tget t' x = tget t x) /\ extract_epoch_secret P ctx joiner psk = Ok e.
Proof. exact c132_all. Qed.
Print Assumptions C132_welcome.

(** What the tree has to be like follows if the group grew from its first member by changes that were checked as C95 asks for, and the context has its hash. *)
Theorem C132_grown : forall P cs k h first t ctx joiner psk ids psks exts i sk known tree raw n gs, hosts P cs k h ->
  fit P cs (gc_group_id ctx) (fun _ => 0%Z) [] 0 first -> fit_history P cs (gc_group_id ctx) (fun _ => 0%Z) [Some (Leaf first)] t ->
  wf_tree t -> gc_suite ctx = cs -> root_tree_hash P cs t = Ok (gc_tree_hash ctx) ->
  wf_group_context ctx /\ within 268435456 (se_group_context ctx) -> wf_extensions exts /\ within 268435456 (se_extensions exts) ->
  extract_psk_secret P cs ids psks = Ok psk /\ Forall wf_psk_id ids ->
  i < 4294967296 /\ signs P cs sk /\ (exists l, leaf_at t i = Some l /\ key_pair_ok P cs sk (lp_signature_key (ln_payload l))) ->
  keeps known ids psks -> se_ratchet_tree t = Ok raw -> tree_given exts tree raw ->
  Forall (fun g => welcome_guest P cs t g /\ within n (se_group_secrets (MkGroupSecrets joiner (gt_path g) ids))) gs -> NoDup (map (fun g => generate_ref P (gt_package g)) gs) ->
  n < 536870912 -> N.of_nat (length gs) * (n + 300000) < 536870912 ->
  exists gi wb, gi_context gi = ctx /\ gi_extensions gi = exts /\ gi_signer gi = i /\
    forall g, In g gs -> exists kpb t' e, se_mls_message (MkMLSMessage MLS10 (WMKeyPackage (gt_package g))) = Ok kpb /\
      passive_join P cs known kpb (gt_private g) wb tree = Ok (MkJoined t' gi joiner psk e) /\
      copy_of t t' /\ (forall x, tget t' x = tget t x) /\ extract_epoch_secret P ctx joiner psk = Ok e.
Proof. exact c132_grown. Qed.
Print Assumptions C132_grown.

(** The provider over the RustCrypto libraries meets the condition, if they are as specified. The one over ring does not, since it cannot open what it sealed (C60). *)
Theorem C132_bundled : forall p cs, sized_prims p -> hkdf_prims p -> aead_prims_ok p -> seal_prims p cs -> In cs (p_supported (rust_provider p)) ->
  exists k h, hosts (rust_provider p) cs k h.
Proof. exact b_hosts. Qed.
Print Assumptions C132_bundled.

(** Three members; the first one welcomes the second, with a path secret, and the third, without one, with the tree in the extensions. *)
Example C132_example : exists gi wb, gi_context gi = ho_ctx /\ forall g, In g ho_guests -> exists kpb t' e,
  se_mls_message (MkMLSMessage MLS10 (WMKeyPackage (gt_package g))) = Ok kpb /\
  passive_join hosting Suite1 [] kpb (gt_private g) wb None = Ok (MkJoined t' gi (str "joiner") (Examples.ok_or [] (extract_psk_secret hosting Suite1 [] [])) e) /\ copy_of ho_tree t'.
Proof. exact c132_example. Qed.

(** The primitives as their standards define them. *)
Example C132_real : exists k h, hosts (rust_provider real_prims) Suite1 k h.
Proof. apply b_hosts; [exact real_sized|exact real_hkdf|exact real_aead|apply real_seals; left; reflexivity|left; reflexivity]. Qed.
(** The tree of the first example grew like that. *)
Example C132_grown_example : fit hosting Suite1 (gc_group_id ho_ctx) (fun _ => 0%Z) [] 0 (ho_leaf x01) /\
  fit_history hosting Suite1 (gc_group_id ho_ctx) (fun _ => 0%Z) [Some (Leaf (ho_leaf x01))] ho_tree /\ root_tree_hash hosting Suite1 ho_tree = Ok (gc_tree_hash ho_ctx).
Proof. split; [apply ho_grown|]. split; [apply ho_grown|]. vm_compute. reflexivity. Qed.
