(** Proofs that calls come back. *)
From Verif Require Import WireCodecs TreeCodec CodecLib CodecPanics SpecCodec SecretFacts TreeMathProofs SpecTree SpecMessages Proposals SpecCalm.
Local Open Scope N_scope.

Lemma ret_ok {A} (a : A) : returns (Ok a). Proof. left; eauto. Qed.
Lemma ret_err {A} e : returns (Err e : res A). Proof. right; eauto. Qed.
Lemma ret_bind {A B} (m : res A) (k : A -> res B) : returns m -> (forall a, m = Ok a -> returns (k a)) -> returns (bind m k).
Proof. intros [[a ->]|[e ->]] H; cbn; [apply H; reflexivity|apply ret_err]. Qed.
Lemma ret_seq x y : returns x -> returns y -> returns (x +++ y).
Proof. intros [[a ->]|[e ->]] [[b ->]|[f ->]]; cbn; first [apply ret_ok|apply ret_err]. Qed.
Lemma ret_sizing {A} (fits : A -> Prop) ser a : sizing fits ser -> returns (ser a).
Proof. intros S. destruct (S a) as [[_ [p E]]|[_ [e [E _]]]]; rewrite E; [apply ret_ok|apply ret_err]. Qed.
Lemma ret_iff {A} (m : res A) : returns m <-> m <> Panic /\ m <> Hang.
Proof. destruct m; split; intros H; try (destruct H as [[? H]|[? H]]; discriminate H); try apply ret_ok; try apply ret_err; try (split; discriminate); destruct H; congruence. Qed.
Lemma ret_desafe {A} (de : bytes -> res (A * bytes)) bs : desafe true de -> returns (de bs).
Proof.
  intros S. pose proof (desafe_panics S bs) as Q. specialize (S bs). destruct (de bs) as [a|e| |] eqn:E; [apply ret_ok|apply ret_err|congruence|contradiction].
Qed.

Ltac calm1 :=
  match goal with
  | |- returns (Ok _) => apply ret_ok
  | |- returns (Err _) => apply ret_err
  | H : steady ?P ?cs |- returns (p_hash ?P ?cs) => exact (st_hash _ _ H)
  | H : steady ?P ?cs |- returns (p_hpke ?P ?cs) => exact (st_hpke _ _ H)
  | H : steady ?P ?cs |- returns (p_sig ?P ?cs) => exact (st_sig _ _ H)
  | H : steady ?P ?cs, K : p_hpke ?P ?cs = Ok ?k |- returns (k_expand ?k _ _ _) => exact (st_expand _ _ H _ _ _ _ K)
  | H : steady ?P ?cs, K : p_hpke ?P ?cs = Ok ?k |- returns (k_extract ?k _ _) => exact (st_extract _ _ H _ _ _ K)
  | H : steady ?P ?cs, K : p_hpke ?P ?cs = Ok ?k |- returns (k_derive_key_pair ?k _) => exact (st_derive _ _ H _ _ K)
  | H : steady ?P ?cs, K : p_hpke ?P ?cs = Ok ?k |- returns (a_open ?k _ _ _ _) => exact (st_open _ _ H _ _ _ _ _ K)
  | H : steady ?P ?cs, K : p_hpke ?P ?cs = Ok ?k |- returns (a_seal ?k _ _ _ _) => exact (st_seal _ _ H _ _ _ _ _ K)
  | H : steady ?P ?cs, K : p_sig ?P ?cs = Ok ?k |- returns (s_sign ?k _ _) => exact (st_sign _ _ H _ _ _ K)
  | H : steady ?P ?cs, K : p_sig ?P ?cs = Ok ?k |- returns (s_verify ?k _ _ _) => exact (st_verify _ _ H _ _ _ _ K)
  | H : steady ?P ?cs |- returns (p_base_seal ?P ?cs _ _ _ _) => exact (st_base_seal _ _ H _ _ _ _)
  | H : steady ?P ?cs |- returns (p_base_open ?P ?cs _ _ _ _) => exact (st_base_open _ _ H _ _ _ _)
  | |- returns _ => solve [auto 2 with calm]
  | |- returns (_ +++ _) => apply ret_seq
  | |- returns (bind ?m ?k) => apply ret_bind; [|let a := fresh "a" in let E := fresh "E" in intros a E; try (destruct a; [])]
  | |- returns (de_exact _ _) => unfold de_exact
  | |- returns (match ?x with _ => _ end) => destruct x eqn:?
  | |- returns (?ser ?a) => eapply (ret_sizing _ ser a); typeclasses eauto
  | |- returns (?de ?bs) => apply (ret_desafe de bs); typeclasses eauto
  | |- forall _, _ => intro
  end.
Ltac calm := repeat calm1.

Section Calm.
Context (P : provider) (cs : cipher_suite) (H : steady P cs).

Lemma r_mac key msg : returns (sign_mac P cs key msg). Proof. unfold sign_mac. calm. Qed.
Hint Resolve r_mac : calm.
Lemma r_vmac key msg t : returns (verify_mac P cs key msg t). Proof. unfold verify_mac. calm. Qed.
Lemma r_ref l v : returns (ref_hash P cs l v). Proof. unfold ref_hash. calm. Qed.
Lemma r_label l d : returns (mls_prefix_label_data l d). Proof. unfold mls_prefix_label_data. calm. Qed.
Hint Resolve r_vmac r_ref r_label : calm.
Lemma r_expand s l c n : returns (expand_with_label P cs s l c n). Proof. unfold expand_with_label, expand_info. calm. Qed.
Hint Resolve r_expand : calm.
Lemma r_derive s l : returns (derive_secret P cs s l). Proof. unfold derive_secret. calm. Qed.
Lemma r_sign key l c : returns (sign_with_label P cs key l c). Proof. unfold sign_with_label. calm. Qed.
Lemma r_verify key l c s : returns (verify_with_label P cs key l c s). Proof. unfold verify_with_label. calm. Qed.
Lemma r_encrypt e pk l c pt : returns (encrypt_with_label P cs e pk l c pt). Proof. unfold encrypt_with_label. calm. Qed.
Lemma r_decrypt sk l c kem ct : returns (decrypt_with_label P cs sk l c kem ct). Proof. unfold decrypt_with_label. calm. Qed.
Hint Resolve r_derive r_sign r_verify r_encrypt r_decrypt : calm.
Lemma r_welcome j psk : returns (extract_welcome_secret P cs j psk). Proof. unfold extract_welcome_secret. calm. Qed.
Hint Resolve r_welcome : calm.
Lemma r_psk_loop zero size count l : forall i acc, returns (psk_loop P cs zero size count i l acc).
Proof. induction l as [|[id psk] l IH]; intros i acc; cbn [psk_loop]; calm. Qed.
Lemma r_psk ids psks : returns (extract_psk_secret P cs ids psks).
Proof. unfold extract_psk_secret. calm. apply r_psk_loop. Qed.
Lemma r_confirmed_input c : returns (se_confirmed_input c).
Proof. unfold se_confirmed_input. calm. Qed.
Hint Resolve r_confirmed_input : calm.
Lemma r_confirmed c i : returns (confirmed_hash P cs c i). Proof. unfold confirmed_hash. calm. Qed.
Lemma r_interim c t : returns (next_interim_hash P cs c t). Proof. unfold next_interim_hash. calm. Qed.
Lemma r_root t x l : returns (derive_ratchet_root P cs t x l). Proof. unfold derive_ratchet_root. calm. Qed.
Lemma r_tree_secret s l g n : returns (derive_tree_secret P cs s l g n). Proof. unfold derive_tree_secret. calm. Qed.
Hint Resolve r_tree_secret : calm.
Lemma r_nonce r : returns (derive_nonce P cs r). Proof. unfold derive_nonce. calm. Qed.
Lemma r_key r : returns (derive_key P cs r). Proof. unfold derive_key. calm. Qed.
Hint Resolve r_nonce r_key : calm.
Lemma r_next r : rt_generation r < 4294967295 -> returns (derive_next P cs r).
Proof. intros L. unfold derive_next. calm. unfold add32. destruct (N.leb_spec (rt_generation r + 1) u32_max) as [Q|Q]; [calm|unfold u32_max in Q; lia]. Qed.
Lemma r_tbs t : returns (se_framed_content_tbs t). Proof. unfold se_framed_content_tbs. calm. Qed.
Hint Resolve r_tbs : calm.
Lemma r_tbm t : returns (se_auth_content_tbm t). Proof. unfold se_auth_content_tbm. calm. Qed.
Hint Resolve r_tbm : calm.
Lemma r_auth key w c ctx : returns (new_auth_content P cs key w c ctx). Proof. unfold new_auth_content, sign_framed_content. calm. Qed.
Hint Resolve r_auth : calm.
Lemma r_vauth a key ctx : returns (verify_content_signature P cs a key ctx). Proof. unfold verify_content_signature, verify_auth_signature. calm. Qed.
Lemma r_vtag a key c : returns (verify_auth_confirmation_tag P cs a key c). Proof. unfold verify_auth_confirmation_tag. calm. Qed.
Lemma r_public key c ctx : returns (new_public_message P cs key c ctx). Proof. unfold new_public_message. calm. Qed.
Lemma r_membership m key ctx : returns (sign_membership_tag P cs m key ctx). Proof. unfold sign_membership_tag. calm. Qed.
Lemma r_vmembership m key ctx : returns (verify_membership_tag P cs m key ctx).
Proof.
  unfold verify_membership_tag. destruct (fc_sender (pm_content m)); [|calm|calm|calm]. destruct (pm_tag m) as [t|]; [|calm].
  destruct (r_tbm (public_tbm m ctx)) as [[a ->]|[e ->]]; calm.
Qed.
Lemma r_sdk s ct : returns (sender_data_key P cs s ct). Proof. unfold sender_data_key, sample_ciphertext. calm. Qed.
Lemma r_sdn s ct : returns (sender_data_nonce P cs s ct). Proof. unfold sender_data_nonce, sample_ciphertext. calm. Qed.
Hint Resolve r_sdk r_sdn : calm.
Lemma r_mkn r g : returns (message_key_nonce P cs r g). Proof. unfold message_key_nonce. calm. Qed.
Hint Resolve r_mkn : calm.
Lemma r_private key r sds c sd ctx : returns (new_private_message P cs key r sds c sd ctx).
Proof. unfold new_private_message, encrypt_private_content, encrypt_sender_data. calm. Qed.
Lemma r_dsd m s : returns (decrypt_sender_data P cs m s). Proof. unfold decrypt_sender_data. calm. Qed.
Lemma r_wkn j psk : returns (welcome_key_nonce P cs j psk). Proof. unfold welcome_key_nonce. calm. Qed.
End Calm.
#[export] Hint Resolve r_mac r_vmac r_ref r_label r_expand r_derive r_sign r_verify r_encrypt r_decrypt r_welcome r_confirmed_input r_tbs r_tbm r_auth r_wkn : calm.

Lemma r_joiner P g i c : steady P (gc_suite g) -> returns (extract_joiner_secret P g i c). Proof. intros H. unfold extract_joiner_secret. calm. Qed.
Lemma r_epoch P g j psk : steady P (gc_suite g) -> returns (extract_epoch_secret P g j psk). Proof. intros H. unfold extract_epoch_secret. calm. Qed.
#[export] Hint Resolve r_joiner r_epoch : calm.
Lemma r_children P cs : steady P cs -> forall k fuel t j, (k <= 31)%nat -> (k <= fuel)%nat -> returns (derive_children fuel P cs t (node_at (N.of_nat k) j)).
Proof.
  intros H. induction k as [|k IH]; intros fuel t j L F.
  - change (N.of_nat 0) with 0. rewrite derive_children_leaf. calm.
  - destruct fuel as [|fuel]; [lia|]. replace (N.of_nat (S k)) with (N.of_nat k + 1) by lia. rewrite derive_children_unfold by lia.
    destruct (sget t (node_at (N.of_nat k + 1) j)); [|calm].
    apply ret_bind; [calm|intros h E]. apply ret_bind; [calm|intros ls _]. apply ret_bind; [calm|intros rs _].
    apply ret_bind; [apply IH; lia|intros t' _]. apply IH; lia.
Qed.
Lemma r_secret_tree P cs n s : steady P cs -> 0 < n -> n <= 2147483648 -> returns (new_secret_tree P cs n s).
Proof.
  intros H Z L. rewrite new_unfold by assumption. pose proof (depth_lt n Z L) as D. destruct (nat_of (depth n)) as [m E]. rewrite E in *.
  apply r_children; [exact H|lia|lia].
Qed.
Lemma r_group_secrets P w r k : steady P (w_suite w) -> returns (decrypt_group_secrets P w r k).
Proof. intros H. unfold decrypt_group_secrets. calm. Qed.
Lemma r_group_info P w j psk : steady P (w_suite w) -> returns (decrypt_group_info P w j psk).
Proof. intros H. unfold decrypt_group_info. calm. Qed.
Lemma r_gi_sig P g pk : steady P (gc_suite (gi_context g)) -> returns (group_info_verify_signature P g pk).
Proof. intros H. unfold group_info_verify_signature. calm. Qed.
Lemma r_gi_tag P g j psk : steady P (gc_suite (gi_context g)) -> returns (group_info_verify_tag P g j psk).
Proof. intros H. unfold group_info_verify_tag. calm. Qed.
Lemma r_is_ok {A} (m : res A) : returns m -> returns (is_ok m).
Proof. intros [[a ->]|[e ->]]; cbn; calm. Qed.
Lemma r_leaf_tbs l ti : returns (se_leaf_node_tbs l ti). Proof. unfold se_leaf_node_tbs. calm. Qed.
#[export] Hint Resolve r_leaf_tbs : calm.
Lemma r_leaf_new P fill cs cred skp src caps exts ti : steady P cs -> (forall n, returns (fill n)) -> returns (leaf_node_new P fill cs cred skp src caps exts ti).
Proof. intros H F. unfold leaf_node_new. calm. Qed.
Lemma r_leaf_verify P l o : steady P (lo_suite o) -> returns (leaf_verify P l o).
Proof.
  intros H. unfold leaf_verify, leaf_verify_signature. apply ret_bind.
  - destruct (r_leaf_tbs (ln_payload l) (TIUpdateOrCommit (lo_group_id o) (lo_leaf_index o))) as [[a ->]|[e ->]]; [|calm]. apply r_is_ok. calm.
  - intros b _. destruct (negb b); [calm|]. destruct (negb _); [calm|].
    match goal with |- returns (if ?x then _ else _) => destruct x; [calm|] end.
    apply ret_bind; [|intros u _; destruct (mem bytes_eqb _ _); [calm|]; destruct (mem bytes_eqb _ _); calm].
    generalize (lp_extensions (ln_payload l)). intros e. induction e as [|x e IH]; cbn [check_extensions]; calm.
Qed.
Lemma r_ref_of P kp : steady P (kp_suite (kp_payload kp)) -> returns (generate_ref P kp).
Proof. intros H. unfold generate_ref. calm. Qed.
Lemma r_kp_verify P kp ctx : steady P (kp_suite (kp_payload kp)) -> returns (key_package_verify P kp ctx).
Proof.
  intros H. unfold key_package_verify. destruct (negb _); [calm|]. destruct (negb _); [calm|]. destruct (lp_source _); [|calm|calm].
  apply ret_bind; [apply r_is_ok; unfold key_package_verify_signature; calm|]. intros b _. calm.
Qed.
Lemma r_kp_new P f1 f2 v cs cred skp lt ke caps le : steady P cs -> (forall n, returns (f1 n)) -> (forall n, returns (f2 n)) ->
  returns (key_package_new P f1 f2 v cs cred skp lt ke caps le) /\
  forall kp ekp i, key_package_new P f1 f2 v cs cred skp lt ke caps le = Ok (kp, ekp, i) -> kp_suite (kp_payload kp) = cs.
Proof.
  intros H F1 F2. split.
  - unfold key_package_new. apply ret_bind; [calm|intros s _]. destruct (negb _); [calm|]. apply ret_bind; [calm|intros h _]. apply ret_bind; [calm|intros ikm _].
    apply ret_bind; [calm|intros k K]. apply ret_bind; [calm|intros init _]. apply ret_bind; [|intros [kp ekp] _; calm].
    unfold key_package_from_keys. apply ret_bind; [apply r_leaf_new; assumption|intros [lf e] _]. calm.
  - intros kp ekp i E. unfold key_package_new in E. apply bind_ok in E as (s & _ & E). destruct (negb _); [discriminate|]. apply bind_ok in E as (h & _ & E). apply bind_ok in E as (ikm & _ & E).
    apply bind_ok in E as (k & _ & E). apply bind_ok in E as (init & _ & E). apply bind_ok in E as ([kp' ekp'] & B & E). injection E as <- <- <-.
    unfold key_package_from_keys in B. apply bind_ok in B as ([lf e] & _ & B). apply bind_ok in B as (raw & _ & B). apply bind_ok in B as (sg & _ & B). injection B as <- <-. reflexivity.
Qed.
Lemma r_kp_build P f1 f2 s b v cs cred skp : steady P cs -> (forall n, returns (f1 n)) -> (forall n, returns (f2 n)) ->
  returns (snd (key_package_build P f1 f2 s b v cs cred skp)).
Proof.
  intros H F1 F2. unfold key_package_build, sbind.
  destruct (r_kp_new P f1 f2 v cs cred skp (or_default (b_lifetime b) (MkLifetime 0 0)) (or_default (b_extensions b) [])
             (or_default (b_capabilities b) (MkCapabilities [] [] [] [] [])) (or_default (b_leaf_extensions b) []) H F1 F2) as [R S].
  destruct (key_package_new _ _ _ _ _ _ _ _ _ _ _) as [[[kp ekp] ip]| | |] eqn:E; [|apply ret_err|destruct R as [[? R]|[? R]]; discriminate R|destruct R as [[? R]|[? R]]; discriminate R].
  specialize (S _ _ _ eq_refl). assert (R1 : returns (generate_ref P kp)) by (apply r_ref_of; rewrite S; exact H).
  destruct R1 as [[rf ->]|[e ->]]; [|apply ret_err].
  assert (R2 : returns (se_key_package kp)) by calm. destruct R2 as [[raw ->]|[e ->]]; [|apply ret_err].
  assert (R3 : returns (se_hpke_key_pair ekp)) by calm. destruct R3 as [[rawe ->]|[e ->]]; [|apply ret_err].
  assert (R4 : returns (se_secret_key ip)) by (unfold se_secret_key; calm). destruct R4 as [[rawi ->]|[e ->]]; [apply ret_ok|apply ret_err].
Qed.

Lemma r_proposal_loop n c l : forall adds touched psks gce, returns (proposal_loop n c adds touched psks gce l).
Proof.
  induction l as [|x l IH]; intros adds touched psks gce; cbn [proposal_loop]; [calm|].
  destruct x as [q s]. destruct q; repeat first [apply IH|match goal with |- returns (if ?b then _ else _) => destruct b end|calm1].
Qed.
Lemma r_proposals ps senders c : returns (verify_proposal_list ps senders c).
Proof. unfold verify_proposal_list. destruct (negb _); [calm|]. apply r_proposal_loop. Qed.
Lemma r_count ids n : n + N.of_nat (length ids) < 2147483648 -> returns (count_reinit_branch ids n).
Proof.
  revert n. induction ids as [|id ids IH]; intros n L; cbn [count_reinit_branch]; [calm|]. cbn [length] in L.
  destruct (pi_psk id) as [|rs]; [apply IH; lia|]. destruct (rs_usage rs); [apply IH; lia| |];
    (destruct (N.eqb_spec n 2147483647); [lia|]; apply IH; lia).
Qed.
Lemma r_single s : N.of_nat (length (gs_psk_ids s)) < 2147483648 -> returns (single_reinit_or_branch s).
Proof. intros L. unfold single_reinit_or_branch. apply ret_bind; [apply r_count; lia|intros; calm]. Qed.

Lemma r_padding bs : returns (check_padding bs).
Proof. induction bs as [|b bs IH]; cbn [check_padding]; calm. Qed.
Lemma r_application P cs m r g : steady P cs -> pv_content_type m = CTApplication -> returns (decrypt_content P cs m r g).
Proof.
  intros H E. unfold decrypt_content. rewrite E. apply ret_bind; [apply r_mkn, H|intros [key nonce] _]. apply ret_bind; [calm|intros aad _].
  apply ret_bind; [calm|intros k K]. apply ret_bind; [calm|intros raw _]. unfold de_private_content.
  apply ret_bind; [calm|intros [c bs] _]. apply ret_bind; [apply (ret_desafe (de_auth_data CTApplication)); typeclasses eauto|intros [a bs'] _].
  apply ret_bind; [apply r_padding|intros; calm].
Qed.

Lemma c79_insider P cs k r guard key nonce gid epoch ad esd aad c : aead_ok P cs -> p_hpke P cs = Ok k ->
  message_key_nonce P cs r guard = Ok (key, nonce) -> se_private_content_aad (MkPrivateAAD gid epoch CTProposal ad) = Ok aad ->
  a_seal k key nonce cut_update aad = Ok c -> decrypt_content P cs (MkPrivate gid epoch CTProposal ad esd c) r guard = Panic.
Proof.
  intros A K M S E. unfold decrypt_content. rewrite M. cbn [bind pv_group_id pv_epoch pv_content_type pv_auth_data pv_ciphertext]. rewrite S. cbn [bind]. rewrite K. cbn [bind].
  rewrite (A _ _ _ _ _ _ K E). reflexivity.
Qed.
Lemma c79_generation P cs r s : rt_generation r = 4294967295 -> (exists k, p_hpke P cs = Ok k) ->
  (forall k, p_hpke P cs = Ok k -> derive_tree_secret P cs (rt_secret r) (str "secret") 4294967295 (nh k) = Ok s) -> derive_next P cs r = Panic.
Proof. intros G [k K] E. unfold derive_next. rewrite K, G. cbn [bind]. change (k_extract_size k mod 65536) with (nh k). rewrite (E k K). reflexivity. Qed.

Lemma find_stored_in s l raw : find_stored s l = Some raw -> exists k, ks_retrieve s k = Some raw.
Proof. induction l as [|e l IH]; cbn; [discriminate|]. destruct (ks_retrieve s (egs_new_member e)) eqn:E; [intros [= <-]; eauto|exact IH]. Qed.
Lemma r_from_welcome P s w : (forall cs, steady P cs) -> (forall k raw, ks_retrieve s k = Some raw -> de_key_package raw <> Panic) -> returns (snd (from_welcome P s w)).
Proof.
  intros H D. unfold from_welcome, sbind, ok_or_no_match. destruct (find_stored s (w_secrets w)) as [raw|] eqn:F; [|apply ret_err].
  apply find_stored_in in F as [k F]. specialize (D _ _ F).
  assert (R : returns (de_exact de_key_package raw)).
  { unfold de_exact. apply ret_bind; [|intros [kp r] _; calm]. apply ret_iff. split; [exact D|]. apply (desafe_hangs (de := de_key_package)). typeclasses eauto. }
  destruct R as [[kp ->]|[e ->]]; [|apply ret_err].
  assert (R : returns (generate_ref P kp)) by (apply r_ref_of, H). destruct R as [[rf ->]|[e ->]]; [|apply ret_err].
  destruct (ks_retrieve (ks_delete s rf) _) as [rawi|]; [|apply ret_err].
  assert (R : returns (de_exact de_secret_key rawi)) by (unfold de_exact, de_secret_key; calm). destruct R as [[x ->]|[e ->]]; [apply ret_ok|apply ret_err].
Qed.

Lemma lookup_ret t cs : t = rust_table \/ t = ring_table -> returns (lookup t cs).
Proof. intros [-> | ->]; destruct cs; cbn; first [apply ret_ok|apply ret_err]. Qed.
Lemma lookup_sig t cs d : t = rust_table \/ t = ring_table -> lookup t cs = Ok d -> d_signature d = ED25519 \/ (cs = Suite2 /\ d_signature d = ECDSA_SECP256R1_SHA256).
Proof. intros [-> | ->]; destruct cs; cbn; intros [= <-]; cbn; auto. Qed.
Lemma r_open p a key nonce ct aad : steady_prims p -> returns (rust_open p a key nonce ct aad) /\ returns (ring_open p a key nonce ct aad).
Proof. intros H. unfold rust_open, ring_open. split; (apply ret_bind; [apply (sp_open _ H)|intros [x y] _; calm]). Qed.
Lemma c79_bundled p P cs : bundled p P -> steady_prims p -> cs <> Suite2 -> steady P cs.
Proof.
  intros [-> | ->] H N.
  - split; cbn [rust_provider p_hash p_hpke p_sig p_base_seal p_base_open]; try (apply ret_bind; [apply lookup_ret; auto|intros; calm]).
    1-5: intros k; intros; match goal with E : bind _ _ = Ok k |- _ => apply bind_ok in E as (d & L & E); injection E as <- end; cbn [rust_hpke k_derive_key_pair k_expand k_extract a_open a_seal].
    + unfold derive_key_pair. calm.
    + unfold rust_expand. calm.
    + unfold bundled_extract. calm.
    + apply r_open, H.
    + apply (sp_seal _ H).
    + intros s key msg E. apply bind_ok in E as (d & L & E). injection E as <-. cbn. destruct (lookup_sig _ _ _ (or_introl eq_refl) L) as [-> |[X _]]; [|contradiction].
      unfold rust_sign. calm.
    + intros s key msg sg E. apply bind_ok in E as (d & L & E). injection E as <-. cbn. unfold bundled_verify. destruct (d_signature d); first [apply (sp_verify _ H)|calm].
    + intros. apply (sp_base_seal _ H).
    + intros. apply (sp_base_open _ H).
  - split; cbn [ring_provider p_hash p_hpke p_sig p_base_seal p_base_open]; try (apply ret_bind; [apply lookup_ret; auto|intros; calm]).
    1-5: intros k; intros; match goal with E : bind _ _ = Ok k |- _ => apply bind_ok in E as (d & L & E); injection E as <- end; cbn [ring_hpke k_derive_key_pair k_expand k_extract a_open a_seal].
    + unfold derive_key_pair. calm.
    + unfold ring_expand. calm.
    + unfold bundled_extract. calm.
    + apply r_open, H.
    + apply (sp_seal _ H).
    + intros s key msg E. apply bind_ok in E as (d & L & E). injection E as <-. cbn. destruct (lookup_sig _ _ _ (or_intror eq_refl) L) as [-> |[X _]]; [|contradiction].
      unfold ring_sign. calm.
    + intros s key msg sg E. apply bind_ok in E as (d & L & E). injection E as <-. cbn. unfold bundled_verify. destruct (d_signature d); first [apply (sp_verify _ H)|calm].
    + intros. apply (sp_base_seal _ H).
    + intros. apply (sp_base_open _ H).
Qed.
Lemma c79_p256 p P : bundled p P -> exists s, p_sig P Suite2 = Ok s /\ forall key msg,
  (length key <> 32%nat -> s_sign s key msg = Panic) /\ (length key = 32%nat -> returns (s_sign s key msg)).
Proof.
  intros [-> | ->]; eexists; (split; [reflexivity|]); intros key msg; cbn; (split; intros L; [|rewrite L; cbn; calm]).
  - apply Nat.eqb_neq in L. rewrite L. reflexivity.
  - apply Nat.eqb_neq in L. rewrite L. reflexivity.
Qed.

Lemma c79_crypto : forall P cs, steady P cs ->
  (forall key msg, returns (sign_mac P cs key msg)) /\
  (forall key msg tag, returns (verify_mac P cs key msg tag)) /\
  (forall label v, returns (ref_hash P cs label v)) /\
  (forall s label c n, returns (expand_with_label P cs s label c n)) /\
  (forall s label, returns (derive_secret P cs s label)) /\
  (forall key label c, returns (sign_with_label P cs key label c)) /\
  (forall key label c sig, returns (verify_with_label P cs key label c sig)) /\
  (forall e pk label c pt, returns (encrypt_with_label P cs e pk label c pt)) /\
  (forall sk label c kem ct, returns (decrypt_with_label P cs sk label c kem ct)) /\
  (forall g init commit, gc_suite g = cs -> returns (extract_joiner_secret P g init commit)) /\
  (forall g joiner psk, gc_suite g = cs -> returns (extract_epoch_secret P g joiner psk)) /\
  (forall joiner psk, returns (extract_welcome_secret P cs joiner psk)) /\
  (forall ids psks, returns (extract_psk_secret P cs ids psks)) /\
  (forall c interim, returns (confirmed_hash P cs c interim)) /\
  (forall confirmed tag, returns (next_interim_hash P cs confirmed tag)) /\
  (forall n s, 0 < n -> n <= 2147483648 -> returns (new_secret_tree P cs n s)) /\
  (forall t x l, returns (derive_ratchet_root P cs t x l)) /\
  (forall r, returns (derive_nonce P cs r)) /\
  (forall r, returns (derive_key P cs r)) /\
  (forall r, rt_generation r < 4294967295 -> returns (derive_next P cs r)).
Proof.
  intros P cs H. repeat split; intros; subst; auto using r_mac, r_vmac, r_ref, r_expand, r_derive, r_sign, r_verify, r_encrypt, r_decrypt, r_joiner, r_epoch,
    r_welcome, r_psk, r_confirmed, r_interim, r_secret_tree, r_root, r_nonce, r_key, r_next.
Qed.

Lemma c79_messages : forall P cs, steady P cs ->
  (forall key w c ctx, returns (new_auth_content P cs key w c ctx)) /\
  (forall a key ctx, returns (verify_content_signature P cs a key ctx)) /\
  (forall a key confirmed, returns (verify_auth_confirmation_tag P cs a key confirmed)) /\
  (forall key c ctx, returns (new_public_message P cs key c ctx)) /\
  (forall m key ctx, returns (sign_membership_tag P cs m key ctx)) /\
  (forall m key ctx, returns (verify_membership_tag P cs m key ctx)) /\
  (forall key r sds c sd ctx, returns (new_private_message P cs key r sds c sd ctx)) /\
  (forall m sds, returns (decrypt_sender_data P cs m sds)) /\
  (forall m r guard, pv_content_type m = CTApplication -> returns (decrypt_content P cs m r guard)) /\
  (forall ps senders committer, returns (verify_proposal_list ps senders committer)).
Proof.
  intros P cs H. repeat split; intros; auto using r_auth, r_vauth, r_vtag, r_public, r_membership, r_vmembership, r_private, r_dsd, r_application, r_proposals.
Qed.

Lemma c79_joining : forall P cs, steady P cs ->
  (forall w ref key, w_suite w = cs -> returns (decrypt_group_secrets P w ref key)) /\
  (forall w joiner psk, w_suite w = cs -> returns (decrypt_group_info P w joiner psk)) /\
  (forall g pk, gc_suite (gi_context g) = cs -> returns (group_info_verify_signature P g pk)) /\
  (forall g joiner psk, gc_suite (gi_context g) = cs -> returns (group_info_verify_tag P g joiner psk)) /\
  (forall s, N.of_nat (length (gs_psk_ids s)) < 2147483648 -> returns (single_reinit_or_branch s)) /\
  (forall fill cred skp src caps exts ti, (forall n, returns (fill n)) -> returns (leaf_node_new P fill cs cred skp src caps exts ti)) /\
  (forall l o, lo_suite o = cs -> returns (leaf_verify P l o)) /\
  (forall kp, kp_suite (kp_payload kp) = cs -> returns (generate_ref P kp)) /\
  (forall kp ctx, kp_suite (kp_payload kp) = cs -> returns (key_package_verify P kp ctx)) /\
  (forall f1 f2 s b v cred skp, (forall n, returns (f1 n)) -> (forall n, returns (f2 n)) -> returns (snd (key_package_build P f1 f2 s b v cs cred skp))).
Proof.
  intros P cs H. repeat split; intros; subst;
    auto using r_group_secrets, r_group_info, r_gi_sig, r_gi_tag, r_single, r_leaf_new, r_leaf_verify, r_ref_of, r_kp_verify, r_kp_build.
Qed.
