(** Proofs about the uses of signature keys (SpecAuth.v). *)
From Verif Require Import CodecLib WireCodecs LayoutFacts SecretFacts SpecWelcome MessageFacts LeafFacts WelcomeFacts KeyStoreFacts Verified SpecAuth.
Local Open Scope N_scope.

Lemma text_labelled s : signed_text s = labelled (purpose s) (to_be_signed s).
Proof. unfold signed_text, labelled, mls_label. rewrite !opaqueV_vec. reflexivity. Qed.
Lemma purpose_fits s : fits30 (mls_label (purpose s)).
Proof. destruct s; reflexivity. Qed.
Lemma tbs_fits s : sayable s -> fits30 (to_be_signed s).
Proof. intros [_ H]. exact H. Qed.

Lemma info_signed g : (exists b, se_group_info_base g = Ok b) -> fits30 (to_be_signed (SaidInfo g)) -> group_info_signed g (signed_text (SaidInfo g)).
Proof.
  intros [b B] F. exists b. rewrite <- base_eq. split; [exact B|]. pose proof (l_gi_base g b B) as E. split; [rewrite E; exact F|]. rewrite text_labelled, E. reflexivity.
Qed.

Lemma one_meaning s s' : sayable s -> sayable s' -> signed_text s = signed_text s' -> same_said s s'.
Proof.
  intros H H' E. pose proof E as E0. rewrite !text_labelled in E.
  apply labelled_inj in E as [L T]; try apply purpose_fits; try (apply tbs_fits; assumption).
  destruct H as [H F], H' as [H' F'].
  destruct s as [p g i|k|g|w f g], s' as [p' g' i'|k'|g'|w' f' g']; try discriminate L; cbn [to_be_signed same_said] in *.
  - destruct H as (W & I & b & B), H' as (W' & I' & b' & B'). pose proof (l_leaf_tbs _ _ _ _ B) as Q. pose proof (l_leaf_tbs _ _ _ _ B') as Q'.
    rewrite <- Q in T. rewrite <- Q' in T. subst b'. exact (leaf_tbs_inj _ _ _ _ _ _ _ W W' I I' B B').
  - destruct H as (W & b & B), H' as (W' & b' & B'). pose proof (l_kp_tbs _ _ B) as Q. pose proof (l_kp_tbs _ _ B') as Q'.
    rewrite <- Q in T. rewrite <- Q' in T. subst b'. exact (codec_inj codec_key_package_tbs _ _ _ W W' B B').
  - destruct H as (W & B), H' as (W' & B'). apply (c58_covers g g' (signed_text (SaidInfo g))); [exact W|exact W'|apply info_signed; assumption|].
    rewrite E0. apply info_signed; assumption.
  - destruct H as (W & G & b & B), H' as (W' & G' & b' & B'). pose proof (l_tbs _ _ _ _ _ B) as Q. pose proof (l_tbs _ _ _ _ _ B') as Q'.
    rewrite <- Q in T. rewrite <- Q' in T. subst b'. exact (tbs_inj _ _ _ _ _ _ _ W W' G G' B B').
Qed.

(** A statement whose signature verifies was made. *)
Lemma said_if P cs pk log s a sig : only_said P cs pk log -> sayable s -> p_sig P cs = Ok a -> s_verify a pk (signed_text s) sig = Ok tt -> is_said log s.
Proof.
  intros [Y O] H A V. destruct (O a _ sig A V) as (s' & I & E). exists s'. split; [exact I|]. apply one_meaning; [exact H|exact (Y s' I)|exact E].
Qed.

Lemma c85_leaf P pk log l o : only_said P (lo_suite o) pk log -> wf_leaf_payload (ln_payload l) -> lo_leaf_index o < 4294967296 ->
  lp_signature_key (ln_payload l) = pk -> leaf_verify P l o = Ok tt -> is_said log (SaidLeaf (ln_payload l) (lo_group_id o) (lo_leaf_index o)).
Proof.
  intros O W I K V. apply leaf_verify_iff in V as [(tbs & m & s & T & M & S & V) _]. apply label_data_ok in M as (_ & F & ->). rewrite K in V.
  pose proof (l_leaf_tbs _ _ _ _ T) as E. apply (said_if P (lo_suite o) pk log _ s (ln_signature l) O); [|exact S|].
  - split; [split; [exact W|split; [exact I|exists tbs; exact T]]|]. cbn [to_be_signed]. rewrite <- E. exact F.
  - rewrite text_labelled. cbn [purpose to_be_signed]. rewrite <- E. exact V.
Qed.

Lemma c85_package P pk log kp ctx : only_said P (kp_suite (kp_payload kp)) pk log -> wf_key_package_tbs (kp_payload kp) ->
  lp_signature_key (ln_payload (kp_leaf (kp_payload kp))) = pk -> key_package_verify P kp ctx = Ok tt -> is_said log (SaidPackage (kp_payload kp)).
Proof.
  intros O W K V. apply c52_iff in V as (_ & _ & _ & (raw & m & s & R & F & -> & S & V) & _). rewrite K in V. pose proof (l_kp_tbs _ _ R) as E.
  apply (said_if P _ pk log _ s (kp_signature kp) O); [|exact S|].
  - split; [split; [exact W|exists raw; exact R]|]. cbn [to_be_signed]. rewrite <- E. exact F.
  - rewrite text_labelled. cbn [purpose to_be_signed]. rewrite <- E. exact V.
Qed.

Lemma c85_info P pk log g : only_said P (gc_suite (gi_context g)) pk log -> wf_group_info g -> group_info_verify_signature P g pk = Ok tt -> is_said log (SaidInfo g).
Proof.
  intros O W V. destruct (p_sig P (gc_suite (gi_context g))) as [s| | |] eqn:S.
  2-4: exfalso; unfold group_info_verify_signature, verify_with_label in V; apply bind_ok in V as (raw & _ & V); apply bind_ok in V as (m & _ & V); rewrite S in V; discriminate.
  apply (c58_signature P g pk s S) in V. destruct V as [m [[raw [R [F M]]] V]]. subst m. rewrite <- base_eq in R. pose proof (l_gi_base _ _ R) as E.
  apply (said_if P _ pk log _ s (gi_signature g) O); [|exact S|].
  - split; [split; [exact W|exists raw; exact R]|]. cbn [to_be_signed]. rewrite <- E. exact F.
  - rewrite text_labelled. cbn [purpose to_be_signed]. rewrite <- E. exact V.
Qed.

Lemma c85_content P cs pk log a ctx : only_said P cs pk log -> wf_framed_content (ac_content a) -> wf_group_context ctx ->
  verify_content_signature P cs a pk ctx = Ok tt -> is_said log (SaidContent (ac_wire_format a) (ac_content a) ctx).
Proof.
  intros O W G V. destruct (p_sig P cs) as [s| | |] eqn:S.
  2-4: exfalso; unfold verify_content_signature, verify_auth_signature, verify_with_label in V; apply bind_ok in V as (raw & _ & V); apply bind_ok in V as (m & _ & V); rewrite S in V; discriminate.
  apply (verify_iff P cs s a pk ctx S) in V. destruct V as [m [[raw [R [F M]]] V]]. subst m. pose proof (l_tbs _ _ _ _ _ R) as E.
  apply (said_if P _ pk log _ s (ad_signature (ac_auth a)) O); [|exact S|].
  - split; [split; [exact W|split; [exact G|exists raw; exact R]]|]. cbn [to_be_signed]. rewrite <- E. exact F.
  - rewrite text_labelled. cbn [purpose to_be_signed]. rewrite <- E. exact V.
Qed.

Lemma c85_tree P t d ctx now pk log i l : tsized t d -> tlen t < 4294967296 -> (forall x nd, tget t x = Some nd -> in_tree d x) -> verify_integrity P t ctx now = Ok tt -> only_said P (gc_suite ctx) pk log ->
  i < 4294967296 -> leaf_at t i = Some l -> wf_leaf_payload (ln_payload l) -> lp_signature_key (ln_payload l) = pk ->
  is_said log (SaidLeaf (ln_payload l) (gc_group_id ctx) i).
Proof.
  intros G1 G2 G3 V O I L W K. apply (verify_integrity_iff P t ctx now d G1 G2 G3) in V.
  destruct (vf_leaves _ _ _ _ _ V) as (creds & _ & H). destruct (H i l L) as [(tbs & m & s & T & M & S & Y) _]. apply label_data_ok in M as (_ & F & ->). rewrite K in Y.
  pose proof (l_leaf_tbs _ _ _ _ T) as E. apply (said_if P (gc_suite ctx) pk log _ s (ln_signature l) O); [|exact S|].
  - split; [split; [exact W|split; [exact I|exists tbs; exact T]]|]. cbn [to_be_signed]. rewrite <- E. exact F.
  - rewrite text_labelled. cbn [purpose to_be_signed]. rewrite <- E. exact Y.
Qed.

(** * What the library signs *)
Lemma sign_ok P cs key s sig raw : raw = to_be_signed s -> sign_with_label P cs key (purpose s) raw = Ok sig ->
  exists a, p_sig P cs = Ok a /\ s_sign a key (signed_text s) = Ok sig.
Proof.
  intros -> H. unfold sign_with_label in H. apply bind_ok in H as (m & M & H). apply bind_ok in H as (a & A & H). apply label_data_ok in M as (_ & _ & ->).
  exists a. split; [exact A|]. rewrite text_labelled. exact H.
Qed.
Lemma c85_signs P cs :
  (forall sk w c ctx a, new_auth_content P cs sk w c ctx = Ok a ->
     exists s, p_sig P cs = Ok s /\ s_sign s sk (signed_text (SaidContent w c ctx)) = Ok (ad_signature (ac_auth a))) /\
  (forall fill cred skp src caps exts g i l kp, leaf_node_new P fill cs cred skp src caps exts (TIUpdateOrCommit g i) = Ok (l, kp) ->
     exists s, p_sig P cs = Ok s /\ s_sign s (skp_public skp) (signed_text (SaidLeaf (ln_payload l) g i)) = Ok (ln_signature l)) /\
  (forall fill v cred skp lt kexts caps lexts init k kp, key_package_from_keys P fill v cs cred skp lt kexts caps lexts init = Ok (k, kp) ->
     exists s, p_sig P cs = Ok s /\ s_sign s (skp_public skp) (signed_text (SaidPackage (kp_payload k))) = Ok (kp_signature k) /\
       let l := kp_leaf (kp_payload k) in forall g i, s_sign s (skp_public skp) (signed_text (SaidLeaf (ln_payload l) g i)) = Ok (ln_signature l)).
Proof.
  split; [|split].
  - intros sk w c ctx a H. apply new_auth_ok in H as (s & m & S & (raw & R & F & ->) & Y & _ & _ & _). exists s. split; [exact S|].
    rewrite text_labelled. cbn [purpose to_be_signed]. rewrite <- (l_tbs _ _ _ _ _ R). exact Y.
  - intros fill cred skp src caps exts g i l kp H. unfold leaf_node_new in H. apply bind_ok in H as (h & _ & H). apply bind_ok in H as (ikm & _ & H).
    apply bind_ok in H as (k & _ & H). apply bind_ok in H as (e & _ & H). apply bind_ok in H as (tbs & T & H). apply bind_ok in H as (sig & Y & H). apply Ok_inj in H.
    injection H as <- _. cbn [ln_payload ln_signature]. refine (sign_ok P cs _ (SaidLeaf _ _ _) _ tbs _ Y). exact (l_leaf_tbs _ _ _ _ T).
  - intros fill v cred skp lt kexts caps lexts init k kp H. unfold key_package_from_keys in H. apply bind_ok in H as ([l e] & L & H).
    apply bind_ok in H as (raw & R & H). apply bind_ok in H as (sig & Y & H). apply Ok_inj in H. injection H as <- _. cbn [kp_payload kp_signature kp_leaf].
    destruct (sign_ok P cs _ (SaidPackage _) _ raw (l_kp_tbs _ _ R) Y) as (s & S & Z). exists s. split; [exact S|]. split; [exact Z|]. intros g i.
    unfold leaf_node_new in L. apply bind_ok in L as (h & _ & L). apply bind_ok in L as (ikm & _ & L).
    apply bind_ok in L as (k & _ & L). apply bind_ok in L as (e' & _ & L). apply bind_ok in L as (tbs & T & L). apply bind_ok in L as (sig' & Y' & L). apply Ok_inj in L.
    injection L as <- _. cbn [ln_payload ln_signature].
    destruct (sign_ok P cs _ (SaidLeaf (MkLeafPayload (hkp_public e') (skp_public skp) cred caps (LSKeyPackage lt) lexts) g i) _ tbs (l_leaf_tbs_kp (MkLeafPayload (hkp_public e') (skp_public skp) cred caps (LSKeyPackage lt) lexts) lt _ g i eq_refl T) Y') as (s' & S' & Z').
    rewrite S in S'. apply Ok_inj in S'. subst s'. exact Z'.
Qed.

(** * Example: a key that was used for three statements *)
Definition ex_said_leaf : said := SaidLeaf (ln_payload (ex_signed x01 LSUpdate (str "group") 3)) (str "group") 3.
Definition ex_said_content : said := SaidContent WFPublicMessage (ex_framed (SMember 3) (CApplication [x07])) ex_gc.
Definition ex_log : list said := [ex_said_leaf; SaidPackage (kp_payload (ex_kp x01)); ex_said_content].
Definition log_sig (log : list said) : sig_alg :=
  MkSig ED25519 (fun k m => Ok [x01]) (fun k m s => if existsb (fun x => bytes_eqb m (signed_text x)) log then Ok tt else Err RustCryptoError).
Definition log_provider (log : list said) : provider :=
  MkProvider (p_supports toy) (p_supported toy) (p_hash toy) (p_hpke toy) (fun _ => Ok (log_sig log)) (p_base_seal toy) (p_base_open toy).
Lemma ex_log_only cs pk : only_said (log_provider ex_log) cs pk ex_log.
Proof.
  split.
  - intros s [<-|[<-|[<-|[]]]].
    + split; [|reflexivity]. split; [|split; [reflexivity|eexists; vm_compute; reflexivity]].
      unfold wf_leaf_payload, wf_capabilities, wf_leaf_node_source, wf_lifetime, wf_extensions, wf_extension. ex_wf.
    + split; [|reflexivity]. split; [exact (ex_kp_wf x01)|eexists; vm_compute; reflexivity].
    + split; [|reflexivity]. split; [|split; [exact ex_gc_wf|eexists; vm_compute; reflexivity]]. split; [reflexivity|split; [reflexivity|exact I]].
  - intros a m sig A V. apply Ok_inj in A. subst a. unfold log_sig in V. cbn [s_verify] in V. destruct (existsb _ ex_log) eqn:E; [|discriminate].
    apply existsb_exists in E as (s & I & E). exists s. split; [exact I|]. apply bytes_eqb_eq in E. exact E.
Qed.
