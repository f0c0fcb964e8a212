(** Facts about leaf-node validation, in the form of the property theorems. *)
From Verif Require Export TreeFacts.
From Coq Require Import ZifyBool ZifyNat ZifyN.
Local Open Scope N_scope.

Lemma mem_in {A} (eqb : A -> A -> bool) (H : forall a b, eqb a b = true <-> a = b) x l : mem eqb x l = true <-> In x l.
Proof.
  unfold mem. rewrite existsb_exists. split; [intros (y & I & E); apply H in E; subst; exact I|intros I; exists x; split; [exact I|apply H; reflexivity]].
Qed.
Lemma extension_type_eqb_eq a b : extension_type_eqb a b = true <-> a = b.
Proof.
  destruct a, b; cbn; split; intros E; try reflexivity; try discriminate; try (apply N.eqb_eq in E; congruence); try (injection E as ->; apply N.eqb_refl).
Qed.
Lemma check_extensions_iff sup l : check_extensions sup l = Ok tt <-> forall e, In e l -> In (ext_type e) sup.
Proof.
  induction l as [|e l IH]; cbn [check_extensions]; [split; [intros _ ? []|reflexivity]|].
  destruct (mem extension_type_eqb (ext_type e) sup) eqn:E.
  - rewrite IH. apply (mem_in _ extension_type_eqb_eq) in E. split; [intros H x [<-|I]; auto|intros H x I; apply H; right; exact I].
  - split; [discriminate|]. intros H. specialize (H e (or_introl eq_refl)). apply (mem_in _ extension_type_eqb_eq) in H. congruence.
Qed.
Lemma check_extensions_ok_or sup l : check_extensions sup l = Ok tt \/ exists e, check_extensions sup l = Err e.
Proof.
  induction l as [|e l IH]; cbn [check_extensions]; [auto|]. destruct (mem _ _ _); [exact IH|eauto].
Qed.

Lemma leaf_verify_signature_iff P cs l g i : leaf_verify_signature P cs l (TIUpdateOrCommit g i) = Ok true <-> leaf_signed P cs l g i.
Proof.
  unfold leaf_verify_signature, leaf_signed. split.
  - destruct (se_leaf_node_tbs _ _) as [tbs|e| |]; try discriminate. unfold verify_with_label, leaf_node_label.
    destruct (mls_prefix_label_data (str "LeafNodeTBS") tbs) as [m|e| |] eqn:E; cbn [bind is_ok]; try discriminate.
    destruct (p_sig P cs) as [s|e| |]; cbn [bind is_ok]; try discriminate.
    destruct (s_verify s _ m _) as [[]|e| |] eqn:V; cbn [is_ok]; try discriminate. intros _. exists tbs, m, s. auto.
  - intros (tbs & m & s & E & M & S & V). rewrite E. unfold verify_with_label, leaf_node_label. rewrite M. cbn [bind]. rewrite S. cbn [bind]. rewrite V. reflexivity.
Qed.

(** * Lifetimes (times in nanoseconds since the epoch) *)

Lemma lifetime_iff l t : lifetime_verify l t = true <->
  (Z.of_N (not_after l) * 1000 < t)%Z /\ not_before l + 2160000000 <= not_after l.
Proof.
  unfold lifetime_verify, not_before_time, not_after_time, max_lifetime. destruct (Z.leb_spec (Z.of_N (not_before l) * 1000) (Z.of_N (not_after l) * 1000)); [|lia].
  match goal with |- context [if ?c then _ else _] => destruct c eqn:E end; lia.
Qed.
Lemma lifetime_inverted l t : (Z.of_N (not_before l) * 1000 <= t <= Z.of_N (not_after l) * 1000)%Z -> lifetime_verify l t = false.
Proof.
  intros H. destruct (lifetime_verify l t) eqn:E; [|reflexivity]. apply lifetime_iff in E. lia.
Qed.

Lemma leaf_verify_iff P l o : leaf_verify P l o = Ok tt <->
  leaf_signed P (lo_suite o) l (lo_group_id o) (lo_leaf_index o) /\
  In (credential_type_of (lp_credential (ln_payload l))) (lo_supported_creds o) /\
  (forall lt, lp_source (ln_payload l) = LSKeyPackage lt -> (0 < lo_now o)%Z -> lifetime_accepted lt (lo_now o)) /\
  (forall e, In e (lp_extensions (ln_payload l)) -> In (ext_type e) (cap_extensions (lp_capabilities (ln_payload l)))) /\
  ~ In (lp_signature_key (ln_payload l)) (lo_signature_keys o) /\
  ~ In (lp_encryption_key (ln_payload l)) (lo_encryption_keys o).
Proof.
  rewrite <- leaf_verify_signature_iff, <- check_extensions_iff, <- (mem_in _ credential_type_eqb_eq), <- !(mem_in _ bytes_eqb_eq). unfold leaf_verify.
  destruct (leaf_verify_signature _ _ _ _) as [[]|e| |]; cbn [bind negb]; try (split; [discriminate|intros (Q & _); discriminate]).
  destruct (mem credential_type_eqb _ _); cbn [negb]; [|split; [discriminate|intros (_ & Q & _); discriminate]].
  match goal with |- (if ?c then _ else _) = _ <-> _ => destruct c eqn:B end.
  { split; [discriminate|]. intros (_ & _ & Q & _). destruct (lp_source (ln_payload l)) as [lt| |ph] eqn:S; try discriminate.
    destruct (Z.ltb_spec 0 (lo_now o)) as [L|L]; [|discriminate]. rewrite (proj2 (lifetime_iff _ _) (Q lt eq_refl L)) in B. discriminate. }
  destruct (check_extensions_ok_or (cap_extensions (lp_capabilities (ln_payload l))) (lp_extensions (ln_payload l))) as [X|(e & X)]; rewrite X; cbn [bind];
    [|split; [discriminate|intros (_ & _ & _ & Q & _); discriminate]].
  destruct (mem bytes_eqb (lp_signature_key _) _); [split; [discriminate|intros (_ & _ & _ & _ & Q & _); exfalso; apply Q; reflexivity]|].
  destruct (mem bytes_eqb (lp_encryption_key _) _); [split; [discriminate|intros (_ & _ & _ & _ & _ & Q); exfalso; apply Q; reflexivity]|].
  split; [|reflexivity]. intros _. repeat match goal with |- _ /\ _ => split end; try reflexivity; try discriminate.
  intros lt S L. rewrite S in B. destruct (Z.ltb_spec 0 (lo_now o)); [|lia]. cbn in B. apply lifetime_iff. destruct (lifetime_verify lt (lo_now o)); [reflexivity|discriminate].
Qed.

Lemma label_data_inj l l' d d' m : mls_prefix_label_data l d = Ok m -> mls_prefix_label_data l' d' = Ok m -> l = l' /\ d = d'.
Proof.
  unfold mls_prefix_label_data. intros H H'. apply seqw_ok in H as (a & b & A & B & ->). apply seqw_ok in H' as (a' & b' & A' & B' & E).
  destruct (codec_prefix_free codec_opaque _ _ _ _ _ _ I I A A' E) as [Q R]. apply app_inv_head in Q. subst b'. split; [exact Q|].
  exact (codec_inj codec_opaque _ _ _ I I B B').
Qed.

Lemma leaf_tbs_inj p p' g g' i i' b : wf_leaf_payload p -> wf_leaf_payload p' -> i < 4294967296 -> i' < 4294967296 ->
  se_leaf_node_tbs p (TIUpdateOrCommit g i) = Ok b -> se_leaf_node_tbs p' (TIUpdateOrCommit g' i') = Ok b ->
  p = p' /\ ((forall lt, lp_source p <> LSKeyPackage lt) -> g = g' /\ i = i').
Proof.
  unfold se_leaf_node_tbs. intros W W' L L' H H'. apply seqw_ok in H as (a & c & A & C & ->). apply seqw_ok in H' as (a' & c' & A' & C' & E).
  destruct (codec_prefix_free codec_leaf_payload _ _ _ _ _ _ W W' A A' E) as [<- <-]. split; [reflexivity|]. intros N.
  assert (T : exists x, se_opaque g +++ put_u32 i = Ok x /\ se_opaque g' +++ put_u32 i' = Ok x).
  { destruct (lp_source p) as [lt| |ph]; [exfalso; eapply N; reflexivity| |]; eauto. }
  destruct T as (x & X & X'). apply seqw_ok in X as (u & v & U & V & ->). apply seqw_ok in X' as (u' & v' & U' & V' & Q).
  destruct (codec_prefix_free codec_opaque _ _ _ _ _ _ I I U U' Q) as [<- <-]. split; [reflexivity|]. exact (codec_inj codec_u32 _ _ _ L L' V V').
Qed.
Lemma leaf_signed_inj p p' g g' i i' b b' m : wf_leaf_payload p -> wf_leaf_payload p' -> i < 4294967296 -> i' < 4294967296 ->
  se_leaf_node_tbs p (TIUpdateOrCommit g i) = Ok b -> se_leaf_node_tbs p' (TIUpdateOrCommit g' i') = Ok b' ->
  mls_prefix_label_data (str "LeafNodeTBS") b = Ok m -> mls_prefix_label_data (str "LeafNodeTBS") b' = Ok m ->
  p = p' /\ ((forall lt, lp_source p <> LSKeyPackage lt) -> g = g' /\ i = i').
Proof.
  intros W W' L L' H H' M M'. destruct (label_data_inj _ _ _ _ _ M M') as [_ <-]. eapply leaf_tbs_inj; eassumption.
Qed.


(** * Example leaves *)

(** A leaf signed with the toy provider for group [g], position [i]. *)
Definition ex_signed (k : byte) (src : leaf_node_source) (g : bytes) (i : N) : leaf_node :=
  let p := MkLeafPayload [k; x11; x12] [k; x21] (CredBasic (str "alice")) ex_caps src [MkExtension (ExtUnknown 0xff01) [x07]] in
  MkLeafNode p (ok_or [] (let* tbs := se_leaf_node_tbs p (TIUpdateOrCommit g i) in sign_with_label toy Suite1 [k; x21] leaf_node_label tbs)).
Definition ex_options (i : N) : leaf_options := MkLeafOptions Suite1 (str "group") i [CtBasic] [[x99; x21]] [] 5000%Z.

Definition ex_dup_caps (l : list credential_type) : leaf_node :=
  MkLeafNode (MkLeafPayload [x01] [x02] (CredBasic []) (MkCapabilities [MLS10] [Suite1] [] [] l) LSUpdate []) [].
(** A tree whose members list X509 twice and never; one whose single member lists Basic twice; no members. *)
Lemma c31_refuted_accepts : exists t d cs, good t d /\ supported_creds t = Ok cs /\ In CtX509 cs /\
  exists i l, leaf_at t i = Some l /\ ~ In CtX509 (cap_credentials (lp_capabilities (ln_payload l))).
Proof.
  exists [Some (Leaf (ex_dup_caps [CtX509; CtX509])); None; Some (Leaf (ex_dup_caps []))], 1, [CtX509].
  split; [|split; [reflexivity|split; [left; reflexivity|]]].
  - destruct (history_good toy Suite1 _ 0 [Some (Leaf (ex_dup_caps [CtX509; CtX509])); None; Some (Leaf (ex_dup_caps []))] (good_single (ex_dup_caps [CtX509; CtX509]))) as [Q|(d & G)].
    + eapply hist; [constructor|]. apply (ts_add _ _ _ (ex_dup_caps [])); [exists 0; left; reflexivity|reflexivity].
    + discriminate.
    + assert (d = 1) as <-; [|exact G]. eapply size_unique; [exact (g_size _ _ G)|left; reflexivity].
  - exists 1, (ex_dup_caps []). split; [reflexivity|intros []].
Qed.
Lemma c31_refuted_rejects : exists t d cs, good t d /\ supported_creds t = Ok cs /\ ~ In CtBasic cs /\ (exists i l, leaf_at t i = Some l) /\
  forall i l, leaf_at t i = Some l -> In CtBasic (cap_credentials (lp_capabilities (ln_payload l))).
Proof.
  exists [Some (Leaf (ex_dup_caps [CtBasic; CtBasic]))], 0, []. split; [apply good_single|]. split; [reflexivity|]. split; [intros []|].
  split; [exists 0; eexists; reflexivity|]. intros i l E. destruct (N.eq_dec i 0) as [->|Q]; [injection E as <-; left; reflexivity|].
  unfold leaf_at in E. rewrite tget_beyond in E by (cbn; lia). discriminate.
Qed.
Lemma c31 t d : tsized t d -> tlen t < 4294967296 -> (exists i l, leaf_at t i = Some l) ->
  (forall i l, leaf_at t i = Some l -> NoDup (cap_credentials (lp_capabilities (ln_payload l)))) ->
  exists cs, supported_creds t = Ok cs /\
    forall ct, In ct cs <-> forall i l, leaf_at t i = Some l -> In ct (cap_credentials (lp_capabilities (ln_payload l))).
Proof. intros S L. exact (supported_iff t d (small_usized t d S L)). Qed.

Lemma total_occ dec ct ls : total ct ls = N.of_nat (count_occ dec (concat (map (fun il : N * leaf_node => creds_of (snd il)) ls)) ct).
Proof.
  induction ls as [|[i l] ls IH]; [reflexivity|]. cbn [total map concat snd]. rewrite count_occ_app, Nat2N.inj_add, <- IH. f_equal.
  unfold occ. f_equal. induction (creds_of l) as [|c r IH']; [reflexivity|]. cbn [count_occ].
  destruct (credential_type_eq_dec c ct), (dec c ct); congruence.
Qed.
Lemma c31_exact t d dec : tsized t d -> tlen t < 4294967296 ->
  exists cs ls, supported_creds t = Ok cs /\ NoDup (map fst ls) /\ (forall i l, In (i, l) ls <-> leaf_at t i = Some l) /\
    forall ct, In ct cs <-> ls <> [] /\
      count_occ dec (concat (map (fun il => cap_credentials (lp_capabilities (ln_payload (snd il)))) ls)) ct = length ls.
Proof.
  intros S L. pose proof (small_usized t d S L) as U. destruct (supported_total t d U) as (ls & cs & E & C & H).
  destruct (leaves_ok t d U) as (ls' & E' & SS & I). rewrite E in E'. injection E' as <-. exists cs, ls.
  split; [exact C|]. split; [|split; [exact I|]].
  - clear - SS. induction (map fst ls) as [|x r IH]; [constructor|]. inversion SS as [|? ? S1 F]; subst. constructor; [|apply IH, S1].
    intros Q. rewrite Forall_forall in F. apply F in Q. lia.
  - intros ct. rewrite H, (total_occ dec). unfold creds_of. split.
    + intros [A B]. split; [intros ->; cbn in A; lia|lia].
    + intros [A B]. split; [destruct ls; [congruence|cbn [length]; lia]|lia].
Qed.

Lemma c33 t d node i p : tsized t d -> tlen t < 4294967296 -> wf_leaf_node node -> (forall a l, leaf_at t a = Some l -> wf_leaf_node l) ->
  (forall a b l l', leaf_at t a = Some l -> leaf_at t b = Some l' -> lp_encryption_key (ln_payload l) = lp_encryption_key (ln_payload l') -> a = b) ->
  se_leaf_node node = Ok p ->
  (find_leaf t node = Ok (i, true) <-> leaf_at t i = Some node /\ forall j, leaf_at t j = Some node -> i <= j) /\
  ((exists j, leaf_at t j = Some node) <-> exists j, find_leaf t node = Ok (j, true)).
Proof.
  intros S L W WF K E. pose proof (small_usized t d S L) as U.
  assert (SND : forall i, find_leaf t node = Ok (i, true) -> leaf_at t i = Some node /\ forall j, leaf_at t j = Some node -> i <= j).
  { intros a F. destruct (find_leaf_sound t d node a U W WF F) as [G M]. split; [|exact M].
    destruct (N.lt_ge_cases a 2147483648); [rewrite get_leaf_at in G by assumption; congruence|rewrite get_leaf_beyond in G by assumption; discriminate]. }
  assert (CMP : forall i, leaf_at t i = Some node -> find_leaf t node = Ok (i, true)).
  { intros a A. eapply find_leaf_complete; [exact U|exact A|exact E|]. intros j l J Q. rewrite (K a j node l A J); [lia|congruence]. }
  split; split.
  - apply SND.
  - intros [A _]. apply CMP, A.
  - intros (j & J). exists j. apply CMP, J.
  - intros (j & J). exists j. apply SND, J.
Qed.
Lemma c33_sound t d node i : tsized t d -> tlen t < 4294967296 -> wf_leaf_node node -> (forall a l, leaf_at t a = Some l -> wf_leaf_node l) ->
  find_leaf t node = Ok (i, true) -> get_leaf t i = Ok (Some node) /\ forall j, leaf_at t j = Some node -> i <= j.
Proof. intros S L. exact (find_leaf_sound t d node i (small_usized t d S L)). Qed.
Lemma c33_refuted : exists t d node j, tsized t d /\ tlen t < 4294967296 /\ wf_leaf_node node /\ (forall a l, leaf_at t a = Some l -> wf_leaf_node l) /\
  leaf_at t j = Some node /\ find_leaf t node = Ok (0, false).
Proof.
  exists [Some (Leaf (ex_leaf x01)); None; Some (Leaf (ex_leaf_commit x01 []))], 1, (ex_leaf_commit x01 []), 1.
  split; [left; reflexivity|]. split; [reflexivity|]. split; [apply ex_leaf_commit_wf|]. split; [|split; [reflexivity|vm_compute; reflexivity]].
  intros a l E. assert (C : a = 0 \/ a = 1 \/ 3 <= 2 * a) by lia. destruct C as [C|[C|C]].
  - subst a. injection E as <-. apply ex_leaf_wf.
  - subst a. injection E as <-. apply ex_leaf_commit_wf.
  - unfold leaf_at in E. rewrite tget_beyond in E; [discriminate|exact C].
Qed.

(** A one-member tree whose member does not list the extension type its group context requires. *)
Definition ex_required : group_context :=
  let t := [Some (Leaf (ex_signed x01 LSUpdate (str "group") 0))] in
  MkGroupContext MLS10 Suite1 (str "group") 0 (ok_or [] (root_tree_hash toy Suite1 t)) []
    [MkExtension ExtRequiredCapabilities (ok_or [] (se_required_capabilities (MkRequiredCapabilities [ExtUnknown 0x0a0a] [] [])))].
Lemma c34_refuted_required : exists P t ctx now r, verify_integrity P t ctx now = Ok tt /\
  find_extension_data (gc_extensions ctx) ExtRequiredCapabilities <> None /\
  (forall b, find_extension_data (gc_extensions ctx) ExtRequiredCapabilities = Some b -> de_required_capabilities b = Ok (r, [])) /\
  exists e i l, In e (rc_extensions r) /\ leaf_at t i = Some l /\ ~ In e (cap_extensions (lp_capabilities (ln_payload l))).
Proof.
  exists toy, [Some (Leaf (ex_signed x01 LSUpdate (str "group") 0))], ex_required, (fun _ => 5000%Z), (MkRequiredCapabilities [ExtUnknown 0x0a0a] [] []).
  split; [vm_compute; reflexivity|]. split; [discriminate|]. split; [intros b E; injection E as <-; vm_compute; reflexivity|].
  exists (ExtUnknown 0x0a0a), 0. eexists. split; [left; reflexivity|]. split; [reflexivity|]. intros [Q|[]]. discriminate.
Qed.
(** A key-package leaf, which names no group, is accepted in every group at every position. *)
Lemma leaf_verify_any_group P l o g i lt : lp_source (ln_payload l) = LSKeyPackage lt ->
  leaf_verify P l o = leaf_verify P l (MkLeafOptions (lo_suite o) g i (lo_supported_creds o) (lo_signature_keys o) (lo_encryption_keys o) (lo_now o)).
Proof. intros S. unfold leaf_verify, leaf_verify_signature, se_leaf_node_tbs. rewrite S. reflexivity. Qed.
