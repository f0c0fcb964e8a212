(** Proofs about exactly when receiving a private message, stepping a ratchet and joining panic. *)
From Verif Require Import WireCodecs CodecLib CodecPanics SpecCodec SpecMessages SpecCalm SpecCrash CrashFacts CalmFacts.
Local Open Scope N_scope.

Lemma bind_returns_panic {A B} (m : res A) (k : A -> res B) : returns m -> (bind m k = Panic <-> exists a, m = Ok a /\ k a = Panic) /\ (bind m k = Hang <-> exists a, m = Ok a /\ k a = Hang).
Proof.
  intros [[a ->]|[e ->]]; cbn [bind].
  - split; (split; [intros E; exists a; auto|intros (b & E & F); injection E as <-; exact F]).
  - split; (split; [discriminate|intros (b & E & _); discriminate E]).
Qed.

Definition bad_private (ct : content_type) (pt : bytes) : Prop :=
  (ct = CTProposal /\ bad_proposal pt) \/ (ct = CTCommit /\ bad_commit pt).
Lemma private_rest ct c bs : returns (let* (a, bs) := de_auth_data ct bs in let* _ := check_padding bs in Ok (MkPrivateContent c a)).
Proof.
  apply ret_bind; [apply ret_desafe; typeclasses eauto|intros [a r] _]. apply ret_bind; [apply r_padding|intros; apply ret_ok].
Qed.
Lemma private_bad ct pt : (de_private_content ct pt = Panic <-> bad_private ct pt) /\ de_private_content ct pt <> Hang.
Proof.
  unfold de_private_content, bad_private. destruct ct.
  - assert (R : returns (de_opaque pt)) by (apply ret_desafe; typeclasses eauto).
    assert (R2 : returns (let* (c, bs) := (let* (d, bs) := de_opaque pt in Ok (CApplication d, bs)) in let* (a, bs) := de_auth_data CTApplication bs in let* _ := check_padding bs in Ok (MkPrivateContent c a))).
    { destruct R as [[[d r] ->]|[e ->]]; cbn [bind]; [apply private_rest|apply ret_err]. }
    apply ret_iff in R2 as [N1 N2]. split; [|exact N2]. split; [intros E; contradiction|]. intros [[E _]|[E _]]; discriminate E.
  - pose proof (proposal_bad pt) as B. assert (H : de_proposal pt <> Hang) by (apply (desafe_hangs (de := de_proposal)); typeclasses eauto).
    destruct (de_proposal pt) as [[p r]|e| |]; cbn [bind].
    + destruct (proj1 (ret_iff _) (private_rest CTProposal (CProposal p) r)) as [N1 N2]. split; [|exact N2]. split; [intros E; contradiction|].
      intros [[_ E]|[E _]]; [apply B in E; discriminate E|discriminate E].
    + split; [|discriminate]. split; [discriminate|]. intros [[_ E]|[E _]]; [apply B in E; discriminate E|discriminate E].
    + split; [|discriminate]. split; [|reflexivity]. intros _. left. split; [reflexivity|]. apply B. reflexivity.
    + contradiction.
  - pose proof (commit_bad pt) as B. assert (H : de_commit pt <> Hang) by (apply (desafe_hangs (de := de_commit)); typeclasses eauto).
    destruct (de_commit pt) as [[p r]|e| |]; cbn [bind].
    + destruct (proj1 (ret_iff _) (private_rest CTCommit (CCommit p) r)) as [N1 N2]. split; [|exact N2]. split; [intros E; contradiction|].
      intros [[E _]|[_ E]]; [discriminate E|apply B in E; discriminate E].
    + split; [|discriminate]. split; [discriminate|]. intros [[E _]|[_ E]]; [discriminate E|apply B in E; discriminate E].
    + split; [|discriminate]. split; [|reflexivity]. intros _. right. split; [reflexivity|]. apply B. reflexivity.
    + contradiction.
Qed.

Lemma c79_receive P cs m r guard : steady P cs ->
  (decrypt_content P cs m r guard = Panic <-> exists key nonce aad k pt, message_key_nonce P cs r guard = Ok (key, nonce) /\
     se_private_content_aad (MkPrivateAAD (pv_group_id m) (pv_epoch m) (pv_content_type m) (pv_auth_data m)) = Ok aad /\
     p_hpke P cs = Ok k /\ a_open k key nonce (pv_ciphertext m) aad = Ok pt /\ bad_private (pv_content_type m) pt) /\
  decrypt_content P cs m r guard <> Hang.
Proof.
  intros H. unfold decrypt_content. assert (R1 : returns (message_key_nonce P cs r guard)) by (apply r_mkn, H).
  assert (R2 : returns (se_private_content_aad (MkPrivateAAD (pv_group_id m) (pv_epoch m) (pv_content_type m) (pv_auth_data m)))) by calm.
  assert (R3 : returns (p_hpke P cs)) by calm.
  destruct R1 as [[[key nonce] E1]|[e E1]]; rewrite E1; cbn [bind].
  2:{ split; [|discriminate]. split; [discriminate|]. intros (? & ? & ? & ? & ? & Q & _). discriminate Q. }
  destruct R2 as [[aad E2]|[e E2]]; rewrite E2; cbn [bind].
  2:{ split; [|discriminate]. split; [discriminate|]. intros (? & ? & ? & ? & ? & _ & Q & _). discriminate Q. }
  destruct R3 as [[k E3]|[e E3]]; rewrite E3; cbn [bind].
  2:{ split; [|discriminate]. split; [discriminate|]. intros (? & ? & ? & ? & ? & _ & _ & Q & _). discriminate Q. }
  assert (R4 : returns (a_open k key nonce (pv_ciphertext m) aad)) by calm.
  destruct R4 as [[pt E4]|[e E4]]; rewrite E4; cbn [bind].
  2:{ split; [|discriminate]. split; [discriminate|]. intros (key' & nonce' & aad' & k' & pt' & Q1 & Q2 & Q3 & Q4 & _). injection Q1 as <- <-. injection Q2 as <-. injection Q3 as <-. congruence. }
  destruct (private_bad (pv_content_type m) pt) as [B NH]. split; [|exact NH]. rewrite B. split.
  - intros Z. exists key, nonce, aad, k, pt. repeat (split; [first [reflexivity|assumption]|]). exact Z.
  - intros (key' & nonce' & aad' & k' & pt' & Q1 & Q2 & Q3 & Q4 & Z). injection Q1 as <- <-. injection Q2 as <-. injection Q3 as <-. rewrite E4 in Q4. injection Q4 as <-. exact Z.
Qed.

Lemma c79_next P cs r : steady P cs ->
  (derive_next P cs r = Panic <-> 4294967295 <= rt_generation r /\
     exists k s, p_hpke P cs = Ok k /\ derive_tree_secret P cs (rt_secret r) (str "secret") (rt_generation r) (k_extract_size k mod 65536) = Ok s) /\
  derive_next P cs r <> Hang.
Proof.
  intros H. unfold derive_next. assert (R3 : returns (p_hpke P cs)) by calm. destruct R3 as [[k E3]|[e E3]]; rewrite E3; cbn [bind].
  2:{ split; [|discriminate]. split; [discriminate|]. intros (_ & ? & ? & Q & _). discriminate Q. }
  assert (R : returns (derive_tree_secret P cs (rt_secret r) (str "secret") (rt_generation r) (k_extract_size k mod 65536))) by (unfold derive_tree_secret; apply ret_bind; [calm|intros; apply r_expand, H]).
  destruct R as [[s E]|[e E]]; rewrite E; cbn [bind].
  2:{ split; [|discriminate]. split; [discriminate|]. intros (_ & ? & ? & Q & Q2). injection Q as <-. congruence. }
  unfold add32, u32_max. destruct (N.leb_spec (rt_generation r + 1) 4294967295) as [L|L]; cbn [bind].
  - split; [|discriminate]. split; [discriminate|]. intros [Q _]. lia.
  - split; [|discriminate]. split; [|reflexivity]. intros _. split; [lia|]. exists k, s. auto.
Qed.

Lemma c79_join P s w : (forall cs, steady P cs) ->
  (snd (from_welcome P s w) = Panic <-> exists raw, find_stored s (w_secrets w) = Some raw /\ bad_key_package raw) /\ snd (from_welcome P s w) <> Hang.
Proof.
  intros H. unfold from_welcome, sbind, ok_or_no_match. destruct (find_stored s (w_secrets w)) as [raw|].
  2:{ cbn. split; [|discriminate]. split; [discriminate|]. intros (raw & Q & _). discriminate Q. }
  pose proof (key_package_bad raw) as B. assert (NH : de_key_package raw <> Hang) by (apply (desafe_hangs (de := de_key_package)); typeclasses eauto).
  assert (DE : de_exact de_key_package raw = match de_key_package raw with Ok (kp, _) => Ok kp | Err e => Err e | Panic => Panic | Hang => Hang end) by (unfold de_exact; destruct (de_key_package raw) as [[? ?]| | |]; reflexivity).
  rewrite DE. clear DE. destruct (de_key_package raw) as [[kp r]|e| |].
  - assert (NB : (exists raw0, Some raw = Some raw0 /\ bad_key_package raw0) -> False) by (intros (raw0 & Q & Z); injection Q as <-; apply B in Z; discriminate Z).
    assert (R : returns (snd (match generate_ref P kp with
       | Ok a => match match ks_retrieve (ks_delete s a) (kp_init_key (kp_payload kp)) with Some a0 => Ok a0 | None => Err NoMatchingKeyPackage end with
                 | Ok a0 => match de_exact de_secret_key a0 with Ok _ => (ks_delete (ks_delete s a) (kp_init_key (kp_payload kp)), Ok default_group) | Err e => (ks_delete s a, Err e) | Panic => (ks_delete s a, Panic) | Hang => (ks_delete s a, Hang) end
                 | Err e => (ks_delete s a, Err e) | Panic => (ks_delete s a, Panic) | Hang => (ks_delete s a, Hang) end
       | Err e => (s, Err e) | Panic => (s, Panic) | Hang => (s, Hang) end))).
    { assert (R : returns (generate_ref P kp)) by (apply r_ref_of, H). destruct R as [[rf ->]|[e ->]]; [|apply ret_err].
      destruct (ks_retrieve (ks_delete s rf) _) as [rawi|]; [|apply ret_err].
      assert (R : returns (de_exact de_secret_key rawi)) by (unfold de_exact, de_secret_key; calm). destruct R as [[x ->]|[e ->]]; [apply ret_ok|apply ret_err]. }
    apply ret_iff in R as [N1 N2]. split; [|exact N2]. split; [intros E; contradiction|intros Z; contradiction].
  - cbn. split; [|discriminate]. split; [discriminate|]. intros (raw0 & Q & Z). injection Q as <-. apply B in Z. discriminate Z.
  - cbn. split; [|discriminate]. split; [|reflexivity]. intros _. exists raw. split; [reflexivity|]. apply B. reflexivity.
  - contradiction.
Qed.
