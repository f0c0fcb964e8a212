(** C79, exactly: when receiving the content of a private message, stepping a ratchet and joining panic. *)
From Verif Require Import SpecMessages SpecCalm SpecCrash CalmFacts ReceiveCrashFacts Examples ExKeys PropProvider PropCrash.
Local Open Scope N_scope.

(** With a provider that returns, decrypting a private message panics exactly if its ciphertext opens under the key of its place in the
    ratchet and what comes out begins as a proposal or commit on which decoding panics ([bad_proposal], [bad_commit], SpecCrash.v). So
    only who has that key can make a receiver panic. *)
Theorem C79_exact_receive : forall P cs m r guard, steady P cs ->
  (decrypt_content P cs m r guard = Panic <-> exists key nonce aad k pt, message_key_nonce P cs r guard = Ok (key, nonce) /\
     se_private_content_aad (MkPrivateAAD (pv_group_id m) (pv_epoch m) (pv_content_type m) (pv_auth_data m)) = Ok aad /\
     p_hpke P cs = Ok k /\ a_open k key nonce (pv_ciphertext m) aad = Ok pt /\
     ((pv_content_type m = CTProposal /\ bad_proposal pt) \/ (pv_content_type m = CTCommit /\ bad_commit pt))) /\
  decrypt_content P cs m r guard <> Hang.
Proof. exact c79_receive. Qed.
Print Assumptions C79_exact_receive.

(** Stepping a ratchet panics exactly in its last generation (if the suite is served and the next secret can be derived). *)
Theorem C79_exact_next : forall P cs r, steady P cs ->
  (derive_next P cs r = Panic <-> 4294967295 <= rt_generation r /\
     exists k s, p_hpke P cs = Ok k /\ derive_tree_secret P cs (rt_secret r) (str "secret") (rt_generation r) (k_extract_size k mod 65536) = Ok s) /\
  derive_next P cs r <> Hang.
Proof. exact c79_next. Qed.
Print Assumptions C79_exact_next.

(** Joining panics exactly if decoding the stored package that the welcome names first panics. *)
Theorem C79_exact_join : forall P s w, (forall cs, steady P cs) ->
  (snd (from_welcome P s w) = Panic <-> exists raw, find_stored s (w_secrets w) = Some raw /\ bad_key_package raw) /\ snd (from_welcome P s w) <> Hang.
Proof. exact c79_join. Qed.
Print Assumptions C79_exact_join.

(** All three occur: with a provider that returns for every suite. *)
Definition ex_bad_package : bytes := be 2 1 ++ be 2 1 ++ [x00] ++ [x00; x00] ++ be 2 1 ++ [x00] ++ [x00; x00; x00; x00; x00] ++ [x01] ++ be 8 0 ++ [x00; x07].
Definition ex_crash_welcome : welcome := MkWelcome Suite1 [MkEGS [x42] (MkHpkeCiphertext [] [])] [].
Example C79_exact_example : (forall cs, steady toy cs) /\
  snd (from_welcome toy [([x42], ex_bad_package)] ex_crash_welcome) = Panic /\
  derive_next toy Suite1 (MkRatchet [x01] 4294967295) = Panic /\
  exists key nonce aad k c, message_key_nonce toy Suite1 ex_rat [x01; x02; x03; x04] = Ok (key, nonce) /\
    se_private_content_aad (MkPrivateAAD (str "g") 3 CTCommit []) = Ok aad /\ p_hpke toy Suite1 = Ok k /\
    a_seal k key nonce (ok_or [] (se_opaque ([x01] ++ ex_bad_add))) aad = Ok c /\
    decrypt_content toy Suite1 (MkPrivate (str "g") 3 CTCommit [] [] c) ex_rat [x01; x02; x03; x04] = Panic.
Proof.
  split.
  { intros cs. split; intros; first [match goal with E : _ = Ok _ |- _ => cbn in E; injection E as <- end; cbn; unfold toy_strip; calm|cbn; unfold toy_strip; calm]. }
  split; [vm_compute; reflexivity|]. split; [vm_compute; reflexivity|]. do 5 eexists. split; [vm_compute; reflexivity|]. split; [vm_compute; reflexivity|]. split; [reflexivity|].
  split; [vm_compute; reflexivity|]. vm_compute. reflexivity.
Qed.
