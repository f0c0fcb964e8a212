(** The errors of joining and of tags. *)
From Verif Require Export ReasonFacts SpecFaults FaultFacts MergeFail Messages Group.
From Coq Require Import ZifyBool ZifyNat ZifyN.
Local Open Scope N_scope.

Lemma truthful_not {A} (de : bytes -> res A) bs e : truthful de -> de bs = Err e -> (forall pre f post, ~ fault e pre f post) -> False.
Proof. intros T E N. destruct (T bs e E) as (p & f & q & _ & F & _). exact (N p f q F). Qed.
Lemma find_stored_none s l : find_stored s l = None -> forall e, In e l -> ks_retrieve s (egs_new_member e) = None.
Proof.
  induction l as [|a l IH]; cbn [find_stored]; intros E e I; [destruct I|]. destruct (ks_retrieve s (egs_new_member a)) eqn:R; [discriminate|]. destruct I as [<-|I]; [exact R|apply IH; assumption].
Qed.
Lemma find_stored_some s l v : find_stored s l = Some v -> exists e, In e l /\ ks_retrieve s (egs_new_member e) = Some v.
Proof.
  induction l as [|a l IH]; cbn [find_stored]; intros E; [discriminate|]. destruct (ks_retrieve s (egs_new_member a)) eqn:R; [injection E as <-; exists a; split; [left; reflexivity|exact R]|].
  destruct (IH E) as (e & I & H). exists e. split; [right; exact I|exact H].
Qed.

Lemma join_reasons P s w s' : from_welcome P s w = (s', Err NoMatchingKeyPackage) ->
  (forall e, In e (w_secrets w) -> ks_retrieve s (egs_new_member e) = None) \/
  (exists e raw kp, In e (w_secrets w) /\ ks_retrieve s (egs_new_member e) = Some raw /\ de_exact de_key_package raw = Ok kp /\
    (ks_retrieve s' (kp_init_key (kp_payload kp)) = None \/ p_hash P (kp_suite (kp_payload kp)) = Err NoMatchingKeyPackage)).
Proof.
  unfold from_welcome. intros E. destruct (find_stored s (w_secrets w)) as [raw|] eqn:F; [|left; exact (find_stored_none s _ F)].
  right. apply find_stored_some in F as (e & I & R). cbn [ok_or_no_match sbind] in E.
  destruct (de_exact de_key_package raw) as [kp|e0| |] eqn:D; cbn [sbind] in E; try discriminate.
  2: { injection E as _ ->. exfalso. exact (truthful_not _ _ _ (exact_truthful _ t_key_package) D (fun _ _ _ H => H)). }
  exists e, raw, kp. split; [exact I|]. split; [exact R|]. split; [exact D|].
  destruct (generate_ref P kp) as [ref|e0| |] eqn:G; cbn [sbind] in E; try discriminate.
  2: { injection E as _ ->. right. unfold generate_ref, ref_hash in G. apply bind_err in G as [G|(b & _ & G)].
    - exfalso. destruct (sizing_err _ _ _ _ sizing_key_package G); discriminate.
    - apply bind_err in G as [G|(x & _ & G)].
      + exfalso. apply seqw_err in G as [G|(a & _ & G)]; destruct (sizing_err _ _ _ _ sizing_opaque G); discriminate.
      + apply bind_err in G as [G|(h & _ & G)]; [exact G|discriminate]. }
  left. destruct (ks_retrieve (ks_delete s ref) (kp_init_key (kp_payload kp))) as [ri|] eqn:K; cbn [ok_or_no_match sbind] in E; [|injection E as <-; exact K].
  destruct (de_exact de_secret_key ri) as [sk|e0| |] eqn:D'; cbn [sbind] in E; try discriminate.
  injection E as _ ->. exfalso. exact (truthful_not _ _ _ (exact_truthful _ t_opaque) D' (fun _ _ _ H => H)).
Qed.

Lemma find_egs_none l r : find_egs l r = None -> forall e, In e l -> egs_new_member e <> r.
Proof.
  induction l as [|a l IH]; cbn [find_egs]; intros E e I; [destruct I|]. destruct (bytes_eqb (egs_new_member a) r) eqn:B; [discriminate|]. destruct I as [<-|I]; [|apply IH; assumption].
  intros Q. apply bytes_eqb_eq in Q. congruence.
Qed.
Lemma find_egs_in l r x : find_egs l r = Some x -> In x l /\ egs_new_member x = r.
Proof.
  induction l as [|a l IH]; cbn [find_egs]; intros E; [discriminate|]. destruct (bytes_eqb (egs_new_member a) r) eqn:B; [injection E as <-; split; [left; reflexivity|apply bytes_eqb_eq, B]|].
  destruct (IH E) as [I Q]. split; [right; exact I|exact Q].
Qed.
Lemma secrets_reasons P w r k : decrypt_group_secrets P w r k = Err EncryptedGroupSecretsNotFoundForProvidedKeyPackageRef ->
  (forall e, In e (w_secrets w) -> egs_new_member e <> r) \/
  (exists e, In e (w_secrets w) /\ egs_new_member e = r /\
    decrypt_with_label P (w_suite w) k (str "Welcome") (w_group_info w) (hc_kem_output (egs_secrets e)) (hc_ciphertext (egs_secrets e)) = Err EncryptedGroupSecretsNotFoundForProvidedKeyPackageRef).
Proof.
  unfold decrypt_group_secrets, find_secret. destruct (find_egs (w_secrets w) r) as [x|] eqn:F; [|intros _; left; exact (find_egs_none _ _ F)].
  intros E. right. apply find_egs_in in F as [I Q]. exists x. split; [exact I|]. split; [exact Q|]. apply bind_err in E as [E|(raw & _ & E)]; [exact E|].
  exfalso. refine (truthful_not _ _ _ (exact_truthful _ _) E (fun _ _ _ H => H)).
Qed.

Lemma mac_reasons P cs key msg tag : verify_mac P cs key msg tag = Err VerifyConfirmationTagFailed ->
  p_hash P cs = Err VerifyConfirmationTagFailed \/ exists t, sign_mac P cs key msg = Ok t /\ t <> tag.
Proof.
  unfold verify_mac. intros E. apply bind_err in E as [E|(t & S & E)].
  - left. unfold sign_mac in E. apply bind_err in E as [E|(h & _ & E)]; [exact E|discriminate].
  - right. exists t. split; [exact S|]. destruct (bytes_eqb tag t) eqn:B; [discriminate|]. intros Q. symmetry in Q. apply bytes_eqb_eq in Q. congruence.
Qed.
Lemma tag_reasons P cs a key confirmed : verify_auth_confirmation_tag P cs a key confirmed = Err VerifyConfirmationTagFailed ->
  p_hash P cs = Err VerifyConfirmationTagFailed \/ ad_confirmation_tag a = [] \/ exists t, sign_mac P cs key confirmed = Ok t /\ t <> ad_confirmation_tag a.
Proof.
  unfold verify_auth_confirmation_tag. destruct (ad_confirmation_tag a) as [|x l] eqn:T; [auto|]. intros E. apply mac_reasons in E as [E|E]; auto.
Qed.

(** ** The other way: what is missing or wrong is reported *)
Lemma reported P :
  (forall s w, (forall e, In e (w_secrets w) -> ks_retrieve s (egs_new_member e) = None) -> from_welcome P s w = (s, Err NoMatchingKeyPackage)) /\
  (forall w r k, (forall e, In e (w_secrets w) -> egs_new_member e <> r) -> decrypt_group_secrets P w r k = Err EncryptedGroupSecretsNotFoundForProvidedKeyPackageRef) /\
  (forall cs a key confirmed, ad_confirmation_tag a = [] -> verify_auth_confirmation_tag P cs a key confirmed = Err VerifyConfirmationTagFailed) /\
  (forall cs a key confirmed t, sign_mac P cs key confirmed = Ok t -> t <> ad_confirmation_tag a -> verify_auth_confirmation_tag P cs a key confirmed = Err VerifyConfirmationTagFailed).
Proof.
  split; [|split; [|split]].
  - intros s w H. unfold from_welcome. destruct (find_stored s (w_secrets w)) as [raw|] eqn:F; [|reflexivity]. apply find_stored_some in F as (e & I & R). rewrite (H e I) in R. discriminate.
  - intros w r k H. unfold decrypt_group_secrets, find_secret. destruct (find_egs (w_secrets w) r) as [x|] eqn:F; [|reflexivity]. apply find_egs_in in F as [I Q]. exfalso. exact (H x I Q).
  - intros cs a key confirmed T. unfold verify_auth_confirmation_tag. rewrite T. reflexivity.
  - intros cs a key confirmed t S N. unfold verify_auth_confirmation_tag, verify_mac. rewrite S. cbn [bind]. destruct (ad_confirmation_tag a) as [|x l]; [reflexivity|].
    destruct (bytes_eqb (x :: l) t) eqn:B; [|reflexivity]. apply bytes_eqb_eq in B. congruence.
Qed.

(** ** Examples *)

From Verif Require Export Examples ExProvider.
(** A message with the right confirmation tag and a wrong membership tag. *)
Definition ex_mistagged : public_message :=
  MkPublic (ex_framed (SMember 2) (CCommit ex_commit)) (MkAuth [x0e] (ok_or [] (sign_mac toy Suite1 (str "ck") (str "ch")))) (Some [x10]).
Lemma ex_mistagged_says : verify_membership_tag toy Suite1 ex_mistagged (str "mk") ex_gc = Err VerifyConfirmationTagFailed /\
  verify_auth_confirmation_tag toy Suite1 (pm_auth ex_mistagged) (str "ck") (str "ch") = Ok tt.
Proof. split; vm_compute; reflexivity. Qed.
Lemma ex_leaf_refused : leaf_verify toy ex_v_leaf1 (ex_options 0) = Err LeafNodeSignatureVerificationFailed /\
  leaf_verify toy ex_v_leaf1 (MkLeafOptions Suite1 (str "group") 1 [] [] [] 5000%Z) = Err (CredentialTypeUsedByLeafNodeNotSupportedByAllMembers 1) /\
  leaf_verify toy ex_v_leaf1 (MkLeafOptions Suite1 (str "group") 0 [] [] [] 5000%Z) = Err LeafNodeSignatureVerificationFailed.
Proof. split; [|split]; vm_compute; reflexivity. Qed.
(** The tree of C24's example with a leaf that has the keys of the other. *)
Definition ex_twins : tree := tset ex_verified 2 (Some (Leaf (ex_signed x01 LSUpdate (str "group") 1))).
Lemma ex_tree_refused : tsized ex_twins 1 /\ tlen ex_twins < 4294967296 /\ (forall x nd, tget ex_twins x = Some nd -> in_tree 1 x) /\
  verify_integrity toy ex_twins (ex_context ex_verified) (fun _ => 5000%Z) = Err TreeHashVerificationFailed /\
  verify_integrity toy ex_twins (ex_context ex_twins) (fun _ => 5000%Z) = Err ParentHashesVerificationFailed.
Proof.
  split; [left; reflexivity|]. split; [reflexivity|]. split; [|split; vm_compute; reflexivity]. intros x nd E. destruct (N.lt_ge_cases x 3) as [Q|Q]; [exact Q|]. rewrite tget_beyond in E; [discriminate|exact Q].
Qed.
