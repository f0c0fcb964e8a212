(** Proofs about members with different providers (SpecInterop.v). *)
From Verif Require Import CodecLib WireCodecs SecretFacts KeyStoreFacts ProviderFacts RatchetTree KeyPackage Group SecretTree SpecInterop.
Local Open Scope N_scope.

(** * Following calls through the library *)
Lemma follows_refl {A} (m : res A) : follows m m. Proof. intros v H. exact H. Qed.
Lemma follows_bind {A B} (m n : res A) (f g : A -> res B) : follows m n -> (forall a, m = Ok a -> follows (f a) (g a)) -> follows (bind m f) (bind n g).
Proof. intros M F v H. apply bind_ok in H as (a & E & H). rewrite (M a E). cbn [bind]. exact (F a E v H). Qed.
Lemma follows_same {A B} (m : res A) (f g : A -> res B) : (forall a, m = Ok a -> follows (f a) (g a)) -> follows (bind m f) (bind m g).
Proof. apply follows_bind, follows_refl. Qed.
Lemma agree_two {A} (m n : res A) : follows m n -> follows n m -> agree m n.
Proof. intros H K v. split; [apply H|apply K]. Qed.
Lemma agree_eq {A} (m n : res A) : m = n -> agree m n. Proof. intros ->. split; auto. Qed.

(** [Q] does what [P] does with hashes, on success with signatures, and on success and with usable secrets ([U]) with the rest, except opening. *)
Definition hash_like (P Q : provider) : Prop := forall cs,
  match p_hash P cs, p_hash Q cs with
  | Ok h, Ok h' => h_size h = h_size h' /\ (forall x, h_digest h x = h_digest h' x) /\ (forall k x, h_mac h k x = h_mac h' k x)
  | Err e, Err e' => e = e' | Panic, Panic | Hang, Hang => True | _, _ => False
  end.
Record hpke_like (U : bytes -> Prop) (k k' : hpke_alg) : Prop := {
  hl_extract_size : k_extract_size k = k_extract_size k'; hl_small : k_extract_size k < 65536;
  hl_nonce_size : a_nonce_size k = a_nonce_size k'; hl_key_size : a_key_size k = a_key_size k';
  hl_derive : forall i, follows (k_derive_key_pair k i) (k_derive_key_pair k' i);
  hl_expand : forall s i n, U s -> follows (k_expand k s i n) (k_expand k' s i n);
  hl_extract : forall s i, follows (k_extract k s i) (k_extract k' s i);
  hl_extracted : forall s i b, k_extract k s i = Ok b -> U b;
  hl_expanded : forall s i b, k_expand k s i (k_extract_size k) = Ok b -> U b;
  hl_seal : forall key n pt ad, follows (a_seal k key n pt ad) (a_seal k' key n pt ad) }.
Record like (U : bytes -> Prop) (P Q : provider) : Prop := {
  lk_hash : hash_like P Q;
  lk_hpke : forall cs k, p_hpke P cs = Ok k -> exists k', p_hpke Q cs = Ok k' /\ hpke_like U k k';
  lk_sig : forall cs a, p_sig P cs = Ok a -> exists a', p_sig Q cs = Ok a' /\ s_scheme a = s_scheme a' /\
    (forall k m, follows (s_sign a k m) (s_sign a' k m)) /\ (forall k m s, follows (s_verify a k m s) (s_verify a' k m s));
  lk_base_seal : forall cs pk i e m, follows (p_base_seal P cs pk i e m) (p_base_seal Q cs pk i e m);
  lk_base_open : forall cs sk i k c, follows (p_base_open P cs sk i k c) (p_base_open Q cs sk i k c) }.

Section Hashes.
Context (P Q : provider) (L : hash_like P Q).
Lemma with_digest cs x : (let* h := p_hash P cs in Ok (h_digest h x)) = (let* h := p_hash Q cs in Ok (h_digest h x)).
Proof. specialize (L cs). destruct (p_hash P cs), (p_hash Q cs); try contradiction; cbn [bind]; try reflexivity; [f_equal; apply L|f_equal; exact L]. Qed.
Lemma q_mac cs k x : sign_mac P cs k x = sign_mac Q cs k x.
Proof. unfold sign_mac. specialize (L cs). destruct (p_hash P cs), (p_hash Q cs); try contradiction; cbn [bind]; try reflexivity; [f_equal; apply L|f_equal; exact L]. Qed.
Lemma q_verify_mac cs k x t : verify_mac P cs k x t = verify_mac Q cs k x t.
Proof. unfold verify_mac. rewrite q_mac. reflexivity. Qed.
Lemma q_ref cs l x : ref_hash P cs l x = ref_hash Q cs l x.
Proof. unfold ref_hash. destruct (se_opaque l +++ se_opaque x); cbn [bind]; auto using with_digest. Qed.
Lemma q_generate_ref kp : generate_ref P kp = generate_ref Q kp.
Proof. unfold generate_ref. destruct (se_key_package kp); cbn [bind]; auto using q_ref. Qed.
Lemma q_confirmed cs c i : confirmed_hash P cs c i = confirmed_hash Q cs c i.
Proof. unfold confirmed_hash. destruct (se_confirmed_input c); cbn [bind]; auto using with_digest. Qed.
Lemma q_interim cs c t : next_interim_hash P cs c t = next_interim_hash Q cs c t.
Proof. unfold next_interim_hash. destruct (se_opaque t); cbn [bind]; auto using with_digest. Qed.
Lemma q_tree_hash_f cs t excl : forall f x, tree_hash_f f P cs t x excl = tree_hash_f f Q cs t x excl.
Proof.
  induction f as [|f IH]; intros x; cbn [tree_hash_f].
  - destruct (match leaf_index x with Some _ => _ | None => _ end); cbn [bind]; auto using with_digest.
  - destruct (leaf_index x) as [li|].
    + destruct (let* l := hashed_leaf (tget t x) (mem N.eqb li excl) in leaf_hash_input li l); cbn [bind]; auto using with_digest.
    + destruct (children x) as [[[l r]|]| | |]; cbn [bind]; auto. rewrite (IH l). destruct (tree_hash_f f Q cs t l excl) as [lh| | |]; cbn [bind]; auto.
      rewrite (IH r). destruct (tree_hash_f f Q cs t r excl) as [rh| | |]; cbn [bind]; auto.
      destruct (hashed_parent (tget t x) excl) as [p| | |]; cbn [bind]; auto. destruct (parent_node_hash_input p lh rh); cbn [bind]; auto using with_digest.
Qed.
Lemma q_tree_hash cs t x excl : tree_hash P cs t x excl = tree_hash Q cs t x excl.
Proof. apply q_tree_hash_f. Qed.
Lemma q_root cs t : root_tree_hash P cs t = root_tree_hash Q cs t.
Proof. unfold root_tree_hash. destruct (root (num_leaves t)); cbn [bind]; auto using q_tree_hash. Qed.
Lemma q_parent_hash cs p s : parent_hash P cs p s = parent_hash Q cs p s.
Proof. unfold parent_hash. destruct (parent_hash_input _ _ s); cbn [bind]; auto using with_digest. Qed.
Lemma q_check cs t x nd : check_parent_hash P cs t x nd = check_parent_hash Q cs t x nd.
Proof.
  unfold check_parent_hash. destruct nd as [nd|]; auto. destruct (children x) as [[[l r]|]| | |]; cbn [bind]; auto. destruct nd as [|p]; auto.
  rewrite (q_tree_hash cs t l), (q_tree_hash cs t r). unfold ok_or_false. destruct (tree_hash Q cs t l _); auto. destruct (tree_hash Q cs t r _); auto. rewrite !q_parent_hash. reflexivity.
Qed.
Lemma q_parent_hashes_from cs t : forall l i, verify_parent_hashes_from P cs t i l = verify_parent_hashes_from Q cs t i l.
Proof.
  induction l as [|nd l IH]; intros i; cbn [verify_parent_hashes_from]; [reflexivity|]. rewrite q_check. destruct (check_parent_hash Q cs t _ nd) as [[]| | |]; cbn [bind]; auto.
Qed.
Lemma q_set_hashes cs direct s : forall l t prev, set_parent_hashes P cs direct s t prev l = set_parent_hashes Q cs direct s t prev l.
Proof.
  induction l as [|ni l IH]; intros t prev; cbn [set_parent_hashes]; [reflexivity|]. destruct (tget t ni) as [[|p]|]; auto.
  destruct (children ni) as [[[a b]|]| | |]; auto. rewrite q_tree_hash. destruct (tree_hash Q cs t _ []); auto. rewrite q_parent_hash. destruct (parent_hash Q cs _ _); auto.
Qed.
Lemma q_merge cs t s u : merge_update_path P cs t s u = merge_update_path Q cs t s u.
Proof.
  unfold merge_update_path, tbind. destruct (node_index s); auto. destruct (direct_path _ _); auto. destruct (filtered_direct_path _ _); auto.
  destruct (negb _); auto. rewrite q_set_hashes. reflexivity.
Qed.
Lemma q_from_welcome s w : from_welcome P s w = from_welcome Q s w.
Proof.
  unfold from_welcome, sbind. destruct (ok_or_no_match _); auto. destruct (de_exact de_key_package _); auto. rewrite q_generate_ref. reflexivity.
Qed.
Lemma q_tag cs a k c : verify_auth_confirmation_tag P cs a k c = verify_auth_confirmation_tag Q cs a k c.
Proof. unfold verify_auth_confirmation_tag. destruct (ad_confirmation_tag a); auto using q_verify_mac. Qed.
Lemma q_membership cs m k ctx : verify_membership_tag P cs m k ctx = verify_membership_tag Q cs m k ctx.
Proof. unfold verify_membership_tag. destruct (fc_sender _); auto. destruct (pm_tag m); auto. destruct (se_auth_content_tbm _); auto using q_verify_mac. Qed.
Lemma q_sign_membership cs m k ctx : sign_membership_tag P cs m k ctx = sign_membership_tag Q cs m k ctx.
Proof. unfold sign_membership_tag. destruct (fc_sender _); auto. destruct (se_auth_content_tbm _); cbn [bind]; auto. rewrite q_mac. reflexivity. Qed.
End Hashes.

Section Success.
Context (U : bytes -> Prop) (P Q : provider) (K : like U P Q).
Let H := lk_hash U P Q K.

(** ** Signatures *)
Lemma f_verify cs key l c s : follows (verify_with_label P cs key l c s) (verify_with_label Q cs key l c s).
Proof.
  unfold verify_with_label. apply follows_same. intros m _ v E. apply bind_ok in E as (a & A & E). destruct (lk_sig _ _ _ K cs a A) as (a' & A' & _ & _ & V).
  rewrite A'. cbn [bind]. exact (V _ _ _ v E).
Qed.
Lemma f_sign cs key l c : follows (sign_with_label P cs key l c) (sign_with_label Q cs key l c).
Proof.
  unfold sign_with_label. apply follows_same. intros m _ v E. apply bind_ok in E as (a & A & E). destruct (lk_sig _ _ _ K cs a A) as (a' & A' & _ & S & _).
  rewrite A'. cbn [bind]. exact (S _ _ v E).
Qed.
Lemma is_ok_true {A} (m : res A) : is_ok m = Ok true <-> exists a, m = Ok a.
Proof. destruct m; cbn; split; intros E; try discriminate; eauto; destruct E; discriminate. Qed.
Lemma f_leaf l o : follows (leaf_verify P l o) (leaf_verify Q l o).
Proof.
  intros v E. unfold leaf_verify in *. apply bind_ok in E as (b & B & E). destruct b; [|discriminate]. cbn [negb] in E.
  assert (B' : leaf_verify_signature Q (lo_suite o) l (TIUpdateOrCommit (lo_group_id o) (lo_leaf_index o)) = Ok true).
  { unfold leaf_verify_signature in *. destruct (se_leaf_node_tbs _ _); try discriminate. apply is_ok_true in B as [u B]. apply is_ok_true. exists u. exact (f_verify _ _ _ _ _ u B). }
  rewrite B'. cbn [bind negb]. exact E.
Qed.
Lemma f_leaves cs g creds now : forall ls sks eks, follows (verify_leaves P cs g creds now sks eks ls) (verify_leaves Q cs g creds now sks eks ls).
Proof.
  induction ls as [|[i l] ls IH]; intros sks eks; cbn [verify_leaves]; [apply follows_refl|]. apply follows_bind; [apply f_leaf|intros _ _; apply IH].
Qed.
Lemma f_integrity t ctx now : follows (verify_integrity P t ctx now) (verify_integrity Q t ctx now).
Proof.
  unfold verify_integrity, verify_parent_hashes. rewrite (q_root P Q H), (q_parent_hashes_from P Q H). apply follows_same. intros h _. destruct (negb _); [apply follows_refl|].
  apply follows_same. intros b _. destruct (negb b); [apply follows_refl|]. apply follows_same. intros creds _. apply follows_same. intros ls _.
  apply follows_bind; [apply f_leaves|]. intros [a e] _. apply follows_refl.
Qed.
Lemma f_package kp ctx : follows (key_package_verify P kp ctx) (key_package_verify Q kp ctx).
Proof.
  intros v E. unfold key_package_verify in *. destruct (negb _); [exact E|]. destruct (negb _); [exact E|]. destruct (lp_source _); try exact E.
  apply bind_ok in E as (b & B & E). destruct b; [|discriminate]. apply is_ok_true in B as [u B].
  assert (B' : is_ok (key_package_verify_signature Q kp) = Ok true).
  { apply is_ok_true. exists u. revert B. unfold key_package_verify_signature. intros B. revert u B. apply follows_same. intros r _. apply f_verify. }
  rewrite B'. cbn [bind]. exact E.
Qed.
Lemma f_content cs a k ctx : follows (verify_content_signature P cs a k ctx) (verify_content_signature Q cs a k ctx).
Proof. unfold verify_content_signature, verify_auth_signature. apply follows_same. intros r _. apply f_verify. Qed.
Lemma f_info g k : follows (group_info_verify_signature P g k) (group_info_verify_signature Q g k).
Proof. unfold group_info_verify_signature. apply follows_same. intros r _. apply f_verify. Qed.
Lemma f_new_content cs k w c ctx : follows (new_auth_content P cs k w c ctx) (new_auth_content Q cs k w c ctx).
Proof. unfold new_auth_content, sign_framed_content. apply follows_bind; [|intros; apply follows_refl]. apply follows_same. intros r _. apply f_sign. Qed.
Lemma f_new_public cs k c ctx : follows (new_public_message P cs k c ctx) (new_public_message Q cs k c ctx).
Proof. unfold new_public_message. apply follows_bind; [apply f_new_content|intros; apply follows_refl]. Qed.

(** ** Key derivation *)
Lemma with_hpke {B} cs (f g : hpke_alg -> res B) : (forall k k', p_hpke P cs = Ok k -> p_hpke Q cs = Ok k' -> hpke_like U k k' -> follows (f k) (g k')) ->
  follows (bind (p_hpke P cs) f) (bind (p_hpke Q cs) g).
Proof. intros F v E. apply bind_ok in E as (k & A & E). destruct (lk_hpke _ _ _ K cs k A) as (k' & A' & R). rewrite A'. cbn [bind]. exact (F k k' A A' R v E). Qed.
Lemma f_expand cs s l c n : U s -> follows (expand_with_label P cs s l c n) (expand_with_label Q cs s l c n).
Proof. intros W. unfold expand_with_label. apply follows_same. intros i _. apply with_hpke. intros k k' _ _ R. apply (hl_expand _ _ _ R), W. Qed.
Lemma usable_expand cs s l c k b : p_hpke P cs = Ok k -> expand_with_label P cs s l c (k_extract_size k mod 65536) = Ok b -> U b.
Proof.
  intros A E. unfold expand_with_label in E. apply bind_ok in E as (i & _ & E). rewrite A in E. cbn [bind] in E. destruct (lk_hpke _ _ _ K cs k A) as (k' & _ & R).
  rewrite N.mod_small in E by apply (hl_small _ _ _ R). exact (hl_expanded _ _ _ R _ _ _ E).
Qed.
Lemma f_derive cs s l : U s -> follows (derive_secret P cs s l) (derive_secret Q cs s l).
Proof. intros W. unfold derive_secret. apply with_hpke. intros k k' _ _ R. rewrite <- (hl_extract_size _ _ _ R). apply f_expand, W. Qed.
Lemma usable_derive cs s l b : derive_secret P cs s l = Ok b -> U b.
Proof. unfold derive_secret. intros E. apply bind_ok in E as (k & A & E). exact (usable_expand _ _ _ _ _ _ A E). Qed.
Lemma f_joiner g i c : follows (extract_joiner_secret P g i c) (extract_joiner_secret Q g i c).
Proof.
  unfold extract_joiner_secret. apply with_hpke. intros k k' A A' R. apply follows_bind; [apply (hl_extract _ _ _ R)|]. intros b E. apply follows_same. intros r _.
  apply with_hpke. intros k0 k0' _ _ R0. rewrite <- (hl_extract_size _ _ _ R0). apply f_expand. exact (hl_extracted _ _ _ R _ _ _ E).
Qed.
Lemma f_epoch g j s : follows (extract_epoch_secret P g j s) (extract_epoch_secret Q g j s).
Proof.
  unfold extract_epoch_secret. apply with_hpke. intros k k' A A' R. cbv zeta. rewrite <- (hl_extract_size _ _ _ R). apply follows_bind; [apply (hl_extract _ _ _ R)|]. intros b E. apply follows_same. intros r _.
  apply f_expand. exact (hl_extracted _ _ _ R _ _ _ E).
Qed.
Lemma usable_epoch g j s b : extract_epoch_secret P g j s = Ok b -> U b.
Proof.
  unfold extract_epoch_secret. intros E. apply bind_ok in E as (k & A & E). apply bind_ok in E as (x & _ & E). apply bind_ok in E as (r & _ & E). exact (usable_expand _ _ _ _ _ _ A E).
Qed.
Lemma f_welcome cs j s : follows (extract_welcome_secret P cs j s) (extract_welcome_secret Q cs j s).
Proof.
  unfold extract_welcome_secret. apply with_hpke. intros k k' A A' R. cbv zeta. rewrite <- (hl_extract_size _ _ _ R). apply follows_bind; [apply (hl_extract _ _ _ R)|]. intros b E.
  apply f_derive. exact (hl_extracted _ _ _ R _ _ _ E).
Qed.
Lemma usable_welcome cs j s b : extract_welcome_secret P cs j s = Ok b -> U b.
Proof. unfold extract_welcome_secret. intros E. apply bind_ok in E as (k & A & E). apply bind_ok in E as (x & _ & E). exact (usable_derive _ _ _ _ E). Qed.
Lemma f_psk_loop cs zero size count : forall l i acc, follows (psk_loop P cs zero size count i l acc) (psk_loop Q cs zero size count i l acc).
Proof.
  induction l as [|[id psk] l IH]; intros i acc; cbn [psk_loop]; [apply follows_refl|]. apply with_hpke. intros k k' A A' R.
  apply follows_bind; [apply (hl_extract _ _ _ R)|]. intros b E. apply follows_same. intros r _. apply follows_bind; [apply f_expand; exact (hl_extracted _ _ _ R _ _ _ E)|]. intros x _.
  apply with_hpke. intros k0 k0' _ _ R0. apply follows_bind; [apply (hl_extract _ _ _ R0)|]. intros y _. apply IH.
Qed.
Lemma f_psk cs ids psks : follows (extract_psk_secret P cs ids psks) (extract_psk_secret Q cs ids psks).
Proof.
  unfold extract_psk_secret. destruct (negb _); [apply follows_refl|]. apply with_hpke. intros k k' _ _ R. cbv zeta. rewrite <- (hl_extract_size _ _ _ R). apply f_psk_loop.
Qed.
Lemma f_info_tag g j s : follows (group_info_verify_tag P g j s) (group_info_verify_tag Q g j s).
Proof.
  unfold group_info_verify_tag. apply follows_bind; [apply f_epoch|]. intros e E. apply follows_bind; [apply f_derive; exact (usable_epoch _ _ _ _ E)|]. intros k _.
  rewrite (q_verify_mac P Q H). apply follows_refl.
Qed.

(** ** Secret trees and ratchets *)
Definition usable_tree (t : secret_tree) : Prop := forall x s, sget t x = Some s -> U s.
Lemma usable_sset t x s : usable_tree t -> U s -> usable_tree (sset t x s).
Proof.
  intros T W y b E. unfold sset, sget in *. destruct (N.ltb_spec x (N.of_nat (length t))) as [L|L]; [|exact (T y b E)].
  destruct (Nat.lt_trichotomy (N.to_nat y) (N.to_nat x)) as [C|[C|C]].
  - rewrite app_nth1 in E by (rewrite firstn_length; lia). apply (T y b). unfold sget.
    rewrite <- (firstn_skipn (N.to_nat x) t) at 1. rewrite app_nth1 by (rewrite firstn_length; lia). exact E.
  - rewrite C in E. rewrite app_nth2 in E by (rewrite firstn_length; lia). rewrite firstn_length, Nat.min_l, Nat.sub_diag in E by lia. cbn in E. injection E as <-. exact W.
  - rewrite app_nth2 in E by (rewrite firstn_length; lia). rewrite firstn_length, Nat.min_l in E by lia.
    destruct (N.to_nat y - N.to_nat x)%nat as [|d] eqn:D; [lia|]. cbn [nth] in E. apply (T y b). unfold sget.
    rewrite <- (firstn_skipn (S (N.to_nat x)) t) at 1. rewrite app_nth2 by (rewrite firstn_length; lia). rewrite firstn_length, Nat.min_l by lia.
    replace (N.to_nat y - S (N.to_nat x))%nat with d by lia. exact E.
Qed.
Lemma f_children cs : forall f t x, usable_tree t -> follows (derive_children f P cs t x) (derive_children f Q cs t x) /\
  forall t', derive_children f P cs t x = Ok t' -> usable_tree t'.
Proof.
  induction f as [|f IH]; intros t x T; cbn [derive_children].
  - split; [apply follows_refl|]. intros t' E. apply bind_ok in E as (c & _ & E). destruct c as [[l r]|]; [discriminate|]. apply Ok_inj in E. subst. exact T.
  - split.
    + apply follows_same. intros [[l r]|] _; [|apply follows_refl]. destruct (sget t x) as [s|] eqn:S; [|apply follows_refl]. pose proof (T x s S) as W.
      apply with_hpke. intros k k' A A' R. cbv zeta. rewrite <- (hl_extract_size _ _ _ R). apply follows_bind; [apply f_expand, W|]. intros ls E1. apply follows_bind; [apply f_expand, W|]. intros rs E2.
      assert (T2 : usable_tree (sset (sset t l ls) r rs)) by (apply usable_sset; [apply usable_sset; [exact T|]|]; eapply usable_expand; eassumption).
      apply follows_bind; [apply IH, T2|]. intros t2 E3. apply IH. exact (proj2 (IH _ l T2) t2 E3).
    + intros t' E. apply bind_ok in E as (c & _ & E). destruct c as [[l r]|]; [|apply Ok_inj in E; subst; exact T]. destruct (sget t x) as [s|] eqn:S; [|discriminate].
      apply bind_ok in E as (k & A & E). apply bind_ok in E as (ls & E1 & E). apply bind_ok in E as (rs & E2 & E). apply bind_ok in E as (t2 & E3 & E).
      assert (T2 : usable_tree (sset (sset t l ls) r rs)) by (apply usable_sset; [apply usable_sset; [exact T|]|]; eapply usable_expand; eassumption).
      exact (proj2 (IH t2 r (proj2 (IH _ l T2) t2 E3)) t' E).
Qed.
Lemma usable_blank n : usable_tree (repeat None n).
Proof. intros x s E. unfold sget in E. rewrite nth_repeat in E. discriminate. Qed.
Lemma f_secret_tree cs n s : U s -> follows (new_secret_tree P cs n s) (new_secret_tree Q cs n s) /\ forall t, new_secret_tree P cs n s = Ok t -> usable_tree t.
Proof.
  intros W. unfold new_secret_tree. split.
  - apply follows_same. intros w _. apply follows_same. intros r _. apply f_children. apply usable_sset; [apply usable_blank|exact W].
  - intros t E. apply bind_ok in E as (w & _ & E). apply bind_ok in E as (r & _ & E). revert E. apply f_children. apply usable_sset; [apply usable_blank|exact W].
Qed.
Lemma f_ratchet_root cs t x l : usable_tree t -> follows (derive_ratchet_root P cs t x l) (derive_ratchet_root Q cs t x l).
Proof.
  intros T. unfold derive_ratchet_root. destruct (sget t x) as [s|] eqn:S; [|apply follows_refl]. apply with_hpke. intros k k' _ _ R. rewrite <- (hl_extract_size _ _ _ R).
  apply follows_bind; [apply f_expand, (T x s S)|intros; apply follows_refl].
Qed.
Lemma f_nonce cs r : U (rt_secret r) -> follows (derive_nonce P cs r) (derive_nonce Q cs r).
Proof. intros W. unfold derive_nonce, derive_tree_secret. apply with_hpke. intros k k' _ _ R. rewrite <- (hl_nonce_size _ _ _ R). apply follows_same. intros c _. apply f_expand, W. Qed.
Lemma f_key cs r : U (rt_secret r) -> follows (derive_key P cs r) (derive_key Q cs r).
Proof. intros W. unfold derive_key, derive_tree_secret. apply with_hpke. intros k k' _ _ R. rewrite <- (hl_key_size _ _ _ R). apply follows_same. intros c _. apply f_expand, W. Qed.
Lemma f_next cs r : U (rt_secret r) -> follows (derive_next P cs r) (derive_next Q cs r).
Proof.
  intros W. unfold derive_next, derive_tree_secret. apply with_hpke. intros k k' _ _ R. rewrite <- (hl_extract_size _ _ _ R).
  apply follows_bind; [apply follows_same; intros c _; apply f_expand, W|]. intros s _. apply follows_refl.
Qed.
Lemma f_message_keys cs r g : U (rt_secret r) -> follows (message_key_nonce P cs r g) (message_key_nonce Q cs r g).
Proof. intros W. unfold message_key_nonce. apply follows_bind; [apply f_key, W|]. intros k _. apply follows_bind; [apply f_nonce, W|]. intros; apply follows_refl. Qed.
Lemma f_sample cs ct : follows (sample_ciphertext P cs ct) (sample_ciphertext Q cs ct).
Proof. unfold sample_ciphertext. apply with_hpke. intros k k' _ _ R. rewrite <- (hl_extract_size _ _ _ R). apply follows_refl. Qed.
Lemma f_sd_key cs s ct : U s -> follows (sender_data_key P cs s ct) (sender_data_key Q cs s ct).
Proof. intros W. unfold sender_data_key. apply with_hpke. intros k k' _ _ R. rewrite <- (hl_key_size _ _ _ R). apply follows_bind; [apply f_sample|]. intros; apply f_expand, W. Qed.
Lemma f_sd_nonce cs s ct : U s -> follows (sender_data_nonce P cs s ct) (sender_data_nonce Q cs s ct).
Proof. intros W. unfold sender_data_nonce. apply with_hpke. intros k k' _ _ R. rewrite <- (hl_nonce_size _ _ _ R). apply follows_bind; [apply f_sample|]. intros; apply f_expand, W. Qed.
Lemma f_send cs key r s c sd ctx : U (rt_secret r) -> U s -> follows (new_private_message P cs key r s c sd ctx) (new_private_message Q cs key r s c sd ctx).
Proof.
  intros W W'. unfold new_private_message, encrypt_private_content, encrypt_sender_data. apply follows_bind.
  - apply follows_bind; [apply f_new_content|]. intros a _. apply follows_same. intros pt _. apply follows_bind; [apply f_message_keys, W|]. intros [k n] _. apply follows_same. intros ad _.
    apply with_hpke. intros h h' _ _ R. apply (hl_seal _ _ _ R).
  - intros ct _. apply follows_bind; [|intros; apply follows_refl]. apply follows_bind; [apply f_sd_key, W'|]. intros k _. apply follows_bind; [apply f_sd_nonce, W'|]. intros n _.
    apply follows_same. intros ad _. apply follows_same. intros raw _. apply with_hpke. intros h h' _ _ R. apply (hl_seal _ _ _ R).
Qed.
Lemma f_group_secrets w r sk : follows (decrypt_group_secrets P w r sk) (decrypt_group_secrets Q w r sk).
Proof.
  unfold decrypt_group_secrets, decrypt_with_label. destruct (find_secret w r); [|apply follows_refl]. apply follows_bind; [|intros; apply follows_refl]. apply follows_same. intros i _.
  destruct (hpke_suite_ok _); [apply (lk_base_open _ _ _ K)|apply follows_refl].
Qed.
Lemma f_encrypt cs e pk l c pt : follows (encrypt_with_label P cs e pk l c pt) (encrypt_with_label Q cs e pk l c pt).
Proof. unfold encrypt_with_label. apply follows_same. intros i _. destruct (hpke_suite_ok _); [apply (lk_base_seal _ _ _ K)|apply follows_refl]. Qed.
Lemma f_welcome_keys cs j s : follows (welcome_key_nonce P cs j s) (welcome_key_nonce Q cs j s).
Proof.
  unfold welcome_key_nonce. apply follows_bind; [apply f_welcome|]. intros w E. pose proof (usable_welcome _ _ _ _ E) as W. apply with_hpke. intros k k' _ _ R.
  rewrite <- (hl_nonce_size _ _ _ R), <- (hl_key_size _ _ _ R). apply follows_bind; [apply f_expand, W|]. intros n _. apply follows_bind; [apply f_expand, W|]. intros; apply follows_refl.
Qed.

(** ** Leaves and key packages *)
Lemma with_hash {B} cs (f g : hash_alg -> res B) : (forall h h', h_size h = h_size h' -> follows (f h) (g h')) -> follows (bind (p_hash P cs) f) (bind (p_hash Q cs) g).
Proof.
  intros F v E. apply bind_ok in E as (h & A & E). pose proof (H cs) as L. rewrite A in L. destruct (p_hash Q cs) as [h'| | |]; try contradiction. cbn [bind]. exact (F h h' (proj1 L) v E).
Qed.
Lemma f_leaf_new fill cs cred skp src caps exts ti : follows (leaf_node_new P fill cs cred skp src caps exts ti) (leaf_node_new Q fill cs cred skp src caps exts ti).
Proof.
  unfold leaf_node_new. apply with_hash. intros h h' <-. apply follows_same. intros ikm _. apply with_hpke. intros k k' _ _ R. apply follows_bind; [apply (hl_derive _ _ _ R)|]. intros e _.
  apply follows_same. intros tbs _. apply follows_bind; [apply f_sign|]. intros; apply follows_refl.
Qed.
Lemma f_from_keys fill v cs cred skp lt ke caps le init : follows (key_package_from_keys P fill v cs cred skp lt ke caps le init) (key_package_from_keys Q fill v cs cred skp lt ke caps le init).
Proof.
  unfold key_package_from_keys. apply follows_bind; [apply f_leaf_new|]. intros [l e] _. apply follows_same. intros raw _. apply follows_bind; [apply f_sign|]. intros; apply follows_refl.
Qed.
Lemma f_package_new f1 f2 v cs cred skp lt ke caps le : follows (key_package_new P f1 f2 v cs cred skp lt ke caps le) (key_package_new Q f1 f2 v cs cred skp lt ke caps le).
Proof.
  unfold key_package_new. intros x E. apply bind_ok in E as (a & A & E). destruct (lk_sig _ _ _ K cs a A) as (a' & A' & SC & _ & _). rewrite A'. cbn [bind]. rewrite <- SC.
  destruct (negb _); [discriminate|]. revert x E. apply with_hash. intros h h' <-. apply follows_same. intros ikm _. apply with_hpke. intros k k' _ _ R.
  apply follows_bind; [apply (hl_derive _ _ _ R)|]. intros i _. apply follows_bind; [apply f_from_keys|]. intros [kp e] _. apply follows_refl.
Qed.
End Success.

(** * The two bundled providers *)
Lemma tables_same cs : lookup rust_table cs = lookup ring_table cs. Proof. reflexivity. Qed.
Lemma both_hash p q : same_libraries p q -> hash_like (rust_provider p) (ring_provider q).
Proof.
  intros S cs. cbn [rust_provider ring_provider p_hash]. rewrite tables_same. destruct (lookup ring_table cs) as [d| | |]; cbn [bind]; auto.
  split; [reflexivity|]. split; intros; apply S.
Qed.
Lemma served cs d : lookup ring_table cs = Ok d -> hs_kdf (d_hpke d) = KDF_SHA256 /\ (hs_kem (d_hpke d) = KEM_X25519 \/ hs_kem (d_hpke d) = KEM_P256).
Proof. unfold lookup. destruct (provider_supports cs) eqn:E; [|discriminate]. destruct cs; try discriminate; intros Q; apply Ok_inj in Q; subst d; cbn; auto. Qed.
Lemma rust_ring p q : same_libraries p q -> like (fun _ => True) (rust_provider p) (ring_provider q).
Proof.
  intros S. split; [apply both_hash, S| | | |].
  - intros cs k A. cbn [rust_provider ring_provider p_hpke] in *. rewrite tables_same in A. destruct (lookup ring_table cs) as [d| | |] eqn:D; try discriminate. apply Ok_inj in A. subst k.
    eexists. split; [reflexivity|]. destruct (served cs d D) as [KD _]. split; cbn [rust_hpke ring_hpke k_extract_size a_nonce_size a_key_size k_derive_key_pair k_expand k_extract a_seal]; auto.
    + rewrite KD. reflexivity.
    + intros i v. unfold derive_key_pair. rewrite (sl_derive _ _ S). auto.
    + intros s i n _ v. unfold rust_expand, ring_expand. rewrite (sl_expand _ _ S). destruct (pr_prk p _ s); [|discriminate]. destruct (pr_expand q _ s i n); [auto|discriminate].
    + intros s i v. unfold bundled_extract. rewrite (sl_hmac _ _ S). auto.
    + intros key n pt ad v. apply (sl_seal _ _ S).
  - intros cs a A. cbn [rust_provider ring_provider p_sig] in *. rewrite tables_same in A. destruct (lookup ring_table cs) as [d| | |] eqn:D; try discriminate. apply Ok_inj in A. subst a.
    eexists. split; [reflexivity|]. cbn [s_scheme s_sign s_verify]. split; [reflexivity|]. split.
    + intros k m v. unfold rust_sign, ring_sign. destruct (d_signature d); try discriminate; destruct (length k =? _)%nat; try discriminate.
      all: destruct (pr_sign p _ k m) as [x|] eqn:E; try discriminate; apply (sl_sign _ _ S) in E; rewrite E; auto.
    + intros k m s v. unfold bundled_verify. destruct (d_signature d); try discriminate; apply (sl_verify _ _ S).
  - intros cs pk i e m v. apply (sl_base_seal _ _ S).
  - intros cs sk i k c v. apply (sl_base_open _ _ S).
Qed.
Lemma hash_like_sym P Q : hash_like P Q -> hash_like Q P.
Proof. intros L cs. specialize (L cs). destruct (p_hash P cs), (p_hash Q cs); auto. destruct L as (A & B & C). split; [auto|]. split; intros; symmetry; auto. Qed.
Lemma ring_rust p q : same_libraries p q -> sized_prims p -> like long (ring_provider q) (rust_provider p).
Proof.
  intros S (_ & Z2 & Z3). split; [apply hash_like_sym, both_hash, S| | | |].
  - intros cs k A. cbn [rust_provider ring_provider p_hpke] in *. rewrite tables_same. destruct (lookup ring_table cs) as [d| | |] eqn:D; try discriminate. apply Ok_inj in A. subst k.
    eexists. split; [reflexivity|]. destruct (served cs d D) as [KD _]. split; cbn [rust_hpke ring_hpke k_extract_size a_nonce_size a_key_size k_derive_key_pair k_expand k_extract a_seal]; auto.
    + rewrite KD. reflexivity.
    + intros i v. unfold derive_key_pair. rewrite (sl_derive _ _ S). auto.
    + intros s i n W v. unfold rust_expand, ring_expand. rewrite (sl_expand _ _ S), (sl_prk _ _ S), KD. cbn [kdf_hash digest_bytes]. destruct (Nat.leb_spec 32 (length s)) as [_|C]; [|unfold long in W; lia].
      destruct (pr_expand q _ s i n); [auto|discriminate].
    + intros s i v. unfold bundled_extract. rewrite (sl_hmac _ _ S). auto.
    + intros s i b E. unfold bundled_extract in E. apply Ok_inj in E. subst b. unfold long. rewrite <- (sl_hmac _ _ S), Z2, KD. cbn. lia.
    + intros s i b E. unfold ring_expand in E. rewrite KD in E. cbn [kdf_hash extract_size] in E. destruct (pr_expand q SHA256 s i 32) as [x|] eqn:X; [|discriminate]. apply Ok_inj in E. subst x.
      rewrite <- (sl_expand _ _ S) in X. apply Z3 in X. unfold long. lia.
    + intros key n pt ad v. apply (sl_seal _ _ S).
  - intros cs a A. cbn [rust_provider ring_provider p_sig] in *. rewrite tables_same. destruct (lookup ring_table cs) as [d| | |] eqn:D; try discriminate. apply Ok_inj in A. subst a.
    eexists. split; [reflexivity|]. cbn [s_scheme s_sign s_verify]. split; [reflexivity|]. split.
    + intros k m v. unfold rust_sign, ring_sign. destruct (d_signature d); try discriminate; try (destruct (length k =? _)%nat; [|discriminate]).
      all: destruct (pr_sign q _ k m) as [x|] eqn:E; try discriminate; pose proof E as E0; apply (sl_sign _ _ S) in E; rewrite E; auto.
      apply (sl_sign_key _ _ S) in E0. rewrite E0. auto.
    + intros k m s v. unfold bundled_verify. destruct (d_signature d); try discriminate; apply (sl_verify _ _ S).
  - intros cs pk i e m v. apply (sl_base_seal _ _ S).
  - intros cs sk i k c v. apply (sl_base_open _ _ S).
Qed.

(** ** Opening *)
Lemma open_both p q cs k key n c ad pt : same_libraries p q -> p_hpke (rust_provider p) cs = Ok k -> a_open k key n c ad = Ok pt ->
  exists k' t, p_hpke (ring_provider q) cs = Ok k' /\ a_open k' key n c ad = Ok (pt ++ t)%list.
Proof.
  intros S A O. cbn [rust_provider ring_provider p_hpke] in *. rewrite tables_same in A. destruct (lookup ring_table cs) as [d| | |]; try discriminate. apply Ok_inj in A. subst k.
  cbn [rust_hpke a_open] in O. unfold rust_open in O. apply bind_ok in O as ([x t0] & O & E). apply Ok_inj in E. subst x.
  destruct (proj1 (sl_open _ _ S (hs_aead (d_hpke d)) key n c ad pt)) as [t O']; [eauto|]. eexists. exists t. split; [reflexivity|]. cbn [ring_hpke a_open]. unfold ring_open. rewrite O'. reflexivity.
Qed.
Lemma de_more {A} (wf : A -> Prop) ser de (C : codec wf ser de) bs a t : de_exact de bs = Ok a -> de_exact de (bs ++ t) = Ok a.
Proof.
  intros E. apply de_exact_ok in E as [rest E]. destruct (codec_can C _ _ _ E) as (W & b & B & ->). apply de_exact_ok. exists (rest ++ t)%list. rewrite <- app_assoc. apply (codec_rt C); assumption.
Qed.
Lemma c86_read p q cs m : same_libraries p q ->
  (forall s, follows (decrypt_sender_data (rust_provider p) cs m s) (decrypt_sender_data (ring_provider q) cs m s)) /\
  (forall r g, follows (decrypt_content (rust_provider p) cs m r g) (decrypt_content_ring (ring_provider q) cs m r g)).
Proof.
  intros S. pose proof (rust_ring p q S) as K. split.
  - intros s v E. unfold decrypt_sender_data in *. apply bind_ok in E as (k & A & E). apply bind_ok in E as (n & B & E). apply bind_ok in E as (ad & C & E). apply bind_ok in E as (h & D & E). apply bind_ok in E as (raw & O & E).
    rewrite (f_sd_key _ _ _ K cs s _ I k A). cbn [bind]. rewrite (f_sd_nonce _ _ _ K cs s _ I n B). cbn [bind]. rewrite C. cbn [bind].
    destruct (open_both p q cs h _ _ _ _ _ S D O) as (h' & t & D' & O'). rewrite D'. cbn [bind]. rewrite O'. cbn [bind]. apply (de_more _ _ _ codec_sender_data). exact E.
  - intros r g v E. unfold decrypt_content, decrypt_content_ring in *. apply bind_ok in E as ([k n] & A & E). apply bind_ok in E as (ad & C & E). apply bind_ok in E as (h & D & E). apply bind_ok in E as (raw & O & E).
    rewrite (f_message_keys _ _ _ K cs r g I (k, n) A). cbn [bind]. rewrite C. cbn [bind]. destruct (open_both p q cs h _ _ _ _ _ S D O) as (h' & t & D' & O'). rewrite D'. cbn [bind]. rewrite O'. cbn [bind].
    apply private_content_can in E as (W & <- & b & pad & B & -> & _). rewrite <- app_assoc. apply ring_content_rt; assumption.
Qed.
Lemma c86_read_welcome p q w : same_libraries p q -> forall j s, follows (decrypt_group_info (rust_provider p) w j s) (decrypt_group_info (ring_provider q) w j s).
Proof.
  intros S j s v E. pose proof (rust_ring p q S) as K. unfold decrypt_group_info in *. apply bind_ok in E as ([k n] & A & E). apply bind_ok in E as (h & D & E). apply bind_ok in E as (raw & O & E).
  rewrite (f_welcome_keys _ _ _ K _ j s (k, n) A). cbn [bind]. destruct (open_both p q _ h _ _ _ _ _ S D O) as (h' & t & D' & O'). rewrite D'. cbn [bind]. rewrite O'. cbn [bind].
  apply (de_more _ _ _ codec_group_info). exact E.
Qed.

(** * The statements *)
Section Both.
Context (p q : prims) (S : same_libraries p q) (Z : sized_prims p).
Let K := rust_ring p q S.
Let K' := ring_rust p q S Z.
Let H := both_hash p q S.
Local Notation R := (rust_provider p).
Local Notation G := (ring_provider q).
Local Ltac both L L' := apply agree_two; [apply (L _ _ _ K)|apply (L' _ _ _ K')].

Lemma c86_public :
  (forall cs t, root_tree_hash R cs t = root_tree_hash G cs t) /\
  (forall kp, generate_ref R kp = generate_ref G kp) /\
  (forall cs c i, confirmed_hash R cs c i = confirmed_hash G cs c i) /\
  (forall cs c t, next_interim_hash R cs c t = next_interim_hash G cs c t) /\
  (forall cs t s u, merge_update_path R cs t s u = merge_update_path G cs t s u) /\
  (forall cs m k ctx, sign_membership_tag R cs m k ctx = sign_membership_tag G cs m k ctx).
Proof.
  split; [intros; apply q_root, H|]. split; [intros; apply q_generate_ref, H|]. split; [intros; apply q_confirmed, H|]. split; [intros; apply q_interim, H|].
  split; [intros; apply q_merge, H|intros; apply q_sign_membership, H].
Qed.
Lemma c86_checks :
  (forall l o, agree (leaf_verify R l o) (leaf_verify G l o)) /\
  (forall t ctx now, agree (verify_integrity R t ctx now) (verify_integrity G t ctx now)) /\
  (forall kp ctx, agree (key_package_verify R kp ctx) (key_package_verify G kp ctx)) /\
  (forall cs a k ctx, agree (verify_content_signature R cs a k ctx) (verify_content_signature G cs a k ctx)) /\
  (forall g k, agree (group_info_verify_signature R g k) (group_info_verify_signature G g k)) /\
  (forall g j s, agree (group_info_verify_tag R g j s) (group_info_verify_tag G g j s)) /\
  (forall cs a k c, agree (verify_auth_confirmation_tag R cs a k c) (verify_auth_confirmation_tag G cs a k c)) /\
  (forall cs m k ctx, agree (verify_membership_tag R cs m k ctx) (verify_membership_tag G cs m k ctx)).
Proof.
  split; [intros; both f_leaf f_leaf|]. split; [intros; both f_integrity f_integrity|]. split; [intros; both f_package f_package|].
  split; [intros; both f_content f_content|]. split; [intros; both f_info f_info|]. split; [intros; both f_info_tag f_info_tag|].
  split; [intros; apply agree_eq, q_tag, H|intros; apply agree_eq, q_membership, H].
Qed.
Lemma c86_schedule :
  (forall g i c, agree (extract_joiner_secret R g i c) (extract_joiner_secret G g i c)) /\
  (forall g j s, agree (extract_epoch_secret R g j s) (extract_epoch_secret G g j s)) /\
  (forall cs j s, agree (extract_welcome_secret R cs j s) (extract_welcome_secret G cs j s)) /\
  (forall cs ids psks, agree (extract_psk_secret R cs ids psks) (extract_psk_secret G cs ids psks)) /\
  (forall cs s l, long s -> agree (derive_secret R cs s l) (derive_secret G cs s l)).
Proof.
  split; [intros; both f_joiner f_joiner|]. split; [intros; both f_epoch f_epoch|]. split; [intros; both f_welcome f_welcome|]. split; [intros; both f_psk f_psk|].
  intros cs s l W. apply agree_two; [apply (f_derive _ _ _ K); exact I|apply (f_derive _ _ _ K'), W].
Qed.
Lemma c86_long :
  (forall g i c s, extract_joiner_secret R g i c = Ok s -> long s) /\ (forall g j k s, extract_epoch_secret R g j k = Ok s -> long s) /\
  (forall cs k l s, derive_secret R cs k l = Ok s -> long s).
Proof.
  assert (X : forall cs k l c d b, p_hpke R cs = Ok d -> expand_with_label R cs k l c (k_extract_size d mod 65536) = Ok b -> long b).
  { intros cs k l c d b A E. apply (f_expand _ _ _ K) in E; [|exact I]. destruct (lk_hpke _ _ _ K cs d A) as (d' & A' & L). rewrite (hl_extract_size _ _ _ L) in E. exact (usable_expand _ _ _ K' _ _ _ _ _ _ A' E). }
  split; [|split].
  - intros g i c s E. unfold extract_joiner_secret in E. apply bind_ok in E as (d & A & E). apply bind_ok in E as (x & _ & E). apply bind_ok in E as (r & _ & E). apply bind_ok in E as (d' & A' & E). exact (X _ _ _ _ _ _ A' E).
  - intros g j k s E. apply (f_epoch _ _ _ K) in E. exact (usable_epoch _ _ _ K' _ _ _ _ E).
  - intros cs k l s E. apply (f_derive _ _ _ K) in E; [|exact I]. exact (usable_derive _ _ _ K' _ _ _ _ E).
Qed.
Lemma c86_traffic cs :
  (forall n s, long s -> agree (new_secret_tree R cs n s) (new_secret_tree G cs n s)) /\
  (forall n s t x l, long s -> new_secret_tree R cs n s = Ok t -> agree (derive_ratchet_root R cs t x l) (derive_ratchet_root G cs t x l)) /\
  (forall r, long (rt_secret r) -> agree (derive_key R cs r) (derive_key G cs r) /\ agree (derive_nonce R cs r) (derive_nonce G cs r) /\ agree (derive_next R cs r) (derive_next G cs r)) /\
  (forall key r s c sd ctx, long (rt_secret r) -> long s -> agree (new_private_message R cs key r s c sd ctx) (new_private_message G cs key r s c sd ctx)) /\
  (forall key c ctx, agree (new_public_message R cs key c ctx) (new_public_message G cs key c ctx)).
Proof.
  split; [|split; [|split; [|split]]].
  - intros n s W. apply agree_two; [apply (f_secret_tree _ _ _ K); exact I|apply (f_secret_tree _ _ _ K'), W].
  - intros n s t x l W E. apply agree_two; [apply (f_ratchet_root _ _ _ K); intros y b _; exact I|]. apply (f_ratchet_root _ _ _ K'). apply (f_secret_tree _ _ _ K') with (cs := cs) (n := n) (s := s); [exact W|].
    exact (proj1 (f_secret_tree _ _ _ K cs n s I) t E).
  - intros r W. split; [|split].
    + apply agree_two; [apply (f_key _ _ _ K); exact I|apply (f_key _ _ _ K'), W].
    + apply agree_two; [apply (f_nonce _ _ _ K); exact I|apply (f_nonce _ _ _ K'), W].
    + apply agree_two; [apply (f_next _ _ _ K); exact I|apply (f_next _ _ _ K'), W].
  - intros key r s c sd ctx W W'. apply agree_two; [apply (f_send _ _ _ K); exact I|apply (f_send _ _ _ K'); assumption].
  - intros key c ctx. both f_new_public f_new_public.
Qed.
Lemma c86_build :
  (forall fill cs cred skp src caps exts ti, agree (leaf_node_new R fill cs cred skp src caps exts ti) (leaf_node_new G fill cs cred skp src caps exts ti)) /\
  (forall f1 f2 v cs cred skp lt ke caps le, agree (key_package_new R f1 f2 v cs cred skp lt ke caps le) (key_package_new G f1 f2 v cs cred skp lt ke caps le)).
Proof. split; intros; [both f_leaf_new f_leaf_new|both f_package_new f_package_new]. Qed.
Lemma c86_join :
  (forall s w, from_welcome R s w = from_welcome G s w) /\
  (forall w r sk, agree (decrypt_group_secrets R w r sk) (decrypt_group_secrets G w r sk)) /\
  (forall w j s, follows (decrypt_group_info R w j s) (decrypt_group_info G w j s)).
Proof. split; [intros; apply q_from_welcome, H|]. split; [intros; both f_group_secrets f_group_secrets|]. intros w. apply c86_read_welcome, S. Qed.

(** A message of one is read by the other. *)
Lemma c86_deliver cs sk pk r s c sd ctx m : aead_prims_ok p -> (forall d, rfc_suite cs = Some d -> pair_prims_ok p (d_signature d) sk pk) -> wf_framed_content c -> wf_sender_data sd ->
  long (rt_secret r) -> long s -> (new_private_message R cs sk r s c sd ctx = Ok m \/ new_private_message G cs sk r s c sd ctx = Ok m) ->
  decrypt_sender_data R cs m s = Ok sd /\ decrypt_sender_data G cs m s = Ok sd /\
  exists pc, decrypt_content R cs m r (sd_reuse_guard sd) = Ok pc /\ decrypt_content_ring G cs m r (sd_reuse_guard sd) = Ok pc /\ pc_content pc = fc_content c /\
    (fc_sender c = SMember (sd_leaf_index sd) -> ac_content (private_auth_content m sd pc) = c /\
      verify_content_signature R cs (private_auth_content m sd pc) pk ctx = Ok tt /\ verify_content_signature G cs (private_auth_content m sd pc) pk ctx = Ok tt).
Proof.
  intros A PK W WS L L' E. assert (E' : new_private_message R cs sk r s c sd ctx = Ok m) by (destruct E as [E|E]; [exact E|apply c86_traffic; assumption]).
  destruct (c61_rust p cs sk pk r s c sd ctx m A PK W WS E') as (D & pc & C & F & V). destruct (c86_read p q cs m S) as [X Y].
  split; [exact D|]. split; [apply X, D|]. exists pc. split; [exact C|]. split; [apply Y, C|]. split; [exact F|]. intros Q. destruct (V Q) as [V1 V2].
  split; [exact V1|]. split; [exact V2|]. apply (f_content _ _ _ K), V2.
Qed.
(** What one reads with padding that is not zero, the other refuses. *)
Lemma c86_padding cs m r g key nonce ad h c e pad : aead_prims_ok p -> message_key_nonce R cs r g = Ok (key, nonce) ->
  se_private_content_aad (MkPrivateAAD (pv_group_id m) (pv_epoch m) (pv_content_type m) (pv_auth_data m)) = Ok ad -> p_hpke R cs = Ok h ->
  wf_private_content c -> se_private_content c = Ok e -> pv_content_type m = content_type_of (pc_content c) -> ~ Forall (fun b => b = x00) pad ->
  a_seal h key nonce (e ++ pad) ad = Ok (pv_ciphertext m) ->
  decrypt_content_ring G cs m r g = Ok c /\ decrypt_content R cs m r g = Err PaddingContainsNonZeroBytes.
Proof.
  intros A KN AD HP W E T N SL. pose proof (c60_rust p cs A h key nonce (e ++ pad) ad _ HP SL) as O. split.
  - unfold decrypt_content_ring. rewrite (f_message_keys _ _ _ K cs r g I _ KN). cbn [bind]. rewrite AD. cbn [bind]. destruct (open_both p q cs h _ _ _ _ _ S HP O) as (h' & t & D' & O'). rewrite D'. cbn [bind]. rewrite O'. cbn [bind].
    rewrite <- app_assoc, T. apply ring_content_rt; assumption.
  - unfold decrypt_content. rewrite KN. cbn [bind]. rewrite AD. cbn [bind]. rewrite HP. cbn [bind]. rewrite O. cbn [bind]. rewrite T, (private_content_rt c e pad W E), (check_padding_err _ N). reflexivity.
Qed.
End Both.

Lemma c86_short p q cs s l v : same_libraries p q -> ~ long s -> derive_secret (rust_provider p) cs s l <> Ok v.
Proof.
  intros S N E. unfold derive_secret in E. apply bind_ok in E as (h0 & _ & E). unfold expand_with_label in E. apply bind_ok in E as (i & _ & E).
  apply bind_ok in E as (h & A & E). cbn [p_hpke rust_provider] in A. apply bind_ok in A as (d & A & B). apply Ok_inj in B. subst h.
  rewrite tables_same in A. destruct (served _ _ A) as [X _]. cbn [rust_hpke k_expand] in E. unfold rust_expand in E. rewrite (sl_prk _ _ S), X in E.
  cbn [kdf_hash digest_bytes] in E. destruct (32 <=? length s)%nat eqn:Q; [|discriminate]. apply N, Nat.leb_le, Q.
Qed.
