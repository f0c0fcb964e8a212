(** Proofs that the order in which sets and maps list their entries does not matter (SpecListing.v). *)
From Verif Require Import SpecListing LeafFacts TreeMore TreePaths KeyStoreFacts.
Local Open Scope N_scope.

Lemma same_mem {A} (eqb : A -> A -> bool) (H : forall a b, eqb a b = true <-> a = b) a b : same_set a b -> forall x, mem eqb x a = mem eqb x b.
Proof.
  intros S x. pose proof (LeafFacts.mem_in eqb H x a) as I. pose proof (LeafFacts.mem_in eqb H x b) as J. specialize (S x).
  destruct (mem eqb x a), (mem eqb x b); try reflexivity; intuition congruence.
Qed.
Lemma same_refl {A} (a : list A) : same_set a a.
Proof. intros x. reflexivity. Qed.
Lemma same_cons {A} (x : A) a b : same_set a b -> same_set (x :: a) (x :: b).
Proof. intros S y. cbn. rewrite (S y). reflexivity. Qed.
Lemma same_trans {A} (a b c : list A) : same_set a b -> same_set b c -> same_set a c.
Proof. intros S T x. rewrite (S x). apply T. Qed.
Lemma same_order o : some_order o -> forall {A} (l : list A), same_set (o A l) l.
Proof. intros O A l x. apply O. Qed.

(** ** Leaf nodes *)
Lemma same_extensions a b : same_set a b -> forall l, check_extensions a l = check_extensions b l.
Proof.
  intros S. induction l as [|e l IH]; [reflexivity|]. cbn [check_extensions]. rewrite (same_mem extension_type_eqb extension_type_eqb_eq a b S), IH. reflexivity.
Qed.
Lemma leaf_listing o P l op op' : some_order o -> same_options op op' -> leaf_verify_in o P l op = leaf_verify P l op'.
Proof.
  intros O (A & B & C & D & E & F & G). unfold leaf_verify_in, leaf_verify. rewrite A, B, C, D.
  rewrite (same_mem credential_type_eqb credential_type_eqb_eq _ _ E), (same_mem bytes_eqb bytes_eqb_eq _ _ F), (same_mem bytes_eqb bytes_eqb_eq _ _ G).
  rewrite (same_extensions _ _ (same_order o O (cap_extensions (lp_capabilities (ln_payload l))))). reflexivity.
Qed.
Lemma leaves_listing o P cs gid now : some_order o -> forall ls creds creds' sks eks sks' eks', same_set creds creds' -> same_set sks sks' -> same_set eks eks' ->
  match verify_leaves_in o P cs gid creds now sks eks ls, verify_leaves P cs gid creds' now sks' eks' ls with
  | Ok (a, b), Ok (a', b') => same_set a a' /\ same_set b b'
  | Err e, Err e' => e = e'
  | Panic, Panic | Hang, Hang => True
  | _, _ => False
  end.
Proof.
  intros O. induction ls as [|[i l] ls IH]; intros creds creds' sks eks sks' eks' C S E; cbn [verify_leaves_in verify_leaves]; [auto|].
  assert (T : forall A (a b : list A), same_set a b -> same_set (o A a) b) by (intros A a b Q; eapply same_trans; [apply same_order, O|exact Q]).
  rewrite (leaf_listing o P l _ (MkLeafOptions cs gid i creds' sks' eks' (now i)) O)
    by exact (conj eq_refl (conj eq_refl (conj eq_refl (conj eq_refl (conj (T _ _ _ C) (conj (T _ _ _ S) (T _ _ _ E))))))).
  destruct (leaf_verify P l _); cbn [bind]; try reflexivity; try exact I.
  apply IH; [exact C|apply T, same_cons, S|apply T, same_cons, E].
Qed.

(** ** Trees *)
Lemma creds_listing o t : some_order o ->
  match supported_creds_in o t, supported_creds t with
  | Ok a, Ok b => same_set a b
  | Err e, Err e' => e = e'
  | Panic, Panic | Hang, Hang => True
  | _, _ => False
  end.
Proof.
  intros O. unfold supported_creds_in, supported_creds. destruct (leaves t) as [ls|e| |]; cbn [bind]; try reflexivity; try exact I.
  intros x. rewrite (O _ _ x), !in_map_iff. split; intros (y & E & F); exists y; (split; [exact E|]); rewrite filter_In in *; [rewrite <- (O _ _ y)|rewrite (O _ _ y)]; exact F.
Qed.
Lemma parents_listing o t n : some_order o -> forall l i eks eks', same_set eks eks' -> check_parents_in o t n i eks l = check_parents t n i eks' l.
Proof.
  intros O. induction l as [|[[l0|p]|] l IH]; intros i eks eks' S; cbn [check_parents_in check_parents]; try reflexivity; try (apply IH; exact S).
  destruct (check_unmerged _ _ _ _); cbn [bind]; try reflexivity.
  rewrite (same_mem bytes_eqb bytes_eqb_eq (o _ eks) eks') by (eapply same_trans; [apply same_order, O|exact S]).
  destruct (mem bytes_eqb _ _); [reflexivity|]. apply IH. eapply same_trans; [apply same_order, O|apply same_cons, S].
Qed.
Lemma same_empty {A} (a b : list A) : same_set a b -> Nat.eqb (length a) 0 = Nat.eqb (length b) 0.
Proof. intros S. destruct a as [|x a], b as [|y b]; try reflexivity; [destruct (proj2 (S y)); left; reflexivity|destruct (proj1 (S x)); left; reflexivity]. Qed.
Lemma same_parent n a b : same_set a b -> hashed_parent n a = hashed_parent n b.
Proof.
  intros S. unfold hashed_parent. destruct n as [[l|p]|]; try reflexivity. rewrite (same_empty _ _ S).
  rewrite (filter_ext _ (fun li => negb (mem N.eqb li b)) (fun li => f_equal negb (same_mem N.eqb N.eqb_eq a b S li))). reflexivity.
Qed.
Lemma same_hash_f P cs t a b : same_set a b -> forall f x, tree_hash_f f P cs t x a = tree_hash_f f P cs t x b.
Proof.
  intros S. induction f as [|f IH]; intros x; cbn [tree_hash_f]; rewrite ?(same_parent _ _ _ S); destruct (leaf_index x) as [li|]; try rewrite (same_mem N.eqb N.eqb_eq a b S); try reflexivity.
  destruct (children x) as [[[l r]|]|e| |]; cbn [bind]; try reflexivity. rewrite !IH. reflexivity.
Qed.
Lemma same_hash P cs t a b x : same_set a b -> tree_hash P cs t x a = tree_hash P cs t x b.
Proof. intros S. exact (same_hash_f P cs t a b S 33 x). Qed.
Local Opaque tree_hash resolve parent_hash find_parent_hash children.
Lemma parent_hash_listing o P cs t x nd : some_order o -> check_parent_hash_in o P cs t x nd = check_parent_hash P cs t x nd.
Proof.
  intros O. unfold check_parent_hash_in, check_parent_hash. destruct nd as [[l|p]|]; try reflexivity.
  rewrite !(same_hash P cs t (o _ (pn_unmerged p)) (pn_unmerged p) _ (same_order o O _)) || idtac.
  destruct (children x) as [[[l r]|]|e| |]; cbn [bind]; try reflexivity.
  rewrite !(same_hash P cs t (o _ (pn_unmerged p)) (pn_unmerged p) _ (same_order o O _)). reflexivity.
Qed.
Lemma parent_hashes_listing o P cs t : some_order o -> forall l i, verify_parent_hashes_from_in o P cs t i l = verify_parent_hashes_from P cs t i l.
Proof.
  intros O. induction l as [|nd l IH]; intros i; cbn [verify_parent_hashes_from_in verify_parent_hashes_from]; [reflexivity|].
  rewrite parent_hash_listing by exact O. destruct (check_parent_hash _ _ _ _ _) as [[]|e| |]; cbn [bind]; try reflexivity. apply IH.
Qed.
Lemma tree_listing o P t ctx now : some_order o -> verify_integrity_in o P t ctx now = verify_integrity P t ctx now.
Proof.
  intros O. unfold verify_integrity_in, verify_integrity, verify_parent_hashes. rewrite parent_hashes_listing by exact O.
  destruct (root_tree_hash _ _ _); cbn [bind]; try reflexivity. destruct (negb _); [reflexivity|].
  destruct (verify_parent_hashes_from _ _ _ _ _); cbn [bind]; try reflexivity. destruct (negb _); [reflexivity|].
  pose proof (creds_listing o t O) as C. destruct (supported_creds_in o t) as [c|e| |], (supported_creds t) as [c'|e'| |]; try destruct C; cbn [bind]; try reflexivity; try (subst; reflexivity).
  destruct (leaves t) as [ls|e| |]; cbn [bind]; try reflexivity.
  pose proof (leaves_listing o P (gc_suite ctx) (gc_group_id ctx) now O ls c c' [] [] [] [] C (same_refl _) (same_refl _)) as V.
  destruct (verify_leaves_in _ _ _ _ _ _ _ _ _) as [[sk ek]|e| |], (verify_leaves _ _ _ _ _ _ _ _) as [[sk' ek']|e'| |]; try destruct V; cbn [bind]; try reflexivity; try (subst; reflexivity).
  apply parents_listing; assumption.
Qed.

(** ** Proposals *)
Lemma loop_listing o total c : some_order o -> forall l adds touched psks adds' touched' psks' gce, same_set adds adds' -> same_set touched touched' -> same_set psks psks' ->
  proposal_loop_in o total c adds touched psks gce l = proposal_loop total c adds' touched' psks' gce l.
Proof.
  intros O. assert (T : forall A (a b : list A), same_set a b -> same_set (o A a) b) by (intros A a b S; eapply same_trans; [apply same_order, O|exact S]).
  induction l as [|[p s] l IH]; intros adds touched psks adds' touched' psks' gce A U K; [reflexivity|].
  destruct p as [a|u|m|q|r|x|g]; cbn [proposal_loop_in proposal_loop].
  - rewrite (same_mem bytes_eqb bytes_eqb_eq _ _ (T _ _ _ A)). destruct (mem _ _ _); [reflexivity|]. apply IH; auto. apply T, same_cons, A.
  - destruct (s =? c); [reflexivity|]. rewrite (same_mem N.eqb N.eqb_eq _ _ (T _ _ _ U)). destruct (mem _ _ _); [reflexivity|]. apply IH; auto. apply T, same_cons, U.
  - destruct (rem_removed m =? c); [reflexivity|]. rewrite (same_mem N.eqb N.eqb_eq _ _ (T _ _ _ U)). destruct (mem _ _ _); [reflexivity|]. apply IH; auto. apply T, same_cons, U.
  - destruct (se_psk_id _) as [b|e| |]; cbn [bind]; try reflexivity. rewrite (same_mem bytes_eqb bytes_eqb_eq _ _ (T _ _ _ K)). destruct (mem _ _ _); [reflexivity|]. apply IH; auto. apply T, same_cons, K.
  - destruct (_ <? _)%nat; [reflexivity|]. apply IH; auto.
  - reflexivity.
  - destruct gce; [reflexivity|]. apply IH; auto.
Qed.
Lemma list_listing o ps senders c : some_order o -> verify_proposal_list_in o ps senders c = verify_proposal_list ps senders c.
Proof. intros O. unfold verify_proposal_list_in, verify_proposal_list. destruct (negb _); [reflexivity|]. apply loop_listing; [exact O|apply same_refl|apply same_refl|apply same_refl]. Qed.

(** ** The key store *)
Lemma same_delete s s' k : same_store s s' -> same_store (ks_delete s k) (ks_delete s' k).
Proof. intros S x. rewrite !retrieve_delete, (S x). reflexivity. Qed.
Lemma same_stored s s' k v : same_store s s' -> same_store (ks_store s k v) (ks_store s' k v).
Proof. intros S x. rewrite !retrieve_store, (S x). reflexivity. Qed.
Lemma same_find s s' : same_store s s' -> forall l, find_stored s l = find_stored s' l.
Proof. intros S. induction l as [|e l IH]; cbn [find_stored]; [reflexivity|]. rewrite (S (egs_new_member e)), IH. reflexivity. Qed.
Definition like {A} (x y : key_store * res A) : Prop := same_store (fst x) (fst y) /\ snd x = snd y.
Lemma like_bind {A B} s s' (m : res A) (k k' : A -> key_store * res B) : same_store s s' -> (forall a, like (k a) (k' a)) -> like (sbind s m k) (sbind s' m k').
Proof. intros S H. destruct m; cbn; [apply H| | |]; (split; [exact S|reflexivity]). Qed.
Lemma join_listing P s s' w : same_store s s' -> same_store (fst (from_welcome P s w)) (fst (from_welcome P s' w)) /\ snd (from_welcome P s w) = snd (from_welcome P s' w).
Proof.
  intros S. change (like (from_welcome P s w) (from_welcome P s' w)). unfold from_welcome. rewrite (same_find _ _ S).
  apply like_bind; [exact S|]. intros raw. apply like_bind; [exact S|]. intros kp. apply like_bind; [exact S|]. intros ref.
  pose proof (same_delete _ _ ref S) as D. cbv zeta. rewrite (D (kp_init_key (kp_payload kp))). apply like_bind; [exact D|]. intros rawi.
  apply like_bind; [exact D|]. intros _. split; [apply same_delete, D|reflexivity].
Qed.
Lemma build_listing P f1 f2 s s' b v cs cred skp : same_store s s' ->
  same_store (fst (key_package_build P f1 f2 s b v cs cred skp)) (fst (key_package_build P f1 f2 s' b v cs cred skp)) /\
  snd (key_package_build P f1 f2 s b v cs cred skp) = snd (key_package_build P f1 f2 s' b v cs cred skp).
Proof.
  intros S. change (like (key_package_build P f1 f2 s b v cs cred skp) (key_package_build P f1 f2 s' b v cs cred skp)). unfold key_package_build.
  apply like_bind; [exact S|]. intros [[kp ekp] init]. apply like_bind; [exact S|]. intros ref. apply like_bind; [exact S|]. intros raw. cbv zeta.
  pose proof (same_stored _ _ ref raw S) as A. apply like_bind; [exact A|]. intros rawe.
  pose proof (same_stored _ _ (hkp_public ekp) rawe A) as B. apply like_bind; [exact B|]. intros rawi. split; [apply same_stored, B|reflexivity].
Qed.
