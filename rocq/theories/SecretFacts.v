(** Proofs about labels, the secret tree and ratchets. *)
From Coq Require Import ZifyBool ZifyNat ZifyN.
From Verif Require Import TreeMathProofs TreePaths CodecLib CodecFacts LeafFacts SpecSecrets ExProvider.
Local Open Scope N_scope.

(** ** Labels *)
Lemma se_opaque_vec b : fits30 b -> se_opaque b = Ok (vec b).
Proof.
  unfold fits30, vec. intros H. rewrite se_opaque_eq. destruct (N.leb_spec 1073741824 (N.of_nat (length b))); [lia|].
  rewrite se_varint_eq. destruct (N.ltb_spec (N.of_nat (length b)) 64); [reflexivity|].
  destruct (N.ltb_spec (N.of_nat (length b)) 16384); [reflexivity|].
  destruct (N.ltb_spec (N.of_nat (length b)) 1073741824); [reflexivity|lia].
Qed.
Lemma se_opaque_long b : ~ fits30 b -> se_opaque b = Err VarintExceeds30Bits \/ se_opaque b = Err OpaqueSizeExceedsMaximumValueOfU32.
Proof.
  unfold fits30. intros H. rewrite se_opaque_eq. destruct (N.leb_spec 1073741824 (N.of_nat (length b))); [|lia].
  destruct (_ <=? _); auto.
Qed.
Lemma fits30_dec b : fits30 b \/ ~ fits30 b.
Proof. unfold fits30. lia. Qed.

Lemma vec_prefix a b x y : fits30 a -> fits30 b -> (vec a ++ x = vec b ++ y)%list -> a = b /\ x = y.
Proof. intros A B E. exact (codec_prefix_free codec_opaque _ _ _ _ _ _ I I (se_opaque_vec _ A) (se_opaque_vec _ B) E). Qed.

Lemma expand_info_eq l c n : fits30 (mls_label l) -> fits30 c -> expand_info l c n = Ok (kdf_label l c n).
Proof.
  intros L C. unfold expand_info, kdf_label, put_u16. change (mls_prefix ++ l)%list with (mls_label l).
  rewrite (se_opaque_vec _ L), (se_opaque_vec _ C). reflexivity.
Qed.
Lemma label_data_eq l c : fits30 (mls_label l) -> fits30 c -> mls_prefix_label_data l c = Ok (labelled l c).
Proof.
  intros L C. unfold mls_prefix_label_data, labelled. change (mls_prefix ++ l)%list with (mls_label l).
  rewrite (se_opaque_vec _ L), (se_opaque_vec _ C). reflexivity.
Qed.
Definition size_err {A} (r : res A) : Prop := r = Err VarintExceeds30Bits \/ r = Err OpaqueSizeExceedsMaximumValueOfU32.
Lemma two_long l c : ~ (fits30 (mls_label l) /\ fits30 c) -> size_err (se_opaque (mls_label l) +++ se_opaque c).
Proof.
  intros N. destruct (fits30_dec (mls_label l)) as [L|L].
  - rewrite (se_opaque_vec _ L). destruct (se_opaque_long c) as [E|E]; [tauto| |]; rewrite E; cbn; unfold size_err; auto.
  - destruct (se_opaque_long _ L) as [E|E]; rewrite E; cbn; unfold size_err; auto.
Qed.
Lemma expand_info_long l c n : ~ (fits30 (mls_label l) /\ fits30 c) -> size_err (expand_info l c n).
Proof. intros N. unfold expand_info. change (mls_prefix ++ l)%list with (mls_label l). destruct (two_long _ _ N) as [E|E]; rewrite E; cbn; unfold size_err; auto. Qed.
Lemma label_data_long l c : ~ (fits30 (mls_label l) /\ fits30 c) -> size_err (mls_prefix_label_data l c).
Proof. intros N. unfold mls_prefix_label_data. change (mls_prefix ++ l)%list with (mls_label l). exact (two_long _ _ N). Qed.

Lemma c38_expand P cs k s l c n : p_hpke P cs = Ok k -> fits30 (mls_label l) -> fits30 c ->
  expand_with_label P cs s l c n = expand_label k s l c n.
Proof. intros K L C. unfold expand_with_label. rewrite (expand_info_eq _ _ _ L C). cbn [bind]. rewrite K. reflexivity. Qed.
Lemma c38_expand_long P cs s l c n : ~ (fits30 (mls_label l) /\ fits30 c) -> size_err (expand_with_label P cs s l c n).
Proof. intros N. unfold expand_with_label. destruct (expand_info_long _ _ n N) as [E|E]; rewrite E; cbn; unfold size_err; auto. Qed.

Lemma expand_ok P cs s l c n b : expand_with_label P cs s l c n = Ok b ->
  exists k, p_hpke P cs = Ok k /\ fits30 (mls_label l) /\ fits30 c /\ expand_label k s l c n = Ok b.
Proof.
  intros H. destruct (fits30_dec (mls_label l)) as [L|L].
  2:{ destruct (c38_expand_long P cs s l c n) as [E|E]; [tauto| |]; rewrite H in E; discriminate. }
  destruct (fits30_dec c) as [C|C].
  2:{ destruct (c38_expand_long P cs s l c n) as [E|E]; [tauto| |]; rewrite H in E; discriminate. }
  unfold expand_with_label in H. rewrite (expand_info_eq _ _ _ L C) in H. cbn [bind] in H. destruct (p_hpke P cs) as [k|e| |] eqn:K; try discriminate.
  exists k. auto.
Qed.

Lemma be2_inj a b : a < 65536 -> b < 65536 -> be 2 a = be 2 b -> a = b.
Proof. intros A B E. exact (codec_inj codec_u16 a b _ A B (eq_refl (Ok (be 2 a))) (eq_trans (f_equal Ok (eq_sym E)) eq_refl)). Qed.
Lemma be4_inj a b : a < 4294967296 -> b < 4294967296 -> be 4 a = be 4 b -> a = b.
Proof. intros A B E. exact (codec_inj codec_u32 a b (be 4 a) A B eq_refl (eq_trans (f_equal Ok (eq_sym E)) eq_refl)). Qed.

Lemma kdf_label_inj l c n l' c' n' : fits30 (mls_label l) -> fits30 c -> fits30 (mls_label l') -> fits30 c' -> n < 65536 -> n' < 65536 ->
  kdf_label l c n = kdf_label l' c' n' -> l = l' /\ c = c' /\ n = n'.
Proof.
  unfold kdf_label. intros L C L' C' N N' E.
  destruct (codec_prefix_free codec_u16 n n' (be 2 n) (be 2 n') _ _ N N' eq_refl eq_refl E) as [-> E2].
  destruct (vec_prefix _ _ _ _ L L' E2) as [E3 E4]. apply app_inv_head in E3. subst l'.
  rewrite <- (app_nil_r (vec c)), <- (app_nil_r (vec c')) in E4. destruct (vec_prefix _ _ _ _ C C' E4) as [-> _]. auto.
Qed.
Lemma labelled_inj l c l' c' : fits30 (mls_label l) -> fits30 c -> fits30 (mls_label l') -> fits30 c' ->
  labelled l c = labelled l' c' -> l = l' /\ c = c'.
Proof. intros L C L' C' E. apply (label_data_inj l l' c c' (labelled l c)); [|rewrite E]; apply label_data_eq; assumption. Qed.

(** ** The secret tree *)
Definition slen (t : secret_tree) : N := N.of_nat (length t).
Lemma slen_sset t x s : slen (sset t x s) = slen t.
Proof.
  unfold slen, sset. destruct (N.ltb_spec x (N.of_nat (length t))) as [H|H]; [|reflexivity].
  rewrite app_length. cbn [length]. rewrite firstn_length, skipn_length. lia.
Qed.
Lemma sget_same t x s : x < slen t -> sget (sset t x s) x = Some s.
Proof.
  unfold slen, sget, sset. intros H. destruct (N.ltb_spec x (N.of_nat (length t))); [|lia].
  rewrite app_nth2; rewrite firstn_length_le by lia; [|lia]. rewrite Nat.sub_diag. reflexivity.
Qed.
Lemma sget_other t x y s : x <> y -> sget (sset t x s) y = sget t y.
Proof.
  unfold sget, sset. intros H. destruct (N.ltb_spec x (N.of_nat (length t))) as [L|L]; [|reflexivity].
  destruct (Nat.lt_ge_cases (N.to_nat y) (N.to_nat x)) as [C|C].
  - rewrite app_nth1 by (rewrite firstn_length_le; lia). rewrite <- (firstn_skipn (N.to_nat x) t) at 2. rewrite app_nth1 by (rewrite firstn_length_le; lia). reflexivity.
  - rewrite app_nth2; rewrite firstn_length_le by lia; [|lia].
    rewrite <- (firstn_skipn (S (N.to_nat x)) t) at 2. rewrite app_nth2; rewrite firstn_length_le by lia; [|lia].
    replace (N.to_nat y - N.to_nat x)%nat with (S (N.to_nat y - S (N.to_nat x))) by lia. reflexivity.
Qed.
Lemma sget_beyond t x : slen t <= x -> sget t x = None.
Proof. unfold slen, sget. intros H. apply nth_overflow. lia. Qed.

Lemma position_div path : forall j, position j path / 2 ^ N.of_nat (length path) = j.
Proof.
  induction path as [|b path IH]; intros j; [cbn; apply N.div_1_r|]. cbn [position length].
  replace (N.of_nat (S (length path))) with (N.of_nat (length path) + 1) by lia.
  rewrite pow2_S, (N.mul_comm 2 (2 ^ _)), <- N.div_div by (try apply N.pow_nonzero; lia). rewrite IH. destruct b; [apply half_r|rewrite N.add_0_r; apply half_l].
Qed.
Lemma inside_position k j path : N.of_nat (length path) <= k -> inside k j (node_at (k - N.of_nat (length path)) (position j path)).
Proof.
  intros H. exists (k - N.of_nat (length path)), (position j path). split; [lia|]. split; [reflexivity|].
  replace (k - (k - N.of_nat (length path))) with (N.of_nat (length path)) by lia. apply position_div.
Qed.
Lemma inside_disjoint k j j' x : inside k j x -> inside k j' x -> j = j'.
Proof.
  intros (a & b & L & -> & <-) (a' & b' & L' & E & <-). apply node_at_inj in E as [<- <-]. reflexivity.
Qed.
Lemma inside_top k j k' j' : inside k j (node_at k' j') -> k' <= k /\ j' / 2 ^ (k - k') = j.
Proof. intros (a & b & L & E & D). apply node_at_inj in E as [<- <-]. auto. Qed.

(** Children of a node with a secret, with the expansions they hold. *)
Lemma expand_left P cs k s : p_hpke P cs = Ok k -> expand_with_label P cs s (str "tree") (str "left") (nh k) = expand_label k s (str "tree") (str "left") (nh k).
Proof. intros K. apply c38_expand; [exact K|reflexivity|reflexivity]. Qed.
Lemma expand_right P cs k s : p_hpke P cs = Ok k -> expand_with_label P cs s (str "tree") (str "right") (nh k) = expand_label k s (str "tree") (str "right") (nh k).
Proof. intros K. apply c38_expand; [exact K|reflexivity|reflexivity]. Qed.

Lemma derive_children_unfold fuel P cs t k j : k < 31 ->
  derive_children (S fuel) P cs t (node_at (k + 1) j) =
  match sget t (node_at (k + 1) j) with
  | None => Err InvalidParentNode
  | Some s =>
      let* h := p_hpke P cs in
      let* ls := expand_with_label P cs s (str "tree") (str "left") (nh h) in
      let* rs := expand_with_label P cs s (str "tree") (str "right") (nh h) in
      let* t' := derive_children fuel P cs (sset (sset t (node_at k (2 * j)) ls) (node_at k (2 * j + 1)) rs) (node_at k (2 * j)) in
      derive_children fuel P cs t' (node_at k (2 * j + 1))
  end.
Proof. intros H. cbn [derive_children]. rewrite (children_node k j H). reflexivity. Qed.
Lemma derive_children_leaf fuel P cs t j : derive_children fuel P cs t (node_at 0 j) = Ok t.
Proof. destruct fuel; cbn [derive_children]; rewrite children_leaf; reflexivity. Qed.

(** Derivation changes nothing outside the subtree, nor its top. *)
Lemma derive_frame P cs : forall k fuel t t' j, (k <= 31)%nat -> (k <= fuel)%nat ->
  derive_children fuel P cs t (node_at (N.of_nat k) j) = Ok t' ->
  slen t' = slen t /\ forall x, ~ inside (N.of_nat k) j x \/ x = node_at (N.of_nat k) j -> sget t' x = sget t x.
Proof.
  induction k as [|k IH]; intros fuel t t' j Hk Hf H.
  { change (N.of_nat 0) with 0 in H. rewrite derive_children_leaf in H. apply Ok_inj in H. subst. auto. }
  destruct fuel as [|fuel]; [lia|]. replace (N.of_nat (S k)) with (N.of_nat k + 1) in * by lia.
  rewrite derive_children_unfold in H by lia. destruct (sget t (node_at (N.of_nat k + 1) j)) as [s|] eqn:G; [|discriminate].
  apply bind_ok in H as (h & K & H). apply bind_ok in H as (ls & EL & H). apply bind_ok in H as (rs & ER & H).
  apply bind_ok in H as (t1 & H1 & H2).
  apply IH in H1 as [L1 F1]; [|lia|lia]. apply IH in H2 as [L2 F2]; [|lia|lia].
  split; [rewrite L2, L1, !slen_sset; reflexivity|]. intros x Hx.
  assert (NL : ~ inside (N.of_nat k) (2 * j) x).
  { intros I. destruct Hx as [Hx|Hx]; [apply Hx, inside_l, I|]. subst x. apply inside_top in I as [I _]. lia. }
  assert (NR : ~ inside (N.of_nat k) (2 * j + 1) x).
  { intros I. destruct Hx as [Hx|Hx]; [apply Hx, inside_r, I|]. subst x. apply inside_top in I as [I _]. lia. }
  rewrite F2 by auto. rewrite F1 by auto.
  rewrite sget_other by (intros <-; apply NR, inside_refl). rewrite sget_other by (intros <-; apply NL, inside_refl). reflexivity.
Qed.

(** What a successful derivation leaves at each node below. *)
Lemma derive_spec P cs h : p_hpke P cs = Ok h -> forall k fuel t t' j s, (k <= 31)%nat -> (k <= fuel)%nat ->
  sget t (node_at (N.of_nat k) j) = Some s ->
  (forall x, inside (N.of_nat k) j x -> x < slen t) ->
  derive_children fuel P cs t (node_at (N.of_nat k) j) = Ok t' ->
  forall path, (length path <= k)%nat -> exists b, node_secret h s path = Ok b /\
    sget t' (node_at (N.of_nat k - N.of_nat (length path)) (position j path)) = Some b.
Proof.
  intros K. induction k as [|k IH]; intros fuel t t' j s Hk Hf G B H path Hp.
  { destruct path; [|cbn in Hp; lia]. exists s. split; [reflexivity|]. destruct (derive_frame _ _ _ _ _ _ _ Hk Hf H) as [_ F].
    cbn [length position]. rewrite N.sub_0_r. rewrite F; auto. }
  destruct path as [|b path].
  { exists s. split; [reflexivity|]. destruct (derive_frame _ _ _ _ _ _ _ Hk Hf H) as [_ F].
    cbn [length position]. rewrite N.sub_0_r. rewrite F; auto. }
  destruct fuel as [|fuel]; [lia|]. replace (N.of_nat (S k)) with (N.of_nat k + 1) in * by lia.
  rewrite derive_children_unfold in H by lia. rewrite G in H. rewrite K in H. cbn [bind] in H.
  apply bind_ok in H as (ls & EL & H). apply bind_ok in H as (rs & ER & H). apply bind_ok in H as (t1 & H1 & H2).
  rewrite (expand_left _ _ _ _ K) in EL. rewrite (expand_right _ _ _ _ K) in ER.
  set (t0 := sset (sset t (node_at (N.of_nat k) (2 * j)) ls) (node_at (N.of_nat k) (2 * j + 1)) rs) in *.
  assert (L0 : slen t0 = slen t) by (unfold t0; rewrite !slen_sset; reflexivity).
  assert (NE : node_at (N.of_nat k) (2 * j + 1) <> node_at (N.of_nat k) (2 * j)) by (intros E; apply node_at_inj in E; lia).
  assert (G0 : sget t0 (node_at (N.of_nat k) (2 * j)) = Some ls).
  { unfold t0. rewrite sget_other by exact NE. apply sget_same, B, inside_l, inside_refl. }
  assert (G0' : sget t0 (node_at (N.of_nat k) (2 * j + 1)) = Some rs).
  { unfold t0. apply sget_same. rewrite slen_sset. apply B, inside_r, inside_refl. }
  destruct (derive_frame _ _ k fuel _ _ _ ltac:(lia) ltac:(lia) H1) as [L1 F1].
  destruct (derive_frame _ _ k fuel _ _ _ ltac:(lia) ltac:(lia) H2) as [L2 F2].
  assert (D : forall x, inside (N.of_nat k) (2 * j) x -> ~ inside (N.of_nat k) (2 * j + 1) x).
  { intros x I I'. pose proof (inside_disjoint _ _ _ _ I I'). lia. }
  cbn [length] in Hp |- *. replace (N.of_nat k + 1 - N.of_nat (S (length path))) with (N.of_nat k - N.of_nat (length path)) by lia.
  cbn [node_secret position]. destruct b.
  - rewrite ER. apply (IH fuel t1 t' (2 * j + 1) rs); [lia|lia| | |exact H2|lia].
    + rewrite F1; [exact G0'|]. left. intros I. exact (D _ I (inside_refl _ _)).
    + intros x I. rewrite L1, L0. apply B, inside_r, I.
  - rewrite EL. rewrite N.add_0_r. destruct (IH fuel t0 t1 (2 * j) ls ltac:(lia) ltac:(lia) G0) with (path := path) as (v & V1 & V2); [|exact H1|lia|].
    + intros x I. rewrite L0. apply B, inside_l, I.
    + exists v. split; [exact V1|]. rewrite F2; [exact V2|]. left. apply D. apply inside_position. lia.
Qed.

(** A missing slot of a parent inside the subtree makes derivation fail. *)
Lemma derive_missing P cs : forall k fuel t t' j x, (k <= 31)%nat -> (k <= fuel)%nat ->
  inside (N.of_nat k) j x -> N.odd x = true -> slen t <= x ->
  derive_children fuel P cs t (node_at (N.of_nat k) j) <> Ok t'.
Proof.
  induction k as [|k IH]; intros fuel t t' j x Hk Hf I O L H.
  { destruct I as (a & b & A & -> & _). replace a with 0 in O by lia. rewrite node_at_leaf in O. rewrite N.odd_mul in O. discriminate. }
  destruct fuel as [|fuel]; [lia|]. replace (N.of_nat (S k)) with (N.of_nat k + 1) in * by lia.
  rewrite derive_children_unfold in H by lia. destruct (sget t (node_at (N.of_nat k + 1) j)) as [s|] eqn:G; [|discriminate].
  apply bind_ok in H as (h & K & H). apply bind_ok in H as (ls & EL & H). apply bind_ok in H as (rs & ER & H). apply bind_ok in H as (t1 & H1 & H2).
  apply inside_split in I as [->|[I|I]].
  - rewrite sget_beyond in G by exact L. discriminate.
  - refine (IH fuel _ _ _ _ _ _ I O _ H1); [lia|lia|]. rewrite !slen_sset. exact L.
  - destruct (derive_frame _ _ k fuel _ _ _ ltac:(lia) ltac:(lia) H1) as [L1 _].
    refine (IH fuel _ _ _ _ _ _ I O _ H2); [lia|lia|]. rewrite L1, !slen_sset. exact L.
Qed.

Definition all_usable (h : hpke_alg) (t : secret_tree) : Prop := forall x s, sget t x = Some s -> usable h s.
Lemma all_usable_sset h t x s : all_usable h t -> usable h s -> all_usable h (sset t x s).
Proof.
  intros A U y b G. destruct (N.eq_dec y x) as [->|NE]; [|rewrite sget_other in G by congruence; exact (A _ _ G)].
  destruct (N.lt_ge_cases x (slen t)) as [L|L]; [rewrite sget_same in G by exact L; injection G as <-; exact U|].
  rewrite sget_beyond in G; [discriminate G|]. rewrite slen_sset. exact L.
Qed.
Lemma all_usable_new h n x s : usable h s -> all_usable h (sset (repeat None n) x s).
Proof.
  intros U. apply all_usable_sset; [|exact U]. intros y b G. unfold sget in G. exfalso. rewrite nth_repeat in G. discriminate G.
Qed.
(** With a working KDF there are only two outcomes, and only a missing slot is an error. *)
Lemma derive_outcome P cs h : working_kdf P cs h -> forall k fuel t j, (k <= 31)%nat -> (k <= fuel)%nat -> all_usable h t ->
  (exists t', derive_children fuel P cs t (node_at (N.of_nat k) j) = Ok t' /\ all_usable h t') \/
  derive_children fuel P cs t (node_at (N.of_nat k) j) = Err InvalidParentNode.
Proof.
  intros [K W]. induction k as [|k IH]; intros fuel t j Hk Hf A.
  { left. exists t. split; [apply derive_children_leaf|exact A]. }
  destruct fuel as [|fuel]; [lia|]. replace (N.of_nat (S k)) with (N.of_nat k + 1) in * by lia.
  rewrite derive_children_unfold by lia. destruct (sget t (node_at (N.of_nat k + 1) j)) as [s|] eqn:G; [|auto]. apply A in G.
  rewrite K. cbn [bind]. rewrite (expand_left _ _ _ _ K), (expand_right _ _ _ _ K). unfold expand_label.
  destruct (W s (kdf_label (str "tree") (str "left") (nh h)) G) as (ls & -> & LU). destruct (W s (kdf_label (str "tree") (str "right") (nh h)) G) as (rs & -> & RU). cbn [bind].
  match goal with |- context [derive_children fuel P cs ?t0 (node_at (N.of_nat k) (2 * j))] => destruct (IH fuel t0 (2 * j) ltac:(lia) ltac:(lia)) as [(t1 & E & A1)|E] end;
    [apply all_usable_sset; [apply all_usable_sset; assumption|assumption]| |]; rewrite E; cbn [bind]; [|auto]. apply IH; [lia|lia|exact A1].
Qed.

Lemma derive_full P cs h : working_kdf P cs h -> forall k fuel t j, (k <= 31)%nat -> (k <= fuel)%nat -> all_usable h t ->
  sget t (node_at (N.of_nat k) j) <> None -> (forall x, inside (N.of_nat k) j x -> x < slen t) ->
  exists t', derive_children fuel P cs t (node_at (N.of_nat k) j) = Ok t' /\ all_usable h t'.
Proof.
  intros [K W]. induction k as [|k IH]; intros fuel t j Hk Hf A G B.
  { exists t. split; [apply derive_children_leaf|exact A]. }
  destruct fuel as [|fuel]; [lia|]. replace (N.of_nat (S k)) with (N.of_nat k + 1) in * by lia.
  rewrite derive_children_unfold by lia. destruct (sget t (node_at (N.of_nat k + 1) j)) as [s|] eqn:GS; [|congruence]. apply A in GS.
  rewrite K. cbn [bind]. rewrite (expand_left _ _ _ _ K), (expand_right _ _ _ _ K). unfold expand_label.
  destruct (W s (kdf_label (str "tree") (str "left") (nh h)) GS) as (ls & -> & LU). destruct (W s (kdf_label (str "tree") (str "right") (nh h)) GS) as (rs & -> & RU). cbn [bind].
  assert (NE : node_at (N.of_nat k) (2 * j + 1) <> node_at (N.of_nat k) (2 * j)) by (intros E; apply node_at_inj in E; lia).
  match goal with |- context [derive_children fuel P cs ?t0 (node_at (N.of_nat k) (2 * j))] => destruct (IH fuel t0 (2 * j) ltac:(lia) ltac:(lia)) as (t1 & E & A1) end.
  - apply all_usable_sset; [apply all_usable_sset; assumption|assumption].
  - rewrite sget_other by exact NE. rewrite sget_same; [discriminate|]. apply B, inside_l, inside_refl.
  - intros x I. rewrite !slen_sset. apply B, inside_l, I.
  - rewrite E. cbn [bind]. destruct (derive_frame _ _ k fuel _ _ _ ltac:(lia) ltac:(lia) E) as [L1 F1]. apply IH; [lia|lia|exact A1| |].
    + rewrite F1; [|left; intros I; pose proof (inside_disjoint _ _ _ _ I (inside_refl _ _)); lia].
      rewrite sget_same; [discriminate|]. rewrite slen_sset. apply B, inside_r, inside_refl.
    + intros x I. rewrite L1, !slen_sset. apply B, inside_r, I.
Qed.

Lemma inside_in_tree d x : inside d 0 x <-> in_tree d x.
Proof.
  split.
  - intros (k & j & L & -> & E). apply in_tree_iff. split; [lia|]. apply N.div_small_iff in E; [exact E|]. apply N.pow_nonzero. lia.
  - intros T. destruct (tm_onto d x T) as (k & j & -> & L & J). exists k, j. split; [exact L|]. split; [reflexivity|]. apply N.div_small, J.
Qed.

Lemma new_unfold P cs n s : 0 < n -> n <= 2147483648 ->
  new_secret_tree P cs n s = derive_children 33 P cs (sset (repeat None (N.to_nat (2 * n - 1))) (node_at (depth n) 0) s) (node_at (depth n) 0).
Proof.
  intros H L. unfold new_secret_tree. rewrite (width_ok n H L). cbn [bind]. rewrite (root_ok n H L). cbn [bind]. rewrite <- node_at_root. reflexivity.
Qed.
Lemma slen_repeat n : slen (repeat None (N.to_nat n)) = n.
Proof. unfold slen. rewrite repeat_length. apply N2Nat.id. Qed.

Lemma full_pow d x : inside d 0 x -> x < 2 * 2 ^ d - 1.
Proof. intros I. apply inside_in_tree in I. unfold in_tree in I. rewrite pow2_S in I. exact I. Qed.

Lemma nat_of d : exists m, d = N.of_nat m.
Proof. exists (N.to_nat d). symmetry. apply N2Nat.id. Qed.

Lemma c36_total P cs h d s : working_kdf P cs h -> usable h s -> d <= 31 -> exists t, new_secret_tree P cs (2 ^ d) s = Ok t /\ all_usable h t.
Proof.
  intros W U D. destruct (pow2_bound d D) as [A B]. rewrite new_unfold by assumption. rewrite depth_pow2.
  destruct (nat_of d) as [m ->]. apply (derive_full _ _ _ W); [lia|lia|apply all_usable_new, U| |].
  - rewrite sget_same; [discriminate|]. rewrite slen_repeat. apply full_pow, inside_refl.
  - intros x I. rewrite slen_sset, slen_repeat. apply full_pow, I.
Qed.

Lemma c36_nodes P cs h d s t : p_hpke P cs = Ok h -> d <= 31 -> new_secret_tree P cs (2 ^ d) s = Ok t ->
  N.of_nat (length t) = 2 * 2 ^ d - 1 /\
  forall path, N.of_nat (length path) <= d -> exists b, node_secret h s path = Ok b /\
    sget t (node_at (d - N.of_nat (length path)) (position 0 path)) = Some b.
Proof.
  intros K D H. destruct (pow2_bound d D) as [A B]. rewrite new_unfold in H by assumption. rewrite depth_pow2 in H.
  destruct (nat_of d) as [m ->].
  destruct (derive_frame _ _ m 33%nat _ _ _ ltac:(lia) ltac:(lia) H) as [L _]. split; [change (slen t = 2 * 2 ^ N.of_nat m - 1); rewrite L, slen_sset, slen_repeat; reflexivity|].
  intros path Hp. refine (derive_spec P cs h K m 33%nat _ _ 0 s _ _ _ _ H path _); [lia|lia| | |lia].
  - apply sget_same. rewrite slen_repeat. apply full_pow, inside_refl.
  - intros x I. rewrite slen_sset, slen_repeat. apply full_pow, I.
Qed.

Lemma not_pow n : 0 < n -> (forall d, n <> 2 ^ d) -> inside (depth n) 0 (2 * n - 1).
Proof.
  intros H N. destruct (depth_bounds n H) as [A B]. apply inside_in_tree. unfold in_tree. rewrite pow2_S. specialize (N (depth n)). lia.
Qed.
Lemma c36_too_big P cs n s : n = 0 \/ 2147483648 < n -> new_secret_tree P cs n s = Panic.
Proof.
  intros [->|L]; [reflexivity|]. unfold new_secret_tree, width. destruct (N.eqb_spec n 0); [lia|]. unfold sub32, mul32, add32, u32_max.
  destruct (N.ltb_spec n 1); [lia|]. cbn [bind]. destruct (N.leb_spec (2 * (n - 1)) 4294967295); [|reflexivity]. cbn [bind].
  destruct (N.leb_spec (2 * (n - 1) + 1) 4294967295); [lia|reflexivity].
Qed.
Lemma c36_none P cs n s t : (forall d, n <> 2 ^ d) -> new_secret_tree P cs n s <> Ok t.
Proof.
  intros N H. destruct (N.eq_dec n 0) as [->|Z]; [discriminate|]. destruct (N.le_gt_cases n 2147483648) as [L|L].
  - rewrite new_unfold in H by lia. pose proof (not_pow n ltac:(lia) N) as I. pose proof (depth_lt n ltac:(lia) L) as D.
    destruct (nat_of (depth n)) as [m E]. rewrite E in *. revert H. apply (derive_missing P cs m 33%nat _ _ 0 (2 * n - 1)); [lia|lia|exact I| |].
    + rewrite N.odd_sub by lia. rewrite N.odd_mul. reflexivity.
    + rewrite slen_sset, slen_repeat. lia.
  - rewrite c36_too_big in H by auto. discriminate.
Qed.
Lemma c36_error P cs h n s : working_kdf P cs h -> usable h s -> 0 < n -> n <= 2147483648 -> (forall d, n <> 2 ^ d) -> new_secret_tree P cs n s = Err InvalidParentNode.
Proof.
  intros W U H L N. pose proof (c36_none P cs n s) as X. rewrite new_unfold in * by assumption. pose proof (depth_lt n H L) as D.
  destruct (nat_of (depth n)) as [m E]. rewrite E in *.
  destruct (derive_outcome P cs h W m 33%nat (sset (repeat None (N.to_nat (2 * n - 1))) (node_at (N.of_nat m) 0) s) 0 ltac:(lia) ltac:(lia) (all_usable_new _ _ _ _ U)) as [(t & Q & _)|Q]; [|exact Q].
  exfalso. exact (X t N Q).
Qed.
Lemma pow_small d : 2 ^ d <= 2147483648 -> d <= 31.
Proof. intros H. change 2147483648 with (2 ^ 31) in H. apply pow2_le_inv in H. exact H. Qed.
Lemma c36_iff P cs h n s : working_kdf P cs h -> usable h s -> ((exists t, new_secret_tree P cs n s = Ok t) <-> exists d, d <= 31 /\ n = 2 ^ d).
Proof.
  intros W U. split.
  - intros [t H]. destruct (N.le_gt_cases n 2147483648) as [L|L]; [|rewrite c36_too_big in H by auto; discriminate].
    destruct (N.eq_dec n 0) as [->|Z]; [rewrite c36_too_big in H by auto; discriminate|].
    destruct (N.eq_dec n (2 ^ depth n)) as [E|E].
    + exists (depth n). split; [|exact E]. apply pow_small. rewrite <- E. exact L.
    + exfalso. revert H. apply c36_none. intros d ->. apply E. rewrite depth_pow2. reflexivity.
  - intros (d & D & ->). destruct (c36_total P cs h d s W U D) as (t & H & _). eauto.
Qed.

(** Every node of the tree is reached along a path. *)
Lemma position_app p q j : position j (p ++ q) = position (position j p) q.
Proof. revert j. induction p as [|b p IH]; intros j; [reflexivity|]. cbn. apply IH. Qed.
Lemma reach_pos m : forall i, i < 2 ^ N.of_nat m -> exists path, length path = m /\ position 0 path = i.
Proof.
  induction m as [|m IH]; intros i H.
  { exists []. cbn in *. split; [reflexivity|lia]. }
  replace (N.of_nat (S m)) with (N.of_nat m + 1) in H by lia. rewrite pow2_S in H.
  destruct (IH (i / 2)) as (p & L & Q); [apply N.div_lt_upper_bound; lia|].
  exists (p ++ [N.odd i])%list. rewrite app_length, position_app, Q, L. split; [cbn; lia|]. cbn [position].
  rewrite <- N.bit0_odd. rewrite (N.div_mod i 2) at 3 by lia. rewrite <- N.bit0_mod. destruct (N.testbit i 0); reflexivity.
Qed.
Lemma c36_reach d x : in_tree d x -> exists path, N.of_nat (length path) <= d /\ x = node_at (d - N.of_nat (length path)) (position 0 path).
Proof.
  intros T. destruct (tm_onto d x T) as (k & j & -> & L & J). destruct (reach_pos (N.to_nat (d - k)) j) as (p & Lp & Q); [rewrite N2Nat.id; exact J|].
  exists p. rewrite Lp, N2Nat.id, Q. split; [lia|]. f_equal. lia.
Qed.

(** ** Ratchets *)
Lemma fits30_be4 g : fits30 (be 4 g).
Proof. unfold fits30. reflexivity. Qed.
Lemma tree_secret_eq P cs h s l g n : p_hpke P cs = Ok h -> fits30 (mls_label l) -> derive_tree_secret P cs s l g n = expand_label h s l (be 4 g) n.
Proof. intros K L. unfold derive_tree_secret, put_u32. cbn [bind]. apply c38_expand; [exact K|exact L|reflexivity]. Qed.

Lemma next_eq P cs h r : p_hpke P cs = Ok h -> derive_next P cs r =
  let* s := expand_label h (rt_secret r) (str "secret") (be 4 (rt_generation r)) (nh h) in
  let* g := add32 (rt_generation r) 1 in Ok (MkRatchet s g).
Proof. intros K. unfold derive_next. rewrite K. cbn [bind]. rewrite (tree_secret_eq P cs h); [reflexivity|exact K|reflexivity]. Qed.

Lemma c37_steps P cs h : p_hpke P cs = Ok h -> forall m r, rt_generation r + N.of_nat m < 4294967296 ->
  steps P cs r m = let* s := ratchet_after h (rt_secret r) (rt_generation r) m in Ok (MkRatchet s (rt_generation r + N.of_nat m)).
Proof.
  intros K. induction m as [|m IH]; intros [s g] L; cbn [rt_generation rt_secret] in *.
  { cbn. rewrite N.add_0_r. reflexivity. }
  cbn [steps ratchet_after]. rewrite (next_eq P cs h _ K). cbn [rt_secret rt_generation].
  destruct (expand_label h s (str "secret") (be 4 g) (nh h)) as [s'|e| |]; try reflexivity. cbn [bind].
  unfold add32, u32_max. destruct (N.leb_spec (g + 1) 4294967295); [|lia]. cbn [bind].
  rewrite IH by (cbn [rt_generation]; lia). cbn [rt_generation rt_secret].
  destruct (ratchet_after h s' (g + 1) m); try reflexivity. cbn [bind]. do 2 f_equal. lia.
Qed.
Lemma c37_overflow P cs h s b : p_hpke P cs = Ok h -> expand_label h s (str "secret") (be 4 4294967295) (nh h) = Ok b ->
  derive_next P cs (MkRatchet s 4294967295) = Panic.
Proof. intros K E. rewrite (next_eq P cs h _ K). cbn [rt_secret rt_generation]. rewrite E. reflexivity. Qed.

Lemma c37_root P cs h t x l s : p_hpke P cs = Ok h -> sget t x = Some s ->
  derive_ratchet_root P cs t x l = let* s := expand_label h s (ratchet_label_str l) [] (nh h) in Ok (MkRatchet s 0).
Proof.
  intros K G. unfold derive_ratchet_root. rewrite G, K. cbn [bind]. rewrite (c38_expand P cs h); [reflexivity|exact K| |reflexivity].
  destruct l; reflexivity.
Qed.
Lemma c37_keys P cs h r : p_hpke P cs = Ok h -> a_key_size h < 65536 -> a_nonce_size h < 65536 ->
  derive_key P cs r = expand_label h (rt_secret r) (str "key") (be 4 (rt_generation r)) (a_key_size h) /\
  derive_nonce P cs r = expand_label h (rt_secret r) (str "nonce") (be 4 (rt_generation r)) (a_nonce_size h).
Proof.
  intros K A B. unfold derive_key, derive_nonce. rewrite K. cbn [bind]. rewrite !N.mod_small by assumption.
  split; apply tree_secret_eq; first [exact K|reflexivity].
Qed.
Lemma c37_sizes P cs h r kb nb : p_hpke P cs = Ok h -> a_key_size h < 65536 -> a_nonce_size h < 65536 ->
  (forall s i n b, k_expand h s i n = Ok b -> N.of_nat (length b) = n) ->
  derive_key P cs r = Ok kb -> derive_nonce P cs r = Ok nb ->
  N.of_nat (length kb) = a_key_size h /\ N.of_nat (length nb) = a_nonce_size h.
Proof. intros K A B L HK HN. destruct (c37_keys P cs h r K A B) as [EK EN]. rewrite EK in HK. rewrite EN in HN. split; eapply L; eassumption. Qed.

(** The KDF inputs of key, nonce and next secret of all generations are different. *)
Lemma c37_distinct l l' g g' n n' : In l [str "key"; str "nonce"; str "secret"] -> In l' [str "key"; str "nonce"; str "secret"] ->
  g < 4294967296 -> g' < 4294967296 -> n < 65536 -> n' < 65536 ->
  kdf_label l (be 4 g) n = kdf_label l' (be 4 g') n' -> l = l' /\ g = g'.
Proof.
  intros I I' G G' N N' E.
  assert (F : forall x, In x [str "key"; str "nonce"; str "secret"] -> fits30 (mls_label x)) by (intros x [<-|[<-|[<-|[]]]]; reflexivity).
  destruct (kdf_label_inj _ _ _ _ _ _ (F _ I) (fits30_be4 g) (F _ I') (fits30_be4 g') N N' E) as (A & B & _). split; [exact A|]. apply be4_inj; assumption.
Qed.

(** ** More about labels *)
Lemma c38_sign P cs a key l c : p_sig P cs = Ok a -> fits30 (mls_label l) -> fits30 c ->
  sign_with_label P cs key l c = s_sign a key (labelled l c) /\
  forall sig, verify_with_label P cs key l c sig = s_verify a key (labelled l c) sig.
Proof.
  intros A L C. unfold sign_with_label, verify_with_label. rewrite (label_data_eq _ _ L C). cbn [bind]. rewrite A. split; reflexivity.
Qed.
Lemma hpke_suite_iff cs : hpke_suite_ok cs = true <-> In cs [Suite1; Suite2; Suite3].
Proof. destruct cs; cbn; split; intros H; try discriminate; auto; repeat (destruct H as [H|H]; [discriminate|]); destruct H. Qed.
Lemma c38_encrypt P cs l c : fits30 (mls_label l) -> fits30 c ->
  (In cs [Suite1; Suite2; Suite3] ->
    (forall e pk pt, encrypt_with_label P cs e pk l c pt = p_base_seal P cs pk (labelled l c) e pt) /\
    (forall sk kem ct, decrypt_with_label P cs sk l c kem ct = p_base_open P cs sk (labelled l c) kem ct)) /\
  (~ In cs [Suite1; Suite2; Suite3] ->
    (forall e pk pt, encrypt_with_label P cs e pk l c pt = Err UnsupportedCipherSuite) /\
    (forall sk kem ct, decrypt_with_label P cs sk l c kem ct = Err UnsupportedCipherSuite)).
Proof.
  intros L C. rewrite <- hpke_suite_iff. unfold encrypt_with_label, decrypt_with_label. rewrite (label_data_eq _ _ L C). cbn [bind].
  destruct (hpke_suite_ok cs); split; intros S; try discriminate; try contradiction; split; reflexivity.
Qed.

Definition kdf_labels : list bytes :=
  [str "joiner"; str "epoch"; str "welcome"; label_init; label_sender_data; label_encryption; label_exporter; label_external; label_confirm;
   label_membership; label_resumption; label_authentication; str "derived psk"; str "tree"; str "handshake"; str "application";
   str "key"; str "nonce"; str "secret"; str "node"; str "path"].
Lemma kdf_labels_distinct : NoDup kdf_labels.
Proof. repeat (constructor; [let H := fresh in intros H; repeat (destruct H as [H|H]; [discriminate H|]); exact H|]). constructor. Qed.
Lemma c38_labels :
  label_init = str "init" /\ label_sender_data = str "sender data" /\ label_encryption = str "encryption" /\ label_exporter = str "exporter" /\
  label_external = str "external" /\ label_confirm = str "confirm" /\ label_membership = str "membership" /\ label_resumption = str "resumption" /\
  label_authentication = str "authentication" /\
  NoDup [label_init; label_sender_data; label_encryption; label_exporter; label_external; label_confirm; label_membership; label_resumption; label_authentication].
Proof. do 9 (split; [reflexivity|]). repeat (constructor; [let H := fresh in intros H; repeat (destruct H as [H|H]; [discriminate H|]); exact H|]). constructor. Qed.

Lemma toy_working : working_kdf toy Suite1 toy_hpke.
Proof.
  split; [reflexivity|]. intros s i U. eexists. split; [reflexivity|]. unfold usable. rewrite firstn_length_le; [rewrite N2Nat.id; apply N.le_refl|].
  rewrite !app_length, repeat_length. lia.
Qed.
Lemma toy_expand_length s i n b : k_expand toy_hpke s i n = Ok b -> N.of_nat (length b) = n.
Proof.
  intros H. apply Ok_inj in H. subst b. rewrite firstn_length_le; [apply N2Nat.id|]. rewrite !app_length, repeat_length. lia.
Qed.
