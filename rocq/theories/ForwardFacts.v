(** Proofs about what can be computed from kept secrets. *)
From Verif Require Import CodecLib TreeMathProofs SecretFacts KeyFacts SpecForward.
From Coq Require Import ZifyBool ZifyNat ZifyN.
Local Open Scope N_scope.

Lemma kdf_call_dec (c c' : kdf_call) : {c = c'} + {c <> c'}.
Proof. decide equality; try apply (list_eq_dec Byte.byte_eq_dec); apply N.eq_dec. Qed.

Lemma call_inj s i n s' i' n' : CExpand s i n = CExpand s' i' n' -> s = s' /\ i = i' /\ n = n'.
Proof. intros E. injection E as -> -> ->. auto. Qed.

Lemma knows_mono k (S S' : bytes -> Prop) D D' b : (forall x, S x -> S' x) -> incl D D' -> knows k S D b -> knows k S' D' b.
Proof. intros HS HD. induction 1 as [b H|c b I _ IH E]; [apply kn_given, HS, H|]. apply (kn_call _ _ _ c); [apply HD, I|exact IH|exact E]. Qed.

(** Whoever knows the result of a call that members made was given it, or knows what the call needs, or there is a clash. *)
Lemma step_back k S D (made : kdf_call -> Prop) c b : knows k S D b -> made c -> call k c = Ok b ->
  S b \/ clash k D made \/ forall x, needs c x -> knows k S D x.
Proof.
  intros K M E. destruct K as [b G|c' b I N E']; [auto|]. destruct (kdf_call_dec c c') as [->|Q]; [auto|].
  right. left. exists c, c', b. auto 6.
Qed.

(** ** Positions in the secret tree and its ratchets *)

Inductive pos : Type := PNode (p : list bool) | PRat (p : list bool) (l : ratchet_label) (g : nat) | PKey (p : list bool) (l : ratchet_label) (g : nat) | PNon (p : list bool) (l : ratchet_label) (g : nat).

Inductive edge (h : hpke_alg) (d : N) : pos -> bytes -> bytes -> N -> pos -> Prop :=
| e_tree p (b : bool) : N.of_nat (length p) < d -> edge h d (PNode p) (str "tree") (if b then str "right" else str "left") (nh h) (PNode (p ++ [b]))
| e_start p l : N.of_nat (length p) = d -> edge h d (PNode p) (ratchet_label_str l) [] (nh h) (PRat p l 0)
| e_next p l g : N.of_nat g < 4294967296 -> edge h d (PRat p l g) (str "secret") (be 4 (N.of_nat g)) (nh h) (PRat p l (S g))
| e_key p l g : N.of_nat g < 4294967296 -> edge h d (PRat p l g) (str "key") (be 4 (N.of_nat g)) (a_key_size h mod 65536) (PKey p l g)
| e_nonce p l g : N.of_nat g < 4294967296 -> edge h d (PRat p l g) (str "nonce") (be 4 (N.of_nat g)) (a_nonce_size h mod 65536) (PNon p l g).

Inductive gets (h : hpke_alg) (d : N) (E : bytes) : pos -> bytes -> Prop :=
| g_root : gets h d E (PNode []) E
| g_edge q s l c n p b : gets h d E q s -> edge h d q l c n p -> call h (CExpand s (kdf_label l c n) n) = Ok b -> gets h d E p b.

Lemma edge_fits h d q l c n p : edge h d q l c n p -> fits30 (mls_label l) /\ fits30 c /\ n < 65536.
Proof.
  assert (M : forall a, a mod 65536 < 65536) by (intros; apply N.mod_lt; discriminate).
  destruct 1 as [p b|p l|p l g|p l g|p l g]; (split; [|split; [|apply M]]); try reflexivity; try (destruct b; reflexivity); try (destruct l; reflexivity); unfold fits30; rewrite be_length; reflexivity.
Qed.
Lemma edge_det h d q l c n p n' p' : edge h d q l c n p -> edge h d q l c n' p' -> p = p'.
Proof.
  assert (D : forall a : ratchet_label, ratchet_label_str a <> str "tree") by (intros []; discriminate).
  intros A B. destruct A as [p b|p l|p l g|p l g|p l g]; inversion B; subst; try discriminate; try reflexivity; try (exfalso; eapply D; eauto; fail).
  - do 2 f_equal. destruct b, b0; (reflexivity || discriminate).
  - destruct l, l0; (reflexivity || discriminate).
Qed.
Lemma edge_parent h d q l c n q' l' c' n' p : edge h d q l c n p -> edge h d q' l' c' n' p -> q = q' /\ l = l' /\ c = c' /\ n = n'.
Proof.
  intros A B. destruct A as [p b|p l|p l g|p l g|p l g]; inversion B; subst; auto.
  match goal with H : _ ++ [_] = _ ++ [_] |- _ => apply app_inj_tail in H as [-> ->] end. auto.
Qed.
Lemma edge_not_root h d q l c n : ~ edge h d q l c n (PNode []).
Proof. intros A. inversion A. eapply app_cons_not_nil. symmetry. eassumption. Qed.

Lemma node_secret_snoc h p b : forall s, node_secret h s (p ++ [b]) = let* x := node_secret h s p in expand_label h x (str "tree") (if b then str "right" else str "left") (nh h).
Proof.
  induction p as [|a p IH]; intros s; cbn [app node_secret bind].
  - destruct (expand_label h s (str "tree") (if b then _ else _) (nh h)); reflexivity.
  - destruct (expand_label h s (str "tree") (if a then _ else _) (nh h)); [apply IH|reflexivity..].
Qed.
Lemma ratchet_after_snoc h m : forall s g, ratchet_after h s g (S m) = let* x := ratchet_after h s g m in expand_label h x (str "secret") (be 4 (g + N.of_nat m)) (nh h).
Proof.
  induction m as [|m IH]; intros s g.
  - cbn [ratchet_after bind]. rewrite N.add_0_r. destruct (expand_label h s (str "secret") (be 4 g) (nh h)); reflexivity.
  - cbn [ratchet_after]. destruct (expand_label h s (str "secret") (be 4 g) (nh h)) as [x| | |]; [|reflexivity..]. specialize (IH x (g + 1)). cbn [ratchet_after] in IH. rewrite IH.
    replace (g + 1 + N.of_nat m) with (g + N.of_nat (S m)) by lia. reflexivity.
Qed.

(** What the positions' values are. *)
Definition means (h : hpke_alg) (d : N) (E : bytes) (p : pos) (b : bytes) : Prop :=
  match p with
  | PNode p => node_secret h E p = Ok b /\ N.of_nat (length p) <= d
  | PRat p l g => N.of_nat (length p) = d /\ exists s r, node_secret h E p = Ok s /\ expand_label h s (ratchet_label_str l) [] (nh h) = Ok r /\ ratchet_after h r 0 g = Ok b
  | _ => True
  end.
Lemma gets_means h d E p b : gets h d E p b -> means h d E p b.
Proof.
  induction 1 as [|q s l c n p b G IH A C]; [split; [reflexivity|apply N.le_0_l]|].
  destruct A as [p b'|p l|p l g|p l g|p l g]; cbn [means call] in *; auto.
  - destruct IH as [IH L]. rewrite node_secret_snoc, IH. cbn [bind]. split; [exact C|]. rewrite app_length. cbn [length]. lia.
  - destruct IH as [IH L]. split; [exact H|]. exists s, b. auto.
  - destruct IH as (L & s0 & r & A & B & R). split; [exact L|]. exists s0, r. split; [exact A|]. split; [exact B|]. rewrite ratchet_after_snoc, R. cbn [bind]. exact C.
Qed.
Lemma gets_made h d E q s l c n p : gets h d E q s -> edge h d q l c n p -> tree_made h d E (CExpand s (kdf_label l c n) n).
Proof.
  intros G A. apply gets_means in G. destruct A as [p b|p l|p l g|p l g|p l g]; cbn [means] in G.
  - destruct G as [G _]. exists p, s. split; [exact G|]. left. split; [exact H|]. exists b. reflexivity.
  - destruct G as [G _]. exists p, s. split; [exact G|]. right. split; [exact H|]. exists l. left. reflexivity.
  - destruct G as (L & s0 & r & A & B & R). exists p, s0. split; [exact A|]. right. split; [exact L|]. exists l. right. exists r, g, s. auto 6.
  - destruct G as (L & s0 & r & A & B & R). exists p, s0. split; [exact A|]. right. split; [exact L|]. exists l. right. exists r, g, s. auto 7.
  - destruct G as (L & s0 & r & A & B & R). exists p, s0. split; [exact A|]. right. split; [exact L|]. exists l. right. exists r, g, s. auto 7.
Qed.

Definition tree_clash (h : hpke_alg) (d : N) (E : bytes) (D : list kdf_call) : Prop :=
  clash h D (tree_made h d E) \/ exists c, (In c D \/ tree_made h d E c) /\ call h c = Ok E.

(** A value has one position, or there is a clash. *)
Lemma gets_once h d E D p b : gets h d E p b -> forall p', gets h d E p' b -> p = p' \/ tree_clash h d E D.
Proof.
  induction 1 as [|q s l c n p b G IH A C]; intros p' G'.
  - inversion G' as [|q s l c n p b G A C]; subst; [auto|]. right. right. eexists. split; [right; eapply gets_made; eassumption|exact C].
  - inversion G' as [|q' s' l' c' n' p0 b0 G2 A' C']; subst.
    + right. right. eexists. split; [right; exact (gets_made _ _ _ _ _ _ _ _ _ G A)|exact C].
    + destruct (kdf_call_dec (CExpand s (kdf_label l c n) n) (CExpand s' (kdf_label l' c' n') n')) as [Q|Q].
      * apply call_inj in Q as (-> & Q & <-). destruct (edge_fits _ _ _ _ _ _ _ A) as (F1 & F2 & F3), (edge_fits _ _ _ _ _ _ _ A') as (F1' & F2' & F3').
        apply kdf_label_inj in Q as (-> & -> & _); try assumption. destruct (IH q' G2) as [->|X]; [|auto]. left. eapply edge_det; eassumption.
      * right. left. eexists _, _, b. split; [right; exact (gets_made _ _ _ _ _ _ _ _ _ G A)|]. split; [right; exact (gets_made _ _ _ _ _ _ _ _ _ G2 A')|]. split; [exact Q|]. split; assumption.
Qed.

Inductive above (h : hpke_alg) (d : N) (p : pos) : pos -> Prop :=
| ab_refl : above h d p p
| ab_step q l c n q' : above h d p q -> edge h d q l c n q' -> above h d p q'.

Lemma known_above h d E D (S : bytes -> Prop) (kept : pos -> Prop) : (forall b, S b -> exists p, kept p /\ p <> PNode [] /\ gets h d E p b) ->
  forall p b, gets h d E p b -> knows h S D b -> (exists q, kept q /\ above h d q p) \/ tree_clash h d E D.
Proof.
  intros HS p b G. induction G as [|q s l c n p b G IH A C]; intros K.
  - inversion K as [b Sb|c b I N E']; subst; [|right; right; exists c; auto]. destruct (HS _ Sb) as (p & _ & NR & G). inversion G as [Q|q s l c n p' b' G0 A C]; subst; [congruence|].
    right. right. eexists. split; [right; exact (gets_made _ _ _ _ _ _ _ _ _ G0 A)|exact C].
  - pose proof (gets_made _ _ _ _ _ _ _ _ _ G A) as M. destruct (step_back _ _ _ _ _ _ K M C) as [Sb|[X|N]].
    + destruct (HS b Sb) as (p' & K' & _ & G'). destruct (gets_once h d E D p b (g_edge _ _ _ _ _ _ _ _ _ _ G A C) p' G') as [->|X]; [left; exists p'; split; [exact K'|constructor]|auto].
    + right. left. exact X.
    + destruct (IH (N s eq_refl)) as [(q0 & K0 & A0)|X]; [|auto]. left. exists q0. split; [exact K0|]. econstructor; eassumption.
Qed.

Lemma above_known h d E p b q b' : above h d p q -> gets h d E p b -> gets h d E q b' -> exists D, knows h (fun x => x = b) D b'.
Proof.
  intros A. revert b'. induction A as [|q l c n q' A IH X]; intros b' G G'.
  - assert (b' = b) as ->; [|exists []; apply kn_given; reflexivity]. clear - G G'. revert b' G'. induction G as [|q s l c n p b G IH A C]; intros b' G'.
    + inversion G' as [|? ? ? ? ? ? ? ? A]; [reflexivity|]. subst. exfalso. eapply edge_not_root; exact A.
    + inversion G' as [|q' s' l' c' n' p' b'' G2 A2 C2]; subst; [exfalso; eapply edge_not_root; exact A|]. destruct (edge_parent _ _ _ _ _ _ _ _ _ _ _ A A2) as (-> & -> & -> & ->).
      rewrite (IH _ G2) in C2. congruence.
  - inversion G' as [|q0 s l0 c0 n0 p0 b0 G2 A2 C2]; subst; [exfalso; eapply edge_not_root; exact X|]. destruct (edge_parent _ _ _ _ _ _ _ _ _ _ _ X A2) as (<- & _).
    destruct (IH s G G2) as [D K]. exists (CExpand s (kdf_label l0 c0 n0) n0 :: D). eapply kn_call; [left; reflexivity| |exact C2].
    intros x ->. eapply knows_mono; [| |exact K]; [auto|]. intros y I. right. exact I.
Qed.

(** ** Items *)

Definition pos_of (it : item) (p : list bool) : pos :=
  match it with IRatchet _ l g => PRat p l g | IKey _ l g => PKey p l g | INonce _ l g => PNon p l g end.
Definition leaf_of (it : item) : N := match it with IRatchet i _ _ | IKey i _ _ | INonce i _ _ => i end.

Lemma gets_node h d E : forall p s, node_secret h E p = Ok s -> N.of_nat (length p) <= d -> gets h d E (PNode p) s.
Proof.
  induction p as [|b p IH] using rev_ind; intros s E0 L.
  - injection E0 as <-. constructor.
  - rewrite node_secret_snoc in E0. apply bind_ok in E0 as (x & E1 & E2). rewrite app_length in L. cbn [length] in L.
    eapply g_edge; [apply IH; [exact E1|lia]|apply e_tree; lia|exact E2].
Qed.
Lemma leaf_path P cs h d E t i s : p_hpke P cs = Ok h -> d <= 31 -> new_secret_tree P cs (2 ^ d) E = Ok t -> sget t (2 * i) = Some s ->
  exists p, N.of_nat (length p) = d /\ position 0 p = i /\ gets h d E (PNode p) s.
Proof.
  intros K L T G. destruct (c36_nodes P cs h d E t K L T) as [LT N].
  assert (In_ : in_tree d (2 * i)). { unfold sget in G. destruct (N.lt_ge_cases (2 * i) (N.of_nat (length t))) as [Z|Z]; [unfold in_tree; pose proof (pow2_pos d); rewrite N.pow_add_r; change (2 ^ 1) with 2; lia|]. rewrite nth_overflow in G by lia. discriminate. }
  destruct (c36_reach d (2 * i) In_) as (p & Lp & Q). destruct (N p Lp) as (b & B & Gb). rewrite <- Q, G in Gb. injection Gb as <-.
  rewrite <- node_at_leaf in Q. apply node_at_inj in Q as [Q ->]. exists p. split; [lia|]. split; [reflexivity|]. apply gets_node; assumption.
Qed.
Lemma next_gets P cs h d E p l : p_hpke P cs = Ok h -> forall m r g r', gets h d E (PRat p l g) (rt_secret r) -> rt_generation r = N.of_nat g -> rt_generation r < 4294967296 ->
  steps P cs r m = Ok r' -> gets h d E (PRat p l (g + m)) (rt_secret r') /\ rt_generation r' = N.of_nat (g + m) /\ rt_generation r' < 4294967296.
Proof.
  intros K. induction m as [|m IH]; intros r g r' G Q L S; cbn [steps] in S.
  - injection S as <-. rewrite Nat.add_0_r. auto.
  - apply bind_ok in S as (r1 & N & S). unfold derive_next in N. rewrite K in N. cbn [bind] in N. apply bind_ok in N as (s & E1 & N). apply bind_ok in N as (g1 & E2 & N). injection N as <-.
    unfold add32 in E2. destruct (N.leb_spec (rt_generation r + 1) u32_max) as [B|]; [|discriminate]. injection E2 as <-. change u32_max with 4294967295 in B.
    unfold derive_tree_secret, put_u32 in E1. cbn [bind] in E1.
    destruct (IH (MkRatchet s (rt_generation r + 1)) (Datatypes.S g) r') as (A1 & A2 & A3); cbn [rt_secret rt_generation]; [|lia|lia|exact S|].
    + rewrite Q in E1. eapply g_edge; [exact G|apply e_next; lia|]. cbn [call]. rewrite (c38_expand P cs h) in E1; [exact E1|exact K|reflexivity|unfold fits30; rewrite be_length; reflexivity].
    + replace (g + Datatypes.S m)%nat with (Datatypes.S g + m)%nat by lia. auto.
Qed.
Lemma item_gets P cs h d E t it b : p_hpke P cs = Ok h -> d <= 31 -> new_secret_tree P cs (2 ^ d) E = Ok t -> item_value P cs t it b ->
  exists p, position 0 p = leaf_of it /\ gets h d E (pos_of it p) b.
Proof.
  intros K L T V.
  assert (R : forall i l g r, ratchet_at P cs t i l g r -> exists p, position 0 p = i /\ gets h d E (PRat p l g) (rt_secret r) /\ rt_generation r = N.of_nat g /\ rt_generation r < 4294967296).
  { intros i l g r (r0 & A & B). unfold derive_ratchet_root in A. destruct (sget t (2 * i)) as [s|] eqn:G; [|discriminate]. rewrite K in A. cbn [bind] in A. apply bind_ok in A as (s0 & A & Q). injection Q as <-.
    destruct (leaf_path P cs h d E t i s K L T G) as (p & Lp & Pp & Gp). exists p. split; [exact Pp|].
    rewrite (c38_expand P cs h) in A; [|exact K|destruct l; reflexivity|reflexivity].
    assert (G0 : gets h d E (PRat p l 0) s0) by (eapply g_edge; [exact Gp|apply e_start, Lp|exact A]).
    exact (next_gets P cs h d E p l K g (MkRatchet s0 0) 0%nat r G0 eq_refl eq_refl B). }
  destruct it as [i l g|i l g|i l g]; destruct V as (r & Rr & V); destruct (R i l g r Rr) as (p & Pp & Gp & Q & Lt); exists p; (split; [exact Pp|]); cbn [pos_of].
  - rewrite <- V. exact Gp.
  - unfold derive_key in V. rewrite K in V. cbn [bind] in V. unfold derive_tree_secret, put_u32 in V. cbn [bind] in V. rewrite (c38_expand P cs h) in V; [|exact K|reflexivity|unfold fits30; rewrite be_length; reflexivity].
    rewrite Q in V, Lt. eapply g_edge; [exact Gp|apply e_key, Lt|exact V].
  - unfold derive_nonce in V. rewrite K in V. cbn [bind] in V. unfold derive_tree_secret, put_u32 in V. cbn [bind] in V. rewrite (c38_expand P cs h) in V; [|exact K|reflexivity|unfold fits30; rewrite be_length; reflexivity].
    rewrite Q in V, Lt. eapply g_edge; [exact Gp|apply e_nonce, Lt|exact V].
Qed.

Lemma above_item h d p q : above h d p q -> forall l g s, p = PRat s l g -> exists g', (g <= g')%nat /\ (q = PRat s l g' \/ q = PKey s l g' \/ q = PNon s l g').
Proof.
  induction 1 as [|q l c n q' A IH X]; intros l0 g s ->; [exists g; auto|]. destruct (IH l0 g s eq_refl) as (g' & L & [->|[->| ->]]); inversion X; subst; [exists (S g'); split; [lia|auto]|exists g'; auto|exists g'; auto].
Qed.
Lemma above_end h d p q : above h d p q -> forall l g s, p = PKey s l g \/ p = PNon s l g -> q = p.
Proof. induction 1 as [|q l c n q' A IH X]; intros l0 g s H; [reflexivity|]. rewrite (IH l0 g s H) in X. destruct H as [-> | ->]; inversion X. Qed.
Lemma above_follows h d it p it' p' : position 0 p = leaf_of it -> position 0 p' = leaf_of it' -> above h d (pos_of it p) (pos_of it' p') -> follows it it'.
Proof.
  intros Q Q' A. destruct it as [i l g|i l g|i l g]; cbn [pos_of leaf_of] in *.
  - destruct (above_item _ _ _ _ A l g p eq_refl) as (g' & L & H). right. exists i, l, g, g'. split; [reflexivity|]. split; [exact L|].
    destruct it' as [i' l' g2|i' l' g2|i' l' g2]; cbn [pos_of leaf_of] in *; destruct H as [H|[H|H]]; try discriminate; injection H as -> -> ->; subst; auto.
  - pose proof (above_end _ _ _ _ A l g p ltac:(auto)) as H. left. destruct it'; cbn [pos_of leaf_of] in *; try discriminate. injection H as -> -> ->. congruence.
  - pose proof (above_end _ _ _ _ A l g p ltac:(auto)) as H. left. destruct it'; cbn [pos_of leaf_of] in *; try discriminate. injection H as -> -> ->. congruence.
Qed.

Lemma c82_forward P cs h d E t (kept : item -> Prop) it b D : p_hpke P cs = Ok h -> d <= 31 -> new_secret_tree P cs (2 ^ d) E = Ok t ->
  item_value P cs t it b -> knows h (fun x => exists a, kept a /\ item_value P cs t a x) D b ->
  (exists a, kept a /\ follows a it) \/ clash h D (tree_made h d E) \/ exists c, (In c D \/ tree_made h d E c) /\ call h c = Ok E.
Proof.
  intros K L T V KN. destruct (item_gets P cs h d E t it b K L T V) as (p & Pp & G).
  assert (HS : forall x, (exists a, kept a /\ item_value P cs t a x) -> exists q, (exists a p, kept a /\ position 0 p = leaf_of a /\ q = pos_of a p) /\ q <> PNode [] /\ gets h d E q x).
  { intros x (a & Ka & Va). destruct (item_gets P cs h d E t a x K L T Va) as (p' & Pp' & G'). exists (pos_of a p'). split; [exists a, p'; auto|]. split; [destruct a; discriminate|exact G']. }
  destruct (known_above h d E D _ _ HS _ _ G KN) as [(q & (a & p' & Ka & Pa & ->) & A)|X]; [|right; exact X].
  left. exists a. split; [exact Ka|]. eapply above_follows; eassumption.
Qed.

Lemma steps_plus P cs m : forall r n, steps P cs r (m + n) = let* r := steps P cs r m in steps P cs r n.
Proof. induction m as [|m IH]; intros r n; cbn [steps plus bind]; [reflexivity|]. destruct (derive_next P cs r) as [x| | |]; cbn [bind]; [apply IH|reflexivity..]. Qed.
Lemma knows_call h (S : bytes -> Prop) D c b : call h c = Ok b -> (forall x, needs c x -> knows h S D x) -> knows h S (c :: D) b.
Proof. intros E N. apply (kn_call _ _ _ c); [left; reflexivity| |exact E]. intros x X. eapply knows_mono; [| |exact (N x X)]; [auto|]. intros y I. right. exact I. Qed.
Lemma tree_secret_known P cs h (S : bytes -> Prop) D s l g n b : p_hpke P cs = Ok h -> fits30 (mls_label l) -> knows h S D s -> derive_tree_secret P cs s l g n = Ok b -> exists D', knows h S D' b.
Proof.
  intros K F N E. unfold derive_tree_secret, put_u32 in E. cbn [bind] in E. rewrite (c38_expand P cs h) in E; [|exact K|exact F|unfold fits30; rewrite be_length; reflexivity].
  exists (CExpand s (kdf_label l (be 4 g) n) n :: D). apply knows_call; [exact E|]. intros x ->. exact N.
Qed.
Lemma steps_known P cs h (S : bytes -> Prop) : p_hpke P cs = Ok h -> forall m r r' D, knows h S D (rt_secret r) -> steps P cs r m = Ok r' -> exists D', knows h S D' (rt_secret r').
Proof.
  intros K. induction m as [|m IH]; intros r r' D N E; cbn [steps] in E; [injection E as <-; eauto|]. apply bind_ok in E as (r1 & E1 & E).
  unfold derive_next in E1. rewrite K in E1. cbn [bind] in E1. apply bind_ok in E1 as (s & E2 & E1). apply bind_ok in E1 as (g1 & _ & E1). injection E1 as <-.
  destruct (tree_secret_known P cs h S D _ (str "secret") _ _ _ K eq_refl N E2) as [D' N']. eapply IH; [|exact E]. exact N'.
Qed.
Lemma c82_later P cs h t a it v b : p_hpke P cs = Ok h -> follows a it -> item_value P cs t a v -> item_value P cs t it b -> exists D, knows h (fun x => x = v) D b.
Proof.
  intros K [->|(i & l & g & g' & -> & L & H)] Va Vb.
  - exists []. apply kn_given. destruct it as [i l g|i l g|i l g]; destruct Va as (r & (r0 & A & B) & V), Vb as (r' & (r0' & A' & B') & V'); rewrite A in A'; injection A' as <-; rewrite B in B'; injection B' as <-; congruence.
  - destruct Va as (r & (r0 & A & B) & <-).
    assert (R : forall r', ratchet_at P cs t i l g' r' -> exists D, knows h (fun x => x = rt_secret r) D (rt_secret r')).
    { intros r' (r0' & A' & B'). rewrite A in A'. injection A' as <-. replace g' with (g + (g' - g))%nat in B' by lia. rewrite steps_plus, B in B'. cbn [bind] in B'. eapply (steps_known P cs h); [exact K| |exact B']. apply (kn_given _ _ []). reflexivity. }
    destruct H as [->|[->| ->]]; destruct Vb as (r' & R' & V); destruct (R r' R') as [D N].
    + rewrite <- V. eauto.
    + unfold derive_key in V. rewrite K in V. cbn [bind] in V. eapply tree_secret_known; [exact K| |exact N|exact V]. reflexivity.
    + unfold derive_nonce in V. rewrite K in V. cbn [bind] in V. eapply tree_secret_known; [exact K| |exact N|exact V]. reflexivity.
Qed.

(** ** Key schedule *)

Lemma schedule_fits l : In l schedule_labels -> fits30 (mls_label l).
Proof. intros H. repeat (destruct H as [<-|H]; [reflexivity|]). destruct H. Qed.
Lemma derive_expand P cs k s l : p_hpke P cs = Ok k -> fits30 (mls_label l) -> derive_secret P cs s l = call k (CExpand s (kdf_label l [] (nh k)) (nh k)).
Proof. intros K F. unfold derive_secret. rewrite K. cbn [bind]. rewrite (c38_expand P cs k) by (exact K || exact F || reflexivity). reflexivity. Qed.
Lemma clash_mono k D (m m' : kdf_call -> Prop) : (forall c, m c -> m' c) -> clash k D m -> clash k D m'.
Proof. intros H (c & c' & b & A & B & Q). exists c, c', b. split; [destruct A; auto|]. split; [destruct B; auto|]. exact Q. Qed.

(** The calls of an epoch, one by one. *)
Lemma epoch_steps P cs k e : p_hpke P cs = Ok k -> runs P cs e -> exists ex me raw,
  k_extract k (er_commit e) (er_before e) = Ok ex /\ k_extract k (psk_or_zero k (er_psk e)) (er_joiner e) = Ok me /\ se_group_context (er_context e) = Ok raw /\
  call k (CExpand ex (kdf_label (str "joiner") raw (nh k)) (nh k)) = Ok (er_joiner e) /\ call k (CExpand me (kdf_label (str "epoch") raw (nh k)) (nh k)) = Ok (er_epoch e) /\
  call k (CExpand (er_epoch e) (kdf_label label_init [] (nh k)) (nh k)) = Ok (er_init e).
Proof.
  intros K (Q & J & E & I). rewrite <- Q in K. apply (joiner_iff P _ k _ _ _ K) in J as (ex & raw & J1 & J2 & _ & J3). apply (epoch_iff P _ k _ _ _ K) in E as (me & raw' & E1 & E2 & _ & E3).
  rewrite J2 in E2. injection E2 as <-. rewrite Q in K. exists ex, me, raw. rewrite (derive_expand P cs k) in I by (exact K || reflexivity). auto 7.
Qed.

(** What it takes to know an epoch's secrets, one epoch at a time. *)
Lemma know_epoch P cs k S D e : p_hpke P cs = Ok k -> runs P cs e -> knows k S D (er_epoch e) ->
  clash k D (epoch_made k e) \/ late_leak k S e \/ (early_leak k S e /\ knows k S D (psk_or_zero k (er_psk e))) \/
  (knows k S D (er_before e) /\ knows k S D (er_commit e) /\ knows k S D (psk_or_zero k (er_psk e))).
Proof.
  intros K R N. destruct (epoch_steps P cs k e K R) as (ex & me & raw & A & B & G & C1 & C2 & _).
  assert (M : forall c, c = CExtract (er_before e) (er_commit e) \/ c = CExpand ex (kdf_label (str "joiner") raw (nh k)) (nh k) \/
     c = CExtract (er_joiner e) (psk_or_zero k (er_psk e)) \/ c = CExpand me (kdf_label (str "epoch") raw (nh k)) (nh k) -> epoch_made k e c).
  { intros c H. exists ex, me, raw. split; [exact A|]. split; [exact B|]. split; [exact G|]. tauto. }
  destruct (step_back k S D (epoch_made k e) _ _ N (M _ (or_intror (or_intror (or_intror eq_refl)))) C2) as [L|[X|N1]]; [right; left; left; exact L|auto|]. specialize (N1 me eq_refl).
  destruct (step_back k S D (epoch_made k e) (CExtract (er_joiner e) (psk_or_zero k (er_psk e))) _ N1 (M _ (or_intror (or_intror (or_introl eq_refl)))) B) as [L|[X|N2]]; [right; left; right; eauto|auto|].
  pose proof (N2 _ (or_introl eq_refl)) as NJ. pose proof (N2 _ (or_intror eq_refl)) as NP.
  destruct (step_back k S D (epoch_made k e) _ _ NJ (M _ (or_intror (or_introl eq_refl))) C1) as [L|[X|N3]]; [right; right; left; split; [left; exact L|exact NP]|auto|]. specialize (N3 ex eq_refl).
  destruct (step_back k S D (epoch_made k e) (CExtract (er_before e) (er_commit e)) _ N3 (M _ (or_introl eq_refl)) A) as [L|[X|N4]]; [right; right; left; split; [right; eauto|exact NP]|auto|].
  right. right. right. split; [apply N4; left; reflexivity|]. split; [apply N4; right; reflexivity|exact NP].
Qed.
Lemma know_derived P cs k S D e l x : p_hpke P cs = Ok k -> runs P cs e -> In l schedule_labels -> derive_secret P cs (er_epoch e) l = Ok x -> knows k S D x ->
  clash k D (epoch_made k e) \/ S x \/ knows k S D (er_epoch e).
Proof.
  intros K R I E N. rewrite (derive_expand P cs k) in E by (exact K || apply schedule_fits, I). destruct (epoch_steps P cs k e K R) as (ex & me & raw & A & B & G & _).
  assert (M : epoch_made k e (CExpand (er_epoch e) (kdf_label l [] (nh k)) (nh k))).
  { exists ex, me, raw. split; [exact A|]. split; [exact B|]. split; [exact G|]. do 4 right. eauto. }
  destruct (step_back k S D (epoch_made k e) _ _ N M E) as [L|[X|N1]]; [auto|auto|right; right; apply N1; reflexivity].
Qed.

Lemma lifetime_runs P cs init l : lifetime_of P cs init l -> forall e, In e l -> runs P cs e.
Proof.
  induction 1 as [e R _|l e e' L IH R _]; intros x I; [destruct I as [<-|[]]; exact R|]. apply in_app_or in I as [I|[<-|[]]]; [apply IH, I|exact R].
Qed.
Lemma know_lifetime P cs k S D init l : p_hpke P cs = Ok k -> lifetime_of P cs init l -> forall l0 e, l = l0 ++ [e] -> knows k S D (er_epoch e) ->
  clash k D (all_made k l) \/ enough k S D init l.
Proof.
  intros K L. induction L as [e R Q|l e e' L IH R Q]; intros l0 e0 EQ N.
  - change [e] with ([] ++ [e]) in EQ. apply app_inj_tail in EQ as [<- <-].
    destruct (know_epoch P cs k S D e K R N) as [X|[X|[[X Y]|(X & Y & Z)]]].
    + left. eapply clash_mono; [|exact X]. intros c M. exists e. split; [left; reflexivity|exact M].
    + right. exact (en_late k S D init [] e X).
    + right. exact (en_early k S D init [] e X Y).
    + right. rewrite Q in X. exact (en_first k S D init e X Y Z).
  - apply app_inj_tail in EQ as [<- <-]. destruct (know_epoch P cs k S D e' K R N) as [X|[X|[[X Y]|(X & Y & Z)]]].
    + left. eapply clash_mono; [|exact X]. intros c M. exists e'. split; [apply in_or_app; right; left; reflexivity|exact M].
    + right. apply en_late, X.
    + right. apply en_early; assumption.
    + rewrite Q in X. pose proof (lifetime_runs P cs init _ L e ltac:(apply in_or_app; right; left; reflexivity)) as Re. pose proof Re as (_ & _ & _ & I).
      destruct (know_derived P cs k S D e label_init _ K Re (or_introl eq_refl) I X) as [C|[G|N']].
      * left. eapply clash_mono; [|exact C]. intros c M. exists e. split; [apply in_or_app; left; apply in_or_app; right; left; reflexivity|exact M].
      * right. apply en_init; assumption.
      * destruct (IH l e eq_refl N') as [C|G]; [|right; apply en_before; assumption]. left. eapply clash_mono; [|exact C]. intros c (x & I' & M). exists x. split; [apply in_or_app; left; exact I'|exact M].
Qed.
Lemma c83_only P cs k S D init l e lab x : p_hpke P cs = Ok k -> lifetime_of P cs init (l ++ [e]) -> In lab schedule_labels -> derive_secret P cs (er_epoch e) lab = Ok x ->
  knows k S D x -> S x \/ enough k S D init (l ++ [e]) \/ clash k D (all_made k (l ++ [e])).
Proof.
  intros K L I E N. pose proof (lifetime_runs P cs init _ L e ltac:(apply in_or_app; right; left; reflexivity)) as R.
  destruct (know_derived P cs k S D e lab x K R I E N) as [C|[G|N']]; [|auto|].
  - right. right. eapply clash_mono; [|exact C]. intros c M. exists e. split; [apply in_or_app; right; left; reflexivity|exact M].
  - destruct (know_lifetime P cs k S D init _ K L l e eq_refl N'); auto.
Qed.

Lemma enough_leak k S D init l : enough k S D init l -> knows k S D init \/ (exists e, In e l /\ (late_leak k S e \/ early_leak k S e)) \/
  exists l1 e l2, l = l1 ++ [e] ++ l2 /\ l2 <> [] /\ S (er_init e).
Proof.
  induction 1 as [l e X|l e X _|e X _ _|l e e' X _ _|l e e' _ IH _ _].
  - right. left. exists e. split; [apply in_or_app; right; left; reflexivity|auto].
  - right. left. exists e. split; [apply in_or_app; right; left; reflexivity|auto].
  - auto.
  - right. right. exists l, e, [e']. split; [rewrite <- app_assoc; reflexivity|]. split; [discriminate|exact X].
  - destruct IH as [X|[(x & I & X)|(l1 & x & l2 & Q & N & X)]]; [auto| |].
    + right. left. exists x. split; [apply in_or_app; left; exact I|exact X].
    + right. right. exists l1, x, (l2 ++ [e']). rewrite Q, <- !app_assoc. split; [reflexivity|]. split; [destruct l2; discriminate|exact X].
Qed.
Lemma c83_forward P cs k S D init l e lab x : p_hpke P cs = Ok k -> lifetime_of P cs init (l ++ [e]) -> In lab schedule_labels -> derive_secret P cs (er_epoch e) lab = Ok x ->
  ~ S x -> ~ knows k S D init -> (forall e', In e' (l ++ [e]) -> ~ late_leak k S e' /\ ~ early_leak k S e') -> (forall e', In e' l -> ~ S (er_init e')) ->
  knows k S D x -> clash k D (all_made k (l ++ [e])).
Proof.
  intros K L I E NX NI NL NS N. destruct (c83_only P cs k S D init l e lab x K L I E N) as [X|[X|X]]; [contradiction| |exact X]. exfalso.
  apply enough_leak in X as [X|[(y & Iy & X)|(l1 & y & l2 & Q & N2 & X)]]; [contradiction|destruct (NL y Iy); tauto|].
  apply (NS y); [|exact X]. destruct (exists_last N2) as (l3 & z & ->). rewrite !app_assoc in Q. apply app_inj_tail in Q as [-> _]. apply in_or_app. left. apply in_or_app. right. left. reflexivity.
Qed.
Lemma c83_heals P cs k S D init l e lab x : p_hpke P cs = Ok k -> lifetime_of P cs init (l ++ [e]) -> In lab schedule_labels -> derive_secret P cs (er_epoch e) lab = Ok x ->
  ~ S x -> ~ knows k S D (er_commit e) -> ~ late_leak k S e -> ~ early_leak k S e -> knows k S D x -> clash k D (all_made k (l ++ [e])).
Proof.
  intros K L I E NX NC N1 N2 N. destruct (c83_only P cs k S D init l e lab x K L I E N) as [X|[X|X]]; [contradiction| |exact X]. exfalso.
  inversion X as [l0 e0 Y Q|l0 e0 Y _ Q|e0 _ Y _ Q|l0 e0 e1 _ Y _ Q|l0 e0 e1 _ Y _ Q]; [..|].
  - apply app_inj_tail in Q as [_ ->]. contradiction.
  - apply app_inj_tail in Q as [_ ->]. contradiction.
  - change [e0] with ([] ++ [e0]) in Q. apply app_inj_tail in Q as [_ ->]. contradiction.
  - apply app_inj_tail in Q as [_ ->]. contradiction.
  - apply app_inj_tail in Q as [_ ->]. contradiction.
Qed.

(** Conversely, what is enough is enough. *)
Definition can (k : hpke_alg) (S : bytes -> Prop) (D : list kdf_call) (b : bytes) : Prop := exists D', incl D D' /\ knows k S D' b.
Lemma can_call k S D c b : call k c = Ok b -> (forall x, needs c x -> can k S D x) -> can k S D b.
Proof.
  intros E N. destruct c as [salt ikm|prk info len].
  - destruct (N salt (or_introl eq_refl)) as (D1 & I1 & K1), (N ikm (or_intror eq_refl)) as (D2 & I2 & K2). exists (CExtract salt ikm :: D1 ++ D2). split; [intros c I; right; apply in_or_app; left; apply I1, I|].
    apply knows_call; [exact E|]. intros x [-> | ->]; [eapply knows_mono; [| |exact K1]; [auto|]; intros c I; apply in_or_app; auto|eapply knows_mono; [| |exact K2]; [auto|]; intros c I; apply in_or_app; auto].
  - destruct (N prk eq_refl) as (D1 & I1 & K1). exists (CExpand prk info len :: D1). split; [intros c I; right; apply I1, I|]. apply knows_call; [exact E|]. intros x ->. exact K1.
Qed.
Lemma can_knows k S D b : knows k S D b -> can k S D b.
Proof. intros K. exists D. split; [intros x; auto|exact K]. Qed.
Lemma can_given k (S : bytes -> Prop) D b : S b -> can k S D b.
Proof. intros H. apply can_knows, kn_given, H. Qed.
Lemma can_epoch P cs k S D e : p_hpke P cs = Ok k -> runs P cs e ->
  late_leak k S e \/ (early_leak k S e /\ can k S D (psk_or_zero k (er_psk e))) \/ (can k S D (er_before e) /\ can k S D (er_commit e) /\ can k S D (psk_or_zero k (er_psk e))) ->
  can k S D (er_epoch e).
Proof.
  intros K R H. destruct (epoch_steps P cs k e K R) as (ex & me & raw & A & B & G & C1 & C2 & _).
  assert (Z1 : can k S D me -> can k S D (er_epoch e)) by (intros Z; apply (can_call _ _ _ _ _ C2); intros x ->; exact Z).
  assert (Z2 : can k S D (er_joiner e) -> can k S D (psk_or_zero k (er_psk e)) -> can k S D (er_epoch e)).
  { intros Z Y. apply Z1. apply (can_call k S D (CExtract (er_joiner e) (psk_or_zero k (er_psk e))) _ B). intros x [-> | ->]; assumption. }
  assert (Z3 : can k S D ex -> can k S D (er_joiner e)) by (intros Z; apply (can_call _ _ _ _ _ C1); intros x ->; exact Z).
  destruct H as [[X|(m & Em & X)]|[[[X|(x & Ex & X)] Y]|(X & Y & Z)]].
  - apply can_given, X.
  - rewrite B in Em. injection Em as <-. apply Z1, can_given, X.
  - apply Z2; [apply can_given, X|exact Y].
  - rewrite A in Ex. injection Ex as <-. apply Z2; [apply Z3, can_given, X|exact Y].
  - apply Z2; [|exact Z]. apply Z3. apply (can_call k S D (CExtract (er_before e) (er_commit e)) _ A). intros x [-> | ->]; assumption.
Qed.
Lemma enough_can P cs k S D init l : p_hpke P cs = Ok k -> enough k S D init l -> lifetime_of P cs init l -> forall l0 e, l = l0 ++ [e] -> can k S D (er_epoch e).
Proof.
  intros K H. induction H as [l e X|l e X Y|e X Y Z|l e e' X Y Z|l e e' X IH Y Z]; intros L l0 e0 Q;
    pose proof (lifetime_runs P cs init _ L e0 ltac:(rewrite Q; apply in_or_app; right; left; reflexivity)) as R.
  - apply app_inj_tail in Q as [<- <-]. apply (can_epoch P cs); auto.
  - apply app_inj_tail in Q as [<- <-]. apply (can_epoch P cs); auto using can_knows.
  - change [e] with ([] ++ [e]) in Q. apply app_inj_tail in Q as [<- <-]. apply (can_epoch P cs); [exact K|exact R|]. right. right.
    assert (er_before e = init) as ->. { inversion L as [e1 _ E1|l1 e1 e2 _ _ _ Q1]; [exact E1|]. destruct l1 as [|? [|? ?]]; discriminate. }
    auto using can_knows.
  - apply app_inj_tail in Q as [<- <-]. apply (can_epoch P cs); [exact K|exact R|]. right. right.
    assert (er_before e' = er_init e) as ->. { inversion L as [e1 _ E1 Q1|l1 e1 e2 _ _ B1 Q1]; [destruct l as [|? [|? ?]]; discriminate|]. apply app_inj_tail in Q1 as [Q1 ->]. apply app_inj_tail in Q1 as [_ ->]. exact B1. }
    auto using can_knows, can_given.
  - apply app_inj_tail in Q as [<- <-]. apply (can_epoch P cs); [exact K|exact R|]. right. right.
    assert (L0 : lifetime_of P cs init (l ++ [e]) /\ er_before e' = er_init e). { inversion L as [e1 _ E1 Q1|l1 e1 e2 L1 _ B1 Q1]; [destruct l as [|? [|? ?]]; discriminate|]. apply app_inj_tail in Q1 as [Q1 ->]. apply app_inj_tail in Q1 as [-> ->]. auto. }
    destruct L0 as [L0 ->]. pose proof (IH L0 l e eq_refl) as Ce. pose proof (lifetime_runs P cs init _ L0 e ltac:(apply in_or_app; right; left; reflexivity)) as Re.
    destruct (epoch_steps P cs k e K Re) as (_ & _ & _ & _ & _ & _ & _ & _ & C3). split; [|auto using can_knows]. apply (can_call _ _ _ _ _ C3). intros x ->. exact Ce.
Qed.
Lemma c83_enough P cs k S D init l e lab x : p_hpke P cs = Ok k -> lifetime_of P cs init (l ++ [e]) -> In lab schedule_labels -> derive_secret P cs (er_epoch e) lab = Ok x ->
  enough k S D init (l ++ [e]) -> exists D', knows k S D' x.
Proof.
  intros K L I E H. pose proof (enough_can P cs k S D init _ K H L l e eq_refl) as C. rewrite (derive_expand P cs k) in E by (exact K || apply schedule_fits, I).
  destruct (can_call k S D _ _ E) as (D' & _ & N); [intros y ->; exact C|eauto].
Qed.

(** ** A KDF without clashes *)

Lemma c82_ideal P cs h d E t (kept : item -> Prop) it b D : p_hpke P cs = Ok h -> d <= 31 -> new_secret_tree P cs (2 ^ d) E = Ok t ->
  (forall c c' x, call h c = Ok x -> call h c' = Ok x -> c = c') -> (forall c, call h c <> Ok E) ->
  item_value P cs t it b -> knows h (fun x => exists a, kept a /\ item_value P cs t a x) D b -> exists a, kept a /\ follows a it.
Proof.
  intros K L T INJ NE V N. destruct (c82_forward P cs h d E t kept it b D K L T V N) as [X|[(c & c' & x & _ & _ & Q & C & C')|(c & _ & C)]]; [exact X|exfalso; exact (Q (INJ _ _ _ C C'))|exfalso; exact (NE c C)].
Qed.
Lemma ideal_no_clash h D made : (forall c c' x, call h c = Ok x -> call h c' = Ok x -> c = c') -> ~ clash h D made.
Proof. intros INJ (c & c' & x & _ & _ & Q & C & C'). exact (Q (INJ _ _ _ C C')). Qed.

From Verif Require Import ExProvider.
Fixpoint encp (p : positive) (rest : bytes) : bytes := match p with xH => x00 :: rest | xO p => x01 :: encp p rest | xI p => x02 :: encp p rest end.
Lemma encp_inj p : forall p' r r', encp p r = encp p' r' -> p = p' /\ r = r'.
Proof. induction p as [p IH|p IH|]; intros [p'|p'|] r r' E; cbn [encp] in E; try discriminate; injection E; auto; intros Q; apply IH in Q as [-> ->]; auto. Qed.
Lemma app_len_inj (a : bytes) : forall b r r', length a = length b -> (a ++ r = b ++ r')%list -> a = b /\ r = r'.
Proof. induction a as [|x a IH]; intros [|y b] r r' L E; try discriminate; [auto|]. injection E as -> E. apply IH in E as [-> ->]; [auto|injection L; auto]. Qed.
Definition enc (s rest : bytes) : bytes := encp (Pos.of_succ_nat (length s)) (s ++ rest)%list.
Lemma enc_inj s s' r r' : enc s r = enc s' r' -> s = s' /\ r = r'.
Proof. unfold enc. intros E. apply encp_inj in E as [L E]. apply SuccNat2Pos.inj in L. apply app_len_inj in E; assumption. Qed.
Definition ideal_hpke : hpke_alg :=
  MkHpke (k_derive_key_pair toy_hpke) (fun s i n => Ok (x03 :: enc s (enc i (encp (N.succ_pos n) []))))
    (fun ikm salt => Ok (x04 :: enc ikm (enc salt []))) 4 4 4 (a_open toy_hpke) (a_seal toy_hpke).
Definition ideal : provider :=
  MkProvider (p_supports toy) (p_supported toy) (p_hash toy) (fun _ => Ok ideal_hpke) (p_sig toy) (p_base_seal toy) (p_base_open toy).
Lemma ideal_injective c c' x : call ideal_hpke c = Ok x -> call ideal_hpke c' = Ok x -> c = c'.
Proof.
  intros A B. rewrite <- A in B. destruct c as [a b|a b n], c' as [a' b'|a' b' n']; cbn in B; injection B; [|discriminate..|]; intros Q.
  - apply enc_inj in Q as [-> Q]. apply enc_inj in Q as [-> _]. reflexivity.
  - apply enc_inj in Q as [-> Q]. apply enc_inj in Q as [-> Q]. apply encp_inj in Q as [Q _]. f_equal. apply (f_equal N.pos) in Q. rewrite !N.succ_pos_spec in Q. lia.
Qed.
Lemma ideal_never c : call ideal_hpke c <> Ok (str "enc").
Proof. destruct c; cbn; discriminate. Qed.
Lemma c82_example : exists t r r' b b', new_secret_tree ideal Suite1 (2 ^ 1) (str "enc") = Ok t /\
  ratchet_at ideal Suite1 t 1 RApplication 2 r /\ ratchet_at ideal Suite1 t 1 RApplication 0 r' /\
  item_value ideal Suite1 t (IKey 1 RApplication 0) b /\ item_value ideal Suite1 t (IKey 1 RApplication 3) b' /\
  (forall D, ~ knows ideal_hpke (fun x => x = rt_secret r) D b) /\ exists D, knows ideal_hpke (fun x => x = rt_secret r) D b'.
Proof.
  destruct (new_secret_tree ideal Suite1 (2 ^ 1) (str "enc")) as [t| | |] eqn:T; [|vm_compute in T; discriminate..]. pose proof T as T0. vm_compute in T0. apply Ok_inj in T0.
  destruct (derive_ratchet_root ideal Suite1 t 2 RApplication) as [r0| | |] eqn:R0; [|rewrite <- T0 in R0; vm_compute in R0; discriminate..].
  destruct (steps ideal Suite1 r0 2) as [r| | |] eqn:R2; [|rewrite <- T0 in R0; vm_compute in R0; apply Ok_inj in R0; rewrite <- R0 in R2; vm_compute in R2; discriminate..].
  destruct (steps ideal Suite1 r0 3) as [r3| | |] eqn:R3; [|rewrite <- T0 in R0; vm_compute in R0; apply Ok_inj in R0; rewrite <- R0 in R3; vm_compute in R3; discriminate..].
  destruct (derive_key ideal Suite1 r0) as [b| | |] eqn:B; [|discriminate..]. destruct (derive_key ideal Suite1 r3) as [b'| | |] eqn:B'; [|discriminate..].
  assert (I0 : ratchet_at ideal Suite1 t 1 RApplication 0 r0) by (exists r0; split; [exact R0|reflexivity]). assert (I2 : ratchet_at ideal Suite1 t 1 RApplication 2 r) by (exists r0; auto). assert (I3 : ratchet_at ideal Suite1 t 1 RApplication 3 r3) by (exists r0; auto).
  exists t, r, r0, b, b'. split; [reflexivity|]. split; [exact I2|]. split; [exact I0|].
  assert (Vb : item_value ideal Suite1 t (IKey 1 RApplication 0) b) by (exists r0; auto). assert (Vb' : item_value ideal Suite1 t (IKey 1 RApplication 3) b') by (exists r3; auto).
  split; [exact Vb|]. split; [exact Vb'|]. split.
  - intros D N. destruct (c82_ideal ideal Suite1 ideal_hpke 1 (str "enc") t (fun a => a = IRatchet 1 RApplication 2) (IKey 1 RApplication 0) b D eq_refl) as (a & -> & F);
      [discriminate|exact T|exact ideal_injective|exact ideal_never|exact Vb| |].
    + eapply knows_mono; [| |exact N]; [|intros c I; exact I]. intros x ->. eexists. split; [reflexivity|]. exists r. auto.
    + destruct F as [F|(i & l & g & g' & F & L & [G|[G|G]])]; [discriminate..| |discriminate]. injection F as <- <- <-. injection G as <-. lia.
  - apply (c82_later ideal Suite1 ideal_hpke t (IRatchet 1 RApplication 2) (IKey 1 RApplication 3) _ b' eq_refl); [|exists r; auto|exact Vb'].
    right. exists 1, RApplication, 2%nat, 3%nat. split; [reflexivity|]. split; [lia|auto].
Qed.

Definition bytes_in (k : bytes) (L : list bytes) : bool := if in_dec (list_eq_dec Byte.byte_eq_dec) k L then true else false.
Definition ex_epoch1 : epoch_run :=
  let j := ok_or [] (extract_joiner_secret ideal ex_gc (str "init") (str "commit one")) in
  let e := ok_or [] (extract_epoch_secret ideal ex_gc j []) in EpochRun ex_gc (str "init") (str "commit one") [] j e (ok_or [] (derive_secret ideal Suite2 e label_init)).
Definition ex_epoch2 : epoch_run :=
  let i := er_init ex_epoch1 in let j := ok_or [] (extract_joiner_secret ideal ex_gc i (str "commit two")) in
  let e := ok_or [] (extract_epoch_secret ideal ex_gc j (str "psk")) in EpochRun ex_gc i (str "commit two") (str "psk") j e (ok_or [] (derive_secret ideal Suite2 e label_init)).
Lemma ex_lifetime : p_hpke ideal Suite2 = Ok ideal_hpke /\ lifetime_of ideal Suite2 (str "init") [ex_epoch1; ex_epoch2].
Proof.
  split; [reflexivity|]. apply (lt_next ideal Suite2 (str "init") [] ex_epoch1 ex_epoch2); [apply lt_first; [|reflexivity]|  |reflexivity];
    (split; [vm_compute; reflexivity|]; split; [vm_compute; reflexivity|]; split; vm_compute; reflexivity).
Qed.
Definition ex_enc (e : epoch_run) : bytes := ok_or [] (derive_secret ideal Suite2 (er_epoch e) label_encryption).
(** Someone with the commit secrets and the PSK, and the init secret after the second epoch, does not know the first epoch; someone
    with the init secret after the first epoch and the PSK but not the second commit secret does not know the second. *)
Lemma c83_example : lifetime_of ideal Suite2 (str "init") [ex_epoch1; ex_epoch2] /\
  derive_secret ideal Suite2 (er_epoch ex_epoch1) label_encryption = Ok (ex_enc ex_epoch1) /\ derive_secret ideal Suite2 (er_epoch ex_epoch2) label_encryption = Ok (ex_enc ex_epoch2) /\
  (forall D, ~ knows ideal_hpke (fun x => In x [str "commit one"; str "commit two"; str "psk"; zero_bytes 4; er_init ex_epoch2]) D (ex_enc ex_epoch1)) /\
  (forall D, ~ knows ideal_hpke (fun x => In x [er_init ex_epoch1; str "commit one"; str "psk"]) D (ex_enc ex_epoch2)) /\
  exists D, knows ideal_hpke (fun x => In x [er_init ex_epoch1; str "commit two"; str "psk"]) D (ex_enc ex_epoch2).
Proof.
  assert (E1 : derive_secret ideal Suite2 (er_epoch ex_epoch1) label_encryption = Ok (ex_enc ex_epoch1)) by (vm_compute; reflexivity).
  assert (E2 : derive_secret ideal Suite2 (er_epoch ex_epoch2) label_encryption = Ok (ex_enc ex_epoch2)) by (vm_compute; reflexivity).
  assert (EN : In label_encryption schedule_labels) by (right; right; left; reflexivity).
  assert (OUT : forall L k, bytes_in k L = false -> ~ In k L) by (intros L k; unfold bytes_in; destruct (in_dec _ k L); [discriminate|auto]).
  assert (NK : forall (S : bytes -> Prop) D b, ~ S b -> (forall c, call ideal_hpke c <> Ok b) -> ~ knows ideal_hpke S D b) by (intros S D b A B K; inversion K; subst; [contradiction|eapply B; eassumption]).
  split; [exact (proj2 ex_lifetime)|]. split; [exact E1|]. split; [exact E2|]. split; [|split].
  - intros D N. eapply (ideal_no_clash ideal_hpke D); [exact ideal_injective|].
    eapply (c83_forward ideal Suite2 ideal_hpke _ D (str "init") [] ex_epoch1 label_encryption (ex_enc ex_epoch1) eq_refl); [|exact EN|exact E1|..|exact N].
    + apply lt_first; [|reflexivity]. apply (lifetime_runs _ _ _ _ (proj2 ex_lifetime)). left. reflexivity.
    + apply OUT. vm_compute. reflexivity.
    + apply NK; [apply OUT; vm_compute; reflexivity|]. intros []; discriminate.
    + intros e' [<-|[]]. split; (intros [X|(m & Em & X)]; [revert X; apply OUT; vm_compute; reflexivity|]; vm_compute in Em; apply Ok_inj in Em; rewrite <- Em in X; revert X; apply OUT; vm_compute; reflexivity).
    + intros e' [].
  - intros D N. eapply (ideal_no_clash ideal_hpke D); [exact ideal_injective|].
    eapply (c83_heals ideal Suite2 ideal_hpke _ D (str "init") [ex_epoch1] ex_epoch2 label_encryption (ex_enc ex_epoch2) eq_refl (proj2 ex_lifetime) EN E2); [..|exact N].
    + apply OUT. vm_compute. reflexivity.
    + apply NK; [apply OUT; vm_compute; reflexivity|]. intros []; discriminate.
    + intros [X|(m & Em & X)]; [revert X; apply OUT; vm_compute; reflexivity|]. vm_compute in Em; apply Ok_inj in Em; rewrite <- Em in X; revert X; apply OUT; vm_compute; reflexivity.
    + intros [X|(m & Em & X)]; [revert X; apply OUT; vm_compute; reflexivity|]. vm_compute in Em; apply Ok_inj in Em; rewrite <- Em in X; revert X; apply OUT; vm_compute; reflexivity.
  - apply (c83_enough ideal Suite2 ideal_hpke _ [] (str "init") [ex_epoch1] ex_epoch2 label_encryption (ex_enc ex_epoch2) eq_refl (proj2 ex_lifetime) EN E2).
    apply (en_init _ _ _ _ [] ex_epoch1 ex_epoch2); [left; reflexivity|apply kn_given; right; left; reflexivity|apply kn_given; right; right; left; reflexivity].
Qed.
