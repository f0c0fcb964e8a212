(** Proofs about SpecReasons.v: the error is that of the first check that fails. *)
From Coq Require Import ZifyBool ZifyNat ZifyN.
From Verif Require Import ReasonFacts.
From Verif Require Import SpecReasons.
Local Open Scope N_scope.
Local Open Scope list_scope.

Lemma first_here e (W : Prop) l : W -> first_of ((e, W) :: l) e.
Proof. intros H. exists [], W, l. split; [reflexivity|]. split; [exact H|constructor]. Qed.
Lemma first_later e e' (W : Prop) l : ~ W -> first_of l e -> first_of ((e', W) :: l) e.
Proof. intros N (b & w & a & -> & H & F). exists ((e', W) :: b), w, a. split; [reflexivity|]. split; [exact H|constructor; assumption]. Qed.
Lemma first_app l l' e : Forall (fun c : error * Prop => ~ snd c) l -> first_of l' e -> first_of (l ++ l') e.
Proof.
  intros F (b & w & a & -> & H & G). exists (l ++ b), w, a. split; [rewrite app_assoc; reflexivity|]. split; [exact H|]. apply Forall_app. auto.
Qed.
Lemma first_left l l' e : first_of l e -> first_of (l ++ l') e.
Proof. intros (b & w & a & -> & H & G). exists b, w, (a ++ l'). split; [rewrite <- app_assoc; reflexivity|]. auto. Qed.
Lemma first_unique l e e' : first_of l e -> first_of l e' -> e = e'.
Proof.
  intros (b & w & a & E & H & F) (b' & w' & a' & E' & H' & F'). subst l. revert b' E' F'. induction b as [|x b IH]; intros [|y b'] E' F'; cbn in E'.
  - injection E' as -> _ _. reflexivity.
  - injection E' as <- _. inversion_clear F' as [|? ? N _]. contradiction.
  - injection E' as -> _. inversion_clear F as [|? ? N _]. contradiction.
  - injection E' as -> E'. inversion_clear F as [|? ? _ F0]. inversion_clear F' as [|? ? _ F0']. exact (IH F0 b' E' F0').
Qed.

Lemma extensions_order caps l : check_extensions caps l = Ok tt /\ Forall (fun c : error * Prop => ~ snd c)
    (map (fun x => (ExtensionTypeUsedByLeafNodeNotSupportedByThatLeafNode (u16_of_extension_type (ext_type x)), ~ In (ext_type x) caps)) l) \/
  exists e, check_extensions caps l = Err e /\
    first_of (map (fun x => (ExtensionTypeUsedByLeafNodeNotSupportedByThatLeafNode (u16_of_extension_type (ext_type x)), ~ In (ext_type x) caps)) l) e.
Proof.
  induction l as [|x l IH]; [left; split; [reflexivity|constructor]|]. cbn [check_extensions map].
  destruct (mem extension_type_eqb (ext_type x) caps) eqn:M.
  - apply (mem_in _ extension_type_eqb_eq) in M. destruct IH as [[E F]|(e & E & F)].
    + left. split; [exact E|]. constructor; [cbn [snd]; tauto|exact F].
    + right. exists e. split; [exact E|]. apply first_later; [tauto|exact F].
  - right. eexists. split; [reflexivity|]. apply first_here. intros I. apply (mem_in _ extension_type_eqb_eq) in I. congruence.
Qed.

Lemma leaf_order P l o e : leaf_verify P l o = Err e -> first_of (leaf_checks P l o) e.
Proof.
  unfold leaf_verify, leaf_checks. destruct (leaf_verify_signature _ _ _ _) as [[]|e0| |] eqn:S; cbn [bind negb]; [| |intros _; exfalso; eapply leaf_sig_err, S|discriminate|discriminate].
  2: { intros E. injection E as <-. apply first_here. intros H. apply leaf_verify_signature_iff in H. congruence. }
  apply leaf_verify_signature_iff in S. cbn [app].
  destruct (mem credential_type_eqb _ _) eqn:C; cbn [negb].
  2: { intros E. injection E as <-. apply first_later; [tauto|]. apply first_here. intros I. apply (mem_in _ credential_type_eqb_eq) in I. congruence. }
  apply (mem_in _ credential_type_eqb_eq) in C.
  match goal with |- (if ?c then _ else _) = _ -> _ => destruct c eqn:B end.
  { intros E. injection E as <-. apply first_later; [tauto|]. apply first_later; [tauto|]. apply first_here.
    destruct (lp_source (ln_payload l)) as [lt| |ph] eqn:L; try discriminate. exists lt. split; [reflexivity|].
    apply andb_prop in B as [B1 B2]. split; [lia|]. intros H. apply lifetime_iff in H. rewrite H in B2. discriminate. }
  intros E. apply first_later; [tauto|]. apply first_later; [tauto|]. apply first_later.
  { intros (lt & L & N & X). rewrite L in B. apply Bool.andb_false_iff in B as [B|B]; [lia|]. apply Bool.negb_false_iff, lifetime_iff in B. contradiction. }
  destruct (extensions_order (cap_extensions (lp_capabilities (ln_payload l))) (lp_extensions (ln_payload l))) as [[X F]|(e0 & X & F)]; rewrite X in E; cbn [bind] in E.
  2: { injection E as <-. apply first_left, F. }
  apply first_app; [exact F|].
  destruct (mem bytes_eqb (lp_signature_key _) _) eqn:M1; [injection E as <-; apply first_here, (mem_in _ bytes_eqb_eq), M1|].
  apply first_later; [intros I; apply (mem_in _ bytes_eqb_eq) in I; congruence|].
  destruct (mem bytes_eqb (lp_encryption_key _) _) eqn:M2; [injection E as <-; apply first_here, (mem_in _ bytes_eqb_eq), M2|discriminate].
Qed.

Lemma package_order P kp ctx e : key_package_verify P kp ctx = Err e -> first_of (package_checks P kp ctx) e.
Proof.
  unfold key_package_verify, package_checks. destruct (version_eqb _ _) eqn:V; cbn [negb].
  2: { intros E. injection E as <-. apply first_here. intros H. apply version_eqb_eq in H. congruence. }
  apply version_eqb_eq in V. destruct (suite_eqb _ _) eqn:S; cbn [negb].
  2: { intros E. injection E as <-. apply first_later; [tauto|]. apply first_here. intros H. apply suite_eqb_eq in H. congruence. }
  apply suite_eqb_eq in S. intros E. apply first_later; [tauto|]. apply first_later; [tauto|].
  destruct (lp_source _) as [lt| |ph] eqn:L; try (injection E as <-; apply first_here; intros [lt' H]; congruence).
  apply first_later; [intros N; apply N; exists lt; exact L|].
  destruct (key_package_verify_signature P kp) as [[]|e0| |] eqn:K; cbn [is_ok bind negb] in E; try discriminate.
  - apply first_later; [intros N; apply N, package_signed_iff, K|].
    destruct (bytes_eqb _ _) eqn:B; [|discriminate]. injection E as <-. apply first_here, bytes_eqb_eq, B.
  - injection E as <-. apply first_here. intros H. apply package_signed_iff in H. congruence.
Qed.

(** ** Trees *)
Lemma hash_needed f P cs t x excl b : tree_hash_f f P cs t x excl = Ok b -> exists H, p_hash P cs = Ok H.
Proof.
  destruct f; cbn [tree_hash_f]; intros E; apply bind_ok in E as (input & _ & E); apply bind_ok in E as (H & EH & _); exists H; exact EH.
Qed.
Local Opaque tree_hash_f.
Lemma hash_needed' P cs t x excl b : tree_hash P cs t x excl = Ok b -> exists H, p_hash P cs = Ok H.
Proof. exact (hash_needed 33 P cs t x excl b). Qed.
Local Opaque tree_hash.
Lemma tree_hash_needs_hash P cs t b e : root_tree_hash P cs t = Ok b -> p_hash P cs = Err e -> False.
Proof. intros E N. unfold root_tree_hash in E. apply bind_ok in E as (r & _ & E). apply hash_needed' in E as [H E]. congruence. Qed.
Lemma climb_kinds t n p li e : forall f x, check_unmerged_climb f t n p li x = Err e ->
  e = UnmergedLeafIsNotDescendantOfTheParentNode \/ e = NonBlankIntermediateNodeMissingUnmergedLeaf.
Proof.
  induction f as [|f IH]; intros x E; cbn [check_unmerged_climb] in E; (apply bind_err in E as [E|(y & _ & E)]; [exfalso; exact (noerr_parent _ _ _ E)|]);
  (destruct y as [y|]; [|injection E as <-; left; reflexivity]); (destruct (y =? p); [discriminate|]);
  (apply bind_err in E as [E|(u & _ & E)]; [destruct (tget t y) as [[?|q]|]; try discriminate; destruct (has_unmerged_leaf q li); [discriminate|injection E as <-; right; reflexivity]|]);
  [discriminate|exact (IH _ E)].
Qed.
Local Opaque resolve_f tree_hash parent_hash find_parent_hash resolution.

Lemma check_parent_hash_true P cs t k j p : k < 31 -> check_parent_hash P cs t (node_at (k + 1) j) (Some (Parent p)) = Ok true -> hash_valid P cs t k j p.
Proof.
  intros L E. unfold check_parent_hash in E. rewrite children_node in E by exact L. cbn [bind] in E.
  destruct (tree_hash P cs t (node_at k (2 * j)) (pn_unmerged p)) as [lh|?| |] eqn:E1; cbn [ok_or_false] in E; try discriminate.
  destruct (tree_hash P cs t (node_at k (2 * j + 1)) (pn_unmerged p)) as [rh|?| |] eqn:E2; cbn [ok_or_false] in E; try discriminate.
  destruct (parent_hash P cs p rh) as [lph|?| |] eqn:E3; cbn [ok_or_false] in E; try discriminate.
  destruct (parent_hash P cs p lh) as [rph|?| |] eqn:E4; cbn [ok_or_false] in E; try discriminate.
  exists lh, rh, lph, rph. split; [exact E1|]. split; [exact E2|]. split; [exact E3|]. split; [exact E4|].
  apply bind_ok in E as (rl & Rl & E). apply bind_ok in E as (rr & Rr & E). apply Ok_inj in E. unfold resolve in Rl, Rr.
  rewrite <- (N2Nat.id k) in Rl, Rr. apply resolve_f_val in Rl; [|lia]. apply resolve_f_val in Rr; [|lia]. subst rl rr.
  pose proof (bool_xor _ _ _ _ (find_parent_hash_iff t (resolution t (N.to_nat k) (2 * j)) lph) (find_parent_hash_iff t (resolution t (N.to_nat k) (2 * j + 1)) rph)) as Y.
  apply Y. exact E.
Qed.

Lemma leaves_first P cs gid creds now e : forall ls sks eks, NoDup sks -> NoDup eks -> verify_leaves P cs gid creds now sks eks ls = Err e ->
  exists pre i l post, ls = (pre ++ (i, l) :: post)%list /\
    (forall m lm, In (m, lm) pre -> leaf_valid P cs gid creds (now m) m lm) /\
    NoDup (rev (map sk_of pre) ++ sks) /\ NoDup (rev (map ek_of pre) ++ eks) /\
    leaf_verify P l (MkLeafOptions cs gid i creds (rev (map sk_of pre) ++ sks) (rev (map ek_of pre) ++ eks) (now i)) = Err e.
Proof.
  induction ls as [|[i l] ls IH]; intros sks eks N1 N2 E; cbn [verify_leaves] in E; [discriminate|]. apply bind_err in E as [E|([] & V & E)].
  - exists [], i, l, ls. split; [reflexivity|]. split; [intros ? ? []|]. split; [exact N1|]. split; [exact N2|exact E].
  - apply leaf_verify_split in V as (V & A & B). apply IH in E as (pre & i' & l' & post & -> & F & D1 & D2 & E); [|constructor; assumption|constructor; assumption].
    exists ((i, l) :: pre), i', l', post. split; [reflexivity|]. cbn [map rev]. rewrite <- !app_assoc. split; [|auto].
    intros m lm [Q|I]; [injection Q as <- <-; exact V|apply F, I].
Qed.

Lemma sorted_split (pre : list (N * leaf_node)) i l post : StronglySorted N.lt (map fst (pre ++ (i, l) :: post)) ->
  (forall m lm, In (m, lm) pre -> m < i) /\ (forall m lm, In (m, lm) post -> i < m).
Proof.
  induction pre as [|[a la] pre IH]; cbn [app map]; intros S; inversion_clear S as [|? ? S' F].
  - split; [intros ? ? []|]. intros m lm I. rewrite Forall_forall in F. apply F, (in_map fst _ (m, lm)), I.
  - destruct (IH S') as [H1 H2]. split; [|exact H2]. intros m lm [Q|I]; [|eapply H1, I]. injection Q as <- <-.
    rewrite Forall_forall in F. apply F. rewrite map_app. apply in_or_app. right. left. reflexivity.
Qed.
Lemma nodup_map_inj {A B} (f : A -> B) l x y : NoDup (map f l) -> In x l -> In y l -> f x = f y -> x = y.
Proof.
  induction l as [|a l IH]; cbn [map In]; intros D; [tauto|]. inversion_clear D as [|? ? NI D']. intros [->|I] [->|J] E; auto.
  - exfalso. apply NI. rewrite E. apply in_map, J.
  - exfalso. apply NI. rewrite <- E. apply in_map, I.
Qed.

Lemma keys_before_ok t (key : leaf_node -> bytes) (f : N * leaf_node -> bytes) pre i l post :
  (forall il, f il = key (snd il)) -> StronglySorted N.lt (map fst (pre ++ (i, l) :: post)) ->
  (forall m lm, In (m, lm) (pre ++ (i, l) :: post) <-> leaf_at t m = Some lm) -> keys_before t key i (rev (map f pre)).
Proof.
  intros Hf S M k. destruct (sorted_split _ _ _ _ S) as [H1 H2]. rewrite <- in_rev, in_map_iff. split.
  - intros ([m lm] & <- & I). exists m, lm. split; [eapply H1, I|]. split; [apply M, in_or_app; left; exact I|apply Hf].
  - intros (m & lm & L & A & ->). apply M, in_app_or in A as [A|[A|A]].
    + exists (m, lm). split; [apply Hf|exact A].
    + injection A as <- <-. lia.
    + apply H2 in A. lia.
Qed.

Lemma members_before_ok P t ctx now creds pre i :
  (forall m lm, In (m, lm) pre <-> m < i /\ leaf_at t m = Some lm) ->
  (forall m lm, In (m, lm) pre -> leaf_valid P (gc_suite ctx) (gc_group_id ctx) creds (now m) m lm) ->
  NoDup (rev (map sk_of pre) ++ []) -> NoDup (rev (map ek_of pre) ++ []) -> members_before P t ctx now creds i.
Proof.
  intros M V D1 D2. rewrite app_nil_r in D1, D2. apply NoDup_rev in D1, D2. rewrite rev_involutive in D1, D2. split.
  - intros m l L A. apply V, M. auto.
  - intros m m' l l' L L' N A A'. assert (I : In (m, l) pre) by (apply M; auto). assert (I' : In (m', l') pre) by (apply M; auto). split; intros E.
    + assert (Q : (m, l) = (m', l')) by (apply (nodup_map_inj sk_of pre); assumption). congruence.
    + assert (Q : (m, l) = (m', l')) by (apply (nodup_map_inj ek_of pre); assumption). congruence.
Qed.

Lemma tree_order P t ctx now d e : tsized t d -> tlen t < 4294967296 -> (forall x nd, tget t x = Some nd -> in_tree d x) ->
  verify_integrity P t ctx now = Err e -> root_tree_hash P (gc_suite ctx) t = Err e \/ tree_first P t ctx now e.
Proof.
  intros S L IN E0. pose proof (tree_reasons P t ctx now d e S L IN E0) as R0. pose proof (small_usized t d S L) as U. pose proof (usized_31 t d U) as Hd. pose proof E0 as E.
  destruct (leaves_ok t d U) as (ls & EL & SL & ML). destruct (supported_total t d U) as (ls' & creds & EL' & EC & _).
  unfold verify_integrity in E. apply bind_err in E as [E|(h & Eh & E)]; [left; exact E|right].
  destruct (valid_kinds P _ t d _ U IN Eh) as [K1 K2].
  destruct (bytes_eqb h (gc_tree_hash ctx)) eqn:B; cbn [negb] in E.
  2: { injection E as <-. eapply at_hash; [exact Eh|]. intros Q. apply bytes_eqb_eq in Q. congruence. }
  apply bytes_eqb_eq in B. subst h.
  apply bind_err in E as [E|(b & Ev & E)]; [exfalso; exact (noerr_verify_hashes _ _ _ _ _ _ E)|]. destruct b; cbn [negb] in E.
  2: { injection E as <-. destruct R0 as [R0|(k & j & p & T & N)]; [|eapply at_parent_hash; [exact Eh|exact T|exact N]].
    exfalso. exact (tree_hash_needs_hash _ _ _ _ _ Eh R0). }
  assert (HV : forall k j p, tget t (node_at (k + 1) j) = Some (Parent p) -> hash_valid P (gc_suite ctx) t k j p).
  { intros k j p T. pose proof (in_tree_level _ _ _ (IN _ _ T)). assert (Lx : node_at (k + 1) j < tlen t) by (destruct (N.lt_ge_cases (node_at (k + 1) j) (tlen t)); [assumption|rewrite tget_beyond in T by assumption; discriminate]).
    unfold verify_parent_hashes in Ev. apply (verify_hashes_iff P (gc_suite ctx) t t 0) with (x := node_at (k + 1) j) in Ev; [|lia|exact Lx].
    rewrite N.add_0_l, T in Ev. apply check_parent_hash_true in Ev; [exact Ev|lia]. }
  rewrite EC in E. cbn [bind] in E. rewrite EL in E. cbn [bind] in E. apply bind_err in E as [E|([sks eks] & Vl & E)].
  - apply leaves_first in E as (pre & i & l & post & -> & V & D1 & D2 & E); [|constructor|constructor].
    destruct (sorted_split _ _ _ _ SL) as [H1 H2].
    eapply (at_member P t ctx now e i l creds); [exact Eh|exact HV|exact EC|apply ML, in_or_app; right; left; reflexivity| | | |apply leaf_order, E].
    + apply (members_before_ok P t ctx now creds pre i); [|exact V|exact D1|exact D2]. intros m lm. split.
      * intros I. split; [eapply H1, I|apply ML, in_or_app; left; exact I].
      * intros [Lm A]. apply ML, in_app_or in A as [A|[A|A]]; [exact A|injection A as <- <-; lia|apply H2 in A; lia].
    + rewrite app_nil_r. eapply keys_before_ok; [reflexivity|exact SL|exact ML].
    + rewrite app_nil_r. eapply keys_before_ok; [reflexivity|exact SL|exact ML].
  - assert (Vl' := Vl). apply verify_leaves_iff in Vl; [|constructor|constructor]. destruct Vl as (Q & V & D1 & D2).
    assert (MB : forall i, members_before P t ctx now creds i).
    { intros i. assert (W : members_before P t ctx now creds (i + tlen t + 1)).
      { apply (members_before_ok P t ctx now creds ls); [|exact V|exact D1|exact D2]. intros m lm. rewrite ML. split; [intros A; split; [|exact A]|tauto].
        unfold leaf_at in A. destruct (N.lt_ge_cases (2 * m) (tlen t)) as [?|G]; [lia|]. rewrite tget_beyond in A by exact G. discriminate. }
      destruct W as [W1 W2]. split; [intros m lm Lm; apply W1; lia|intros m m' lm lm' Lm Lm'; apply W2; lia]. }
    apply (at_parent P t ctx now e creds); [exact Eh|exact HV|exact EC|exact MB| |].
    + apply check_parents_err in E; [|lia]. destruct E as [(x & p & I & E)|[-> _]]; [|cbn; auto].
      apply check_unmerged_err in E as (u & Iu & E). apply climb_kinds in E as [->| ->]; cbn; auto.
    + destruct R0 as [R0|R0]; [|exact R0]. exfalso. exact (tree_hash_needs_hash _ _ _ _ _ Eh R0).
Qed.
