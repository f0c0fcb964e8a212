From Verif Require Import CodecLib WireCodecs KeyFacts MessageFacts PassiveFacts AuthFacts CommitFacts PrivateFacts TreePaths KeyStoreFacts.
From Verif Require Import SpecFork.
Local Open Scope N_scope.

Section Fork.
Context (P : provider) (cs : cipher_suite) (h : hash_alg) (e0 : N) (start : bytes) (l l' : list (confirmed_input * bytes)).
Hypothesis Hh : p_hash P cs = Ok h.
Hypothesis Hs : forall b, N.of_nat (length (h_digest h b)) = h_size h.
Hypothesis W : Forall (fun x => wf_confirmed_input (fst x)) l.
Hypothesis W' : Forall (fun x => wf_confirmed_input (fst x)) l'.

Lemma firstn_S {A} (m : list A) n x : nth_error m n = Some x -> firstn (S n) m = firstn n m ++ [x].
Proof. revert n. induction m as [|y m IH]; intros [|n] H; try discriminate; cbn in *; [injection H as <-; reflexivity|]. f_equal. apply IH, H. Qed.
Lemma fork_apart n n' ctx ctx' : in_epoch P cs e0 start l n ctx -> in_epoch P cs e0 start l' n' ctx' -> parted l l' n' ->
  ctx <> ctx' \/ transcript_collision P cs h start (up_to l n') (up_to l' n').
Proof.
  intros (c & tag & i & Nl & T & C & E & _) (c' & tag' & i' & Nl' & T' & C' & E' & _) F.
  destruct (N.eq_dec (gc_epoch ctx) (gc_epoch ctx')) as [Q|Q]; [|left; congruence].
  assert (n = n') by lia. subst n'. destruct (bytes_eqb (gc_confirmed ctx) (gc_confirmed ctx')) eqn:B.
  - apply bytes_eqb_eq in B. right. rewrite <- B in C'. unfold up_to. rewrite Nl, Nl'.
    assert (Wc : wf_confirmed_input c) by (rewrite Forall_forall in W; apply (W (c, tag)), (nth_error_In _ _ Nl)).
    assert (Wc' : wf_confirmed_input c') by (rewrite Forall_forall in W'; apply (W' (c', tag')), (nth_error_In _ _ Nl')).
    assert (Le : length (firstn n l) = length (firstn n l')).
    { rewrite !firstn_length. assert (n < length l)%nat by (apply nth_error_Some; congruence). assert (n < length l')%nat by (apply nth_error_Some; congruence). lia. }
    assert (Wf : forall k m, Forall (fun x : confirmed_input * bytes => wf_confirmed_input (fst x)) m -> Forall (fun x => wf_confirmed_input (fst x)) (firstn k m)).
    { intros k m Hm. rewrite Forall_forall in *. intros x I. apply Hm. rewrite <- (firstn_skipn k m). apply in_or_app. auto. }
    destruct (c41_confirmed P cs h start Hh Hs _ _ c c' i i' _ (Wf n l W) (Wf n l' W') Wc Wc' Le T T' C C') as [[A A']|X]; [|exact X].
    exfalso. apply F. rewrite (firstn_S _ _ _ Nl), (firstn_S _ _ _ Nl'), !map_app, A. cbn. congruence.
  - left. intros ->. rewrite (proj2 (bytes_eqb_eq _ _) eq_refl) in B. discriminate.
Qed.

Lemma fork_said log f w n' ctx' : speaks_in P cs e0 start l log -> in_epoch P cs e0 start l' n' ctx' -> parted l l' n' ->
  covers_context (fc_sender f) -> is_said log (SaidContent w f ctx') -> transcript_collision P cs h start (up_to l n') (up_to l' n').
Proof.
  intros S I F C (s & Is & E). destruct s; try contradiction. cbn in E. destruct E as (_ & <- & E). specialize (E C). subst g.
  destruct (S _ _ _ Is) as (n & A). destruct (fork_apart n n' ctx' ctx' A I F) as [X|X]; [congruence|exact X].
Qed.

Lemma fork_public log n' ctx' pk mk b c : only_said P cs pk log -> speaks_in P cs e0 start l log -> in_epoch P cs e0 start l' n' ctx' -> parted l l' n' ->
  receive_public P cs ctx' pk mk b = Ok c -> (exists i, fc_sender c = SMember i) -> transcript_collision P cs h start (up_to l n') (up_to l' n').
Proof.
  intros O S I F H (i & Sd). apply receive_public_inv in H as (v & m & rest & D & <- & V & _).
  pose proof (message_wf _ _ _ D) as (_ & WM). cbn in WM. destruct WM as (W1 & _).
  assert (WG : wf_group_context ctx') by (destruct I as (? & ? & ? & ? & ? & ? & ? & ?); assumption).
  pose proof (c85_content P cs pk log (public_auth_content m) ctx' O W1 WG V) as A.
  eapply (fork_said log (ac_content (public_auth_content m)) _ n' ctx' S I F); [|exact A]. cbn. rewrite Sd. exact Logic.I.
Qed.

Lemma fork_private log n' ctx' pk k sa encryption sds d path st b pc : p_hpke P cs = Ok k -> p_sig P cs = Ok sa -> a_key_size k < 65536 -> a_nonce_size k < 65536 ->
  d <= 31 -> new_secret_tree P cs (2 ^ d) encryption = Ok st -> N.of_nat (length path) = d ->
  only_said P cs pk log -> speaks_in P cs e0 start l log -> in_epoch P cs e0 start l' n' ctx' -> parted l l' n' ->
  receive_private P cs ctx' pk encryption sds (2 ^ d) (position 0 path) b = Ok pc -> transcript_collision P cs h start (up_to l n') (up_to l' n').
Proof.
  intros K SA KS NS D T L O S I F H.
  assert (WG : wf_group_context ctx') by (destruct I as (? & ? & ? & ? & ? & ? & ? & ?); assumption).
  destruct (c96_authentic P cs k sa ctx' pk encryption sds d path st b pc log K SA KS NS D T L O WG H) as (v & m & rest & sd & _ & _ & A).
  eapply (fork_said log _ _ n' ctx' S I F); [|exact A]. exact Logic.I.
Qed.

Lemma fork_commit n' ctx' sa k t d epoch b t' i pk : p_sig P cs = Ok sa -> p_hpke P cs = Ok k -> shaped t d ->
  (forall lf, leaf_at t i = Some lf -> signature_key lf = pk) ->
  (forall v m rest, de_mls_message b = Ok (MkMLSMessage v (WMPublic m), rest) -> fc_sender (pm_content m) = SMember i) ->
  forall log, only_said P cs pk log -> speaks_in P cs e0 start l log -> in_epoch P cs e0 start l' n' ctx' -> parted l l' n' ->
  passive_commit P cs t ctx' epoch b = Ok t' -> transcript_collision P cs h start (up_to l n') (up_to l' n').
Proof.
  intros SA K G Q Sd log O S I F H.
  assert (WG : wf_group_context ctx') by (destruct I as (? & ? & ? & ? & ? & ? & ? & ?); assumption).
  destruct (c94_authentic P cs sa h k t d ctx' epoch b t' SA Hh K G WG H) as (v & m & rest & i' & lf & D & Se & Lf & A & _).
  pose proof (Sd _ _ _ D) as E. rewrite Se in E. injection E as ->. specialize (Q _ Lf). subst pk.
  eapply (fork_said log _ _ n' ctx' S I F); [|exact (A log O)]. rewrite Se. exact Logic.I.
Qed.

Lemma fork_tag n n' ctx ctx' pk pk' mk mk' b c c' : in_epoch P cs e0 start l n ctx -> in_epoch P cs e0 start l' n' ctx' -> parted l l' n' ->
  receive_public P cs ctx pk mk b = Ok c -> receive_public P cs ctx' pk' mk' b = Ok c' -> (exists i, fc_sender c = SMember i) ->
  transcript_collision P cs h start (up_to l n') (up_to l' n') \/ tag_collision h b ctx mk ctx' mk'.
Proof.
  intros A A' F R R' S. destruct (fork_apart n n' ctx ctx' A A' F) as [N|C]; [|auto].
  assert (WG : wf_group_context ctx) by (destruct A as (? & ? & ? & ? & ? & ? & ? & ?); assumption).
  assert (WG' : wf_group_context ctx') by (destruct A' as (? & ? & ? & ? & ? & ? & ? & ?); assumption).
  destruct (c92_once P cs h ctx pk mk ctx' pk' mk' b c c' Hh WG WG' R R' S) as [_ [E|T]]; [contradiction|auto].
Qed.
End Fork.
