(** Proofs about proposal lists and welcome PSKs. *)
From Coq Require Import Permutation ZifyBool ZifyNat ZifyN.
From Verif Require Import CodecLib WireCodecs TreePaths SpecProposals ExProvider Examples.
Local Open Scope N_scope.

Lemma mem_In {A} (eqb : A -> A -> bool) (H : forall x y, eqb x y = true <-> x = y) x l : mem eqb x l = true <-> In x l.
Proof.
  unfold mem. rewrite existsb_exists. split.
  - intros (y & I & E). apply H in E. subst y. exact I.
  - intros I. exists x. split; [exact I|]. apply H. reflexivity.
Qed.
Lemma mem_false {A} (eqb : A -> A -> bool) (H : forall x y, eqb x y = true <-> x = y) x l : mem eqb x l = false -> ~ In x l.
Proof. intros E I. apply (mem_In eqb H) in I. congruence. Qed.

Record acc_of (adds : list bytes) (touched : list N) (psks : list bytes) (gce : bool) (pre : list (proposal * N)) : Prop := MkAcc {
  ac_adds : forall k, In k adds <-> exists q t, In (q, t) pre /\ added_key q = Some k;
  ac_touched : forall x, In x touched <-> exists q t, In (q, t) pre /\ touched_leaf q t = Some x;
  ac_psks : forall b, In b psks <-> exists q t x, In (q, t) pre /\ psk_of q = Some x /\ se_psk_id x = Ok b;
  ac_written : forall q t x, In (q, t) pre -> psk_of q = Some x -> exists b, se_psk_id x = Ok b;
  ac_gce : gce = true <-> exists q t, In (q, t) pre /\ is_gce q = true }.

Definition push {A} (o : option A) (l : list A) : list A := match o with Some x => x :: l | None => l end.
Lemma push_In {A} (o : option A) l x : In x (push o l) <-> o = Some x \/ In x l.
Proof. destruct o; cbn; [split; intros [H|H]; auto; [left; congruence|left; congruence]|split; [auto|intros [H|H]; [discriminate|exact H]]]. Qed.

Lemma acc_step adds touched psks gce pre p s o : acc_of adds touched psks gce pre ->
  (psk_of p = None /\ o = None \/ exists x b, psk_of p = Some x /\ se_psk_id x = Ok b /\ o = Some b) ->
  acc_of (push (added_key p) adds) (push (touched_leaf p s) touched) (push o psks) (is_gce p || gce)%bool (pre ++ [(p, s)]).
Proof.
  intros [A T K W G] O. split.
  - intros k. rewrite push_In, A. split.
    + intros [E|(q & t & I & E)]; [exists p, s|exists q, t]; (split; [apply in_or_app; cbn; auto|exact E]).
    + intros (q & t & I & E). apply in_app_or in I as [I|[I|[]]]; [right; eauto|]. injection I as <- <-. auto.
  - intros x. rewrite push_In, T. split.
    + intros [E|(q & t & I & E)]; [exists p, s|exists q, t]; (split; [apply in_or_app; cbn; auto|exact E]).
    + intros (q & t & I & E). apply in_app_or in I as [I|[I|[]]]; [right; eauto|]. injection I as <- <-. auto.
  - intros b. rewrite push_In, K. split.
    + intros [E|(q & t & x & I & E & S)].
      * destruct O as [[_ ->]|(x & b' & X & S & ->)]; [discriminate|]. injection E as ->. exists p, s, x. split; [apply in_or_app; cbn; auto|auto].
      * exists q, t, x. split; [apply in_or_app; auto|auto].
    + intros (q & t & x & I & E & S). apply in_app_or in I as [I|[I|[]]]; [right; exists q, t, x; auto|]. injection I as <- <-. left.
      destruct O as [[N _]|(x' & b' & X & S' & ->)]; [rewrite N in E; discriminate|]. rewrite X in E. injection E as ->. rewrite S in S'. apply Ok_inj in S'. subst b'. reflexivity.
  - intros q t x I E. apply in_app_or in I as [I|[I|[]]]; [eauto|]. injection I as <- <-. destruct O as [[N _]|(x' & b' & X & S' & ->)]; [rewrite N in E; discriminate|].
    rewrite X in E. injection E as ->. exists b'. exact S'.
  - rewrite Bool.orb_true_iff, G. split.
    + intros [E|(q & t & I & E)]; [exists p, s|exists q, t]; (split; [apply in_or_app; cbn; auto|exact E]).
    + intros (q & t & I & E). apply in_app_or in I as [I|[I|[]]]; [right; eauto|]. injection I as <- <-. auto.
Qed.

Definition seen (full : list (proposal * N)) (i : nat) (Q : proposal -> N -> Prop) : Prop :=
  exists j q t, (j < i)%nat /\ nth_error full j = Some (q, t) /\ Q q t.
Lemma seen_In pre p s r Q : seen (pre ++ (p, s) :: r) (length pre) Q <-> exists q t, In (q, t) pre /\ Q q t.
Proof.
  split.
  - intros (j & q & t & L & N & H). rewrite nth_error_app1 in N by exact L. exists q, t. split; [exact (nth_error_In _ _ N)|exact H].
  - intros (q & t & I & H). apply In_nth_error in I as [j J]. exists j, q, t.
    assert (j < length pre)%nat by (apply nth_error_Some; congruence). split; [assumption|]. split; [rewrite nth_error_app1; assumption|exact H].
Qed.

Record ok_at (total : nat) (c : N) (full : list (proposal * N)) (i : nat) (p : proposal) (s : N) : Prop := MkOkAt {
  oa_add : forall k, added_key p = Some k -> ~ seen full i (fun q _ => added_key q = Some k);
  oa_touched : forall x, touched_leaf p s = Some x -> ~ seen full i (fun q t => touched_leaf q t = Some x);
  oa_committer : touched_leaf p s <> Some c;
  oa_psk : forall x, psk_of p = Some x -> ~ seen full i (fun q _ => psk_of q = Some x);
  oa_written : forall x, psk_of p = Some x -> exists b, se_psk_id x = Ok b;
  oa_gce : is_gce p = true -> ~ seen full i (fun q _ => is_gce q = true);
  oa_reinit : is_reinit p = true -> (total <= 1)%nat;
  oa_external : is_external_init p = false }.

(** What each error reports, in terms of the zipped list. *)
Definition bad_at (e : error) (total : nat) (c : N) (full : list (proposal * N)) : Prop :=
  exists i p s, nth_error full i = Some (p, s) /\
  match e with
  | MultipleAddProposalsHaveTheSameSignatureKey => exists k, added_key p = Some k /\ seen full i (fun q _ => added_key q = Some k)
  | UpdateProposalGeneratedByTheCommitter => exists u, p = PUpdate u /\ s = c
  | RemoveProposalRemovesTheCommitter => p = PRemove (MkRemove c)
  | MultipleUpdateRemoveProposalsApplyToTheSameLeaf => exists x, touched_leaf p s = Some x /\ seen full i (fun q t => touched_leaf q t = Some x)
  | MultiplePSKProposalsReferenceTheSamePSKId => exists x, psk_of p = Some x /\ seen full i (fun q _ => psk_of q = Some x)
  | MultipleGroupContextExtensionsProposals => is_gce p = true /\ seen full i (fun q _ => is_gce q = true)
  | ReinitProposalTogetherWithAnyOtherProposal => (1 < total)%nat /\ is_reinit p = true
  | ExternalInitProposalNotAllowed => is_external_init p = true
  | ProposalsLenNotMatchSendersLen => False
  | _ => exists x, psk_of p = Some x /\ se_psk_id x = Err e
  end.

(** The encoder of PSK ids reports none of the errors of the list check. *)
Definition enc_error (e : error) : Prop :=
  match e with
  | ProposalsLenNotMatchSendersLen | MultipleAddProposalsHaveTheSameSignatureKey | UpdateProposalGeneratedByTheCommitter | RemoveProposalRemovesTheCommitter
  | MultipleUpdateRemoveProposalsApplyToTheSameLeaf | MultiplePSKProposalsReferenceTheSamePSKId | MultipleGroupContextExtensionsProposals
  | ReinitProposalTogetherWithAnyOtherProposal | ExternalInitProposalNotAllowed => False
  | _ => True
  end.
Lemma bind_err {A B} (m : res A) (k : A -> res B) e : bind m k = Err e -> m = Err e \/ exists a, m = Ok a /\ k a = Err e.
Proof. destruct m; cbn; intros H; try discriminate; [right; eauto|left; congruence]. Qed.
Lemma seqw_err x y e : seqw x y = Err e -> x = Err e \/ y = Err e.
Proof. destruct x as [a|e0| |]; cbn; try discriminate; [|intros H; left; exact H]. destruct y; cbn; try discriminate. intros H; right; exact H. Qed.
Lemma opaque_err x e : se_opaque x = Err e -> enc_error e.
Proof.
  unfold se_opaque, se_varint. intros H. repeat match type of H with context [if ?b then _ else _] => destruct b end; cbn in H; try discriminate; injection H as <-; exact I.
Qed.
Lemma psk_err x e : se_psk_id x = Err e -> enc_error e.
Proof.
  unfold se_psk_id. intros H. repeat (apply seqw_err in H as [H|H]); try discriminate; try (apply opaque_err in H; exact H).
  unfold se_psk in H. destruct (pi_psk x); cbn in H; repeat (apply seqw_err in H as [H|H]); try discriminate; try (apply opaque_err in H; exact H).
Qed.

Lemma loop_spec total c full : psks_wf (map fst full) -> forall l pre adds touched psks gce, full = (pre ++ l)%list -> acc_of adds touched psks gce pre ->
  match proposal_loop total c adds touched psks gce l with
  | Ok _ => forall i p s, (length pre <= i)%nat -> nth_error full i = Some (p, s) -> ok_at total c full i p s
  | Err e => bad_at e total c full
  | _ => exists q t x, In (q, t) full /\ psk_of q = Some x /\ forall b, se_psk_id x <> Ok b
  end.
Proof.
  intros WF. induction l as [|[p s] l IH]; intros pre adds touched psks gce E Acc.
  - cbn. intros i p s L N. exfalso. rewrite app_nil_r in E. subst pre. assert (i < length full)%nat by (apply nth_error_Some; congruence). lia.
  - assert (HERE : nth_error full (length pre) = Some (p, s)) by (rewrite E, nth_error_app2, Nat.sub_diag by lia; reflexivity).
    assert (SEEN : forall Q, seen full (length pre) Q <-> exists q t, In (q, t) pre /\ Q q t) by (intros Q; rewrite E; apply seen_In).
    assert (NEXT : full = ((pre ++ [(p, s)]) ++ l)%list) by (rewrite <- app_assoc; exact E).
    assert (CONT : forall o, (psk_of p = None /\ o = None \/ exists x b, psk_of p = Some x /\ se_psk_id x = Ok b /\ o = Some b) ->
      ok_at total c full (length pre) p s ->
      match proposal_loop total c (push (added_key p) adds) (push (touched_leaf p s) touched) (push o psks) (is_gce p || gce)%bool l with
      | Ok _ => forall i p s, (length pre <= i)%nat -> nth_error full i = Some (p, s) -> ok_at total c full i p s
      | Err e => bad_at e total c full
      | _ => exists q t x, In (q, t) full /\ psk_of q = Some x /\ forall b, se_psk_id x <> Ok b
      end).
    { intros o O K. pose proof (IH (pre ++ [(p, s)])%list _ _ _ _ NEXT (acc_step _ _ _ _ _ p s o Acc O)) as R.
      destruct (proposal_loop _ _ _ _ _ _ l); try exact R. intros i q t L N. destruct (Nat.eq_dec i (length pre)) as [->|D].
      - rewrite HERE in N. injection N as <- <-. exact K.
      - apply R; [|exact N]. rewrite app_length. cbn. lia. }
    clear IH NEXT. destruct Acc as [A T K W G]. destruct p as [a|u|m|q|r|x|g]; cbn [proposal_loop].
    + destruct (mem bytes_eqb _ adds) eqn:M.
      * apply (mem_In bytes_eqb bytes_eqb_eq) in M. apply A in M. exists (length pre), (PAdd a), s. split; [exact HERE|]. eexists. split; [reflexivity|]. apply SEEN. exact M.
      * apply (mem_false bytes_eqb bytes_eqb_eq) in M. apply (CONT None); [auto|]. split; cbn; try discriminate; try reflexivity.
        intros k Hk. injection Hk as <-. rewrite SEEN. intros X. apply M, A, X.
    + destruct (N.eqb_spec s c) as [->|D].
      * exists (length pre), (PUpdate u), c. split; [exact HERE|]. eauto.
      * destruct (mem N.eqb s touched) eqn:M.
        -- apply (mem_In N.eqb N.eqb_eq) in M. apply T in M. exists (length pre), (PUpdate u), s. split; [exact HERE|]. exists s. split; [reflexivity|]. apply SEEN. exact M.
        -- apply (mem_false N.eqb N.eqb_eq) in M. apply (CONT None); [auto|]. split; cbn; try discriminate; try reflexivity.
           ++ intros k Hk. injection Hk as <-. rewrite SEEN. intros X. apply M, T, X.
           ++ congruence.
    + destruct m as [m]. cbn [rem_removed]. destruct (N.eqb_spec m c) as [->|D].
      * exists (length pre), (PRemove (MkRemove c)), s. split; [exact HERE|]. reflexivity.
      * destruct (mem N.eqb m touched) eqn:M.
        -- apply (mem_In N.eqb N.eqb_eq) in M. apply T in M. exists (length pre), (PRemove (MkRemove m)), s. split; [exact HERE|]. exists m. split; [reflexivity|]. apply SEEN. exact M.
        -- apply (mem_false N.eqb N.eqb_eq) in M. apply (CONT None); [auto|]. split; cbn; try discriminate; try reflexivity.
           ++ intros k Hk. injection Hk as <-. rewrite SEEN. intros X. apply M, T, X.
           ++ congruence.
    + assert (INF : In (PPreSharedKey q, s) full) by (rewrite E; apply in_or_app; cbn; auto).
      destruct (se_psk_id (pp_psk q)) as [b|e| |] eqn:S; cbn [bind].
      * destruct (mem bytes_eqb b psks) eqn:M.
        -- apply (mem_In bytes_eqb bytes_eqb_eq) in M. apply K in M as (q' & t & x & I & X & SX). exists (length pre), (PPreSharedKey q), s. split; [exact HERE|].
           exists (pp_psk q). split; [reflexivity|]. apply SEEN. exists q', t. split; [exact I|].
           assert (I' : In (q', t) full) by (rewrite E; apply in_or_app; auto).
           rewrite X. f_equal. apply (codec_inj codec_psk_id x (pp_psk q) b).
           ++ apply (WF q'); [|exact X]. exact (in_map fst _ _ I').
           ++ apply (WF (PPreSharedKey q)); [|reflexivity]. exact (in_map fst _ _ INF).
           ++ exact SX.
           ++ exact S.
        -- apply (mem_false bytes_eqb bytes_eqb_eq) in M. apply (CONT (Some b)); [right; exists (pp_psk q), b; auto|]. split; cbn; try discriminate; try reflexivity.
           ++ intros k Hk. injection Hk as <-. rewrite SEEN. intros (q' & t & I & X). apply M, K. exists q', t, (pp_psk q). auto.
           ++ intros k Hk. injection Hk as <-. eauto.
      * pose proof (psk_err _ _ S) as EE. exists (length pre), (PPreSharedKey q), s. split; [exact HERE|].
        destruct e; cbn in EE; try contradiction; (exists (pp_psk q); split; [reflexivity|]; exact S).
      * exists (PPreSharedKey q), s, (pp_psk q). split; [exact INF|]. split; [reflexivity|]. intros b. rewrite S. discriminate.
      * exists (PPreSharedKey q), s, (pp_psk q). split; [exact INF|]. split; [reflexivity|]. intros b. rewrite S. discriminate.
    + destruct (Nat.ltb_spec 1 total) as [L|L].
      * exists (length pre), (PReInit r), s. split; [exact HERE|]. split; [exact L|reflexivity].
      * apply (CONT None); [auto|]. split; cbn; try discriminate; try reflexivity. intros _. lia.
    + exists (length pre), (PExternalInit x), s. split; [exact HERE|]. reflexivity.
    + destruct gce.
      * destruct (proj1 G eq_refl) as (q & t & I & X). exists (length pre), (PGroupContextExtensions g), s. split; [exact HERE|]. split; [reflexivity|]. apply SEEN. eauto.
      * apply (CONT None); [auto|]. split; cbn; try discriminate; try reflexivity. intros _. rewrite SEEN. intros X. apply G in X. discriminate.
Qed.

Lemma at_combine : forall ps senders i p s, at_ ps senders i p s <-> nth_error (combine ps senders) i = Some (p, s).
Proof.
  unfold at_. induction ps as [|q ps IH]; intros [|t senders] [|i] p s; cbn; try (split; [intros [A B]|intros A]; discriminate).
  - split; [intros [A B]; congruence|intros A; split; congruence].
  - apply IH.
Qed.
Lemma map_fst_combine : forall (ps : list proposal) (senders : list N), length ps = length senders -> map fst (combine ps senders) = ps.
Proof. induction ps as [|q ps IH]; intros [|t senders] L; cbn in *; try discriminate; [reflexivity|]. f_equal. apply IH. lia. Qed.
Lemma acc_nil : acc_of [] [] [] false [].
Proof.
  split.
  - intros k. split; [intros []|intros (q & t & [] & _)].
  - intros k. split; [intros []|intros (q & t & [] & _)].
  - intros k. split; [intros []|intros (q & t & x & [] & _)].
  - intros q t x [].
  - split; [discriminate|intros (q & t & [] & _)].
Qed.

Lemma list_spec ps senders c : psks_wf ps ->
  match verify_proposal_list ps senders c with
  | Ok _ => length ps = length senders /\ forall i p s, at_ ps senders i p s -> ok_at (length ps) c (combine ps senders) i p s
  | Err e => reported e ps senders c
  | _ => exists i p s x, at_ ps senders i p s /\ psk_of p = Some x /\ forall b, se_psk_id x <> Ok b
  end.
Proof.
  intros WF. unfold verify_proposal_list. destruct (Nat.eqb_spec (length ps) (length senders)) as [L|L]; cbn [negb]; [|exact L].
  assert (WF' : psks_wf (map fst (combine ps senders))) by (rewrite map_fst_combine by exact L; exact WF).
  pose proof (loop_spec (length ps) c (combine ps senders) WF' (combine ps senders) [] [] [] [] false eq_refl acc_nil) as R.
  destruct (proposal_loop _ _ _ _ _ _ _) as [u|e| |].
  - split; [exact L|]. intros i p s A. apply R; [cbn; lia|]. apply at_combine, A.
  - destruct R as (i & p & s & N & R). apply at_combine in N.
    assert (SEEN : forall Q, seen (combine ps senders) i Q -> exists j q t, i <> j /\ at_ ps senders j q t /\ Q q t).
    { intros Q (j & q & t & J & NJ & H). exists j, q, t. split; [lia|]. split; [apply at_combine, NJ|exact H]. }
    destruct e; cbn; try (destruct R as (x & X & B); exists i, p, s, x; auto).
    + destruct R.
    + destruct R as (k & X & S). apply SEEN in S as (j & q & t & D & B & Y). exists i, j, p, s, q, t, k. auto.
    + destruct R as (u & -> & ->). exists i, u. exact N.
    + destruct R as (k & X & S). apply SEEN in S as (j & q & t & D & B & Y). exists i, j, p, s, q, t, k. auto.
    + subst p. exists i, s. exact N.
    + destruct R as (k & X & S). apply SEEN in S as (j & q & t & D & B & Y). exists i, j, p, s, q, t, k. auto.
    + destruct R as (X & S). apply SEEN in S as (j & q & t & D & B & Y). exists i, j, p, s, q, t. auto.
    + destruct R as (X & S). split; [exact X|]. exists i, p, s. auto.
    + exists i, p, s. auto.
  - destruct R as (q & t & x & I & X & B). apply In_nth_error in I as [i I]. apply at_combine in I. exists i, q, t, x. auto.
  - destruct R as (q & t & x & I & X & B). apply In_nth_error in I as [i I]. apply at_combine in I. exists i, q, t, x. auto.
Qed.
Lemma seen_not ps senders i Q j q t : ~ seen (combine ps senders) i Q -> (j < i)%nat -> at_ ps senders j q t -> ~ Q q t.
Proof. intros N L A H. apply N. exists j, q, t. split; [exact L|]. split; [apply at_combine, A|exact H]. Qed.
Lemma ok_valid ps senders c : length ps = length senders -> (forall i p s, at_ ps senders i p s -> ok_at (length ps) c (combine ps senders) i p s) -> valid_list ps senders c.
Proof.
  intros L H. split.
  - exact L.
  - intros i j p s q t k A B X Y. destruct (Nat.lt_trichotomy i j) as [D|[D|D]]; [|exact D|]; exfalso.
    + exact (seen_not _ _ _ _ _ _ _ (oa_add _ _ _ _ _ _ (H _ _ _ B) k Y) D A X).
    + exact (seen_not _ _ _ _ _ _ _ (oa_add _ _ _ _ _ _ (H _ _ _ A) k X) D B Y).
  - intros i j p s q t k A B X Y. destruct (Nat.lt_trichotomy i j) as [D|[D|D]]; [|exact D|]; exfalso.
    + exact (seen_not _ _ _ _ _ _ _ (oa_touched _ _ _ _ _ _ (H _ _ _ B) k Y) D A X).
    + exact (seen_not _ _ _ _ _ _ _ (oa_touched _ _ _ _ _ _ (H _ _ _ A) k X) D B Y).
  - intros i p s A. exact (oa_committer _ _ _ _ _ _ (H _ _ _ A)).
  - intros i j p s q t k A B X Y. destruct (Nat.lt_trichotomy i j) as [D|[D|D]]; [|exact D|]; exfalso.
    + exact (seen_not _ _ _ _ _ _ _ (oa_psk _ _ _ _ _ _ (H _ _ _ B) k Y) D A X).
    + exact (seen_not _ _ _ _ _ _ _ (oa_psk _ _ _ _ _ _ (H _ _ _ A) k X) D B Y).
  - intros i p s x A X. exact (oa_written _ _ _ _ _ _ (H _ _ _ A) x X).
  - intros i j p s q t A B X Y. destruct (Nat.lt_trichotomy i j) as [D|[D|D]]; [|exact D|]; exfalso.
    + exact (seen_not _ _ _ _ _ _ _ (oa_gce _ _ _ _ _ _ (H _ _ _ B) Y) D A X).
    + exact (seen_not _ _ _ _ _ _ _ (oa_gce _ _ _ _ _ _ (H _ _ _ A) X) D B Y).
  - intros i p s A X. pose proof (oa_reinit _ _ _ _ _ _ (H _ _ _ A) X) as T. destruct A as [A _]. destruct ps as [|p0 [|p1 ps]]; cbn in *; [destruct i; discriminate|reflexivity|lia].
  - intros i p s A. exact (oa_external _ _ _ _ _ _ (H _ _ _ A)).
Qed.
Lemma valid_not_reported e ps senders c : valid_list ps senders c -> ~ reported e ps senders c.
Proof.
  intros [L Ad To Co Ps W G R X]. 
  assert (D : forall (i j : nat), i <> j -> i = j -> False) by (intros; contradiction).
  destruct e; cbn; try (intros (i & p & s & x & A & B & N); destruct (W _ _ _ _ A B) as [b E]; congruence).
  - intros N. exact (N L).
  - intros (i & j & p & s & q & t & k & N & A & B & E & F). exact (N (Ad _ _ _ _ _ _ _ A B E F)).
  - intros (i & u & A). exact (Co _ _ _ A eq_refl).
  - intros (i & j & p & s & q & t & k & N & A & B & E & F). exact (N (To _ _ _ _ _ _ _ A B E F)).
  - intros (i & s & A). exact (Co _ _ _ A eq_refl).
  - intros (i & j & p & s & q & t & k & N & A & B & E & F). exact (N (Ps _ _ _ _ _ _ _ A B E F)).
  - intros (i & j & p & s & q & t & N & A & B & E & F). exact (N (G _ _ _ _ _ _ A B E F)).
  - intros (T & i & p & s & A & E). rewrite (R _ _ _ A E) in T. lia.
  - intros (i & p & s & A & E). rewrite (X _ _ _ A) in E. discriminate.
Qed.
Lemma c48_iff ps senders c : psks_wf ps -> (verify_proposal_list ps senders c = Ok tt <-> valid_list ps senders c).
Proof.
  intros WF. pose proof (list_spec ps senders c WF) as S. split.
  - intros E. rewrite E in S. destruct S as [L H]. exact (ok_valid _ _ _ L H).
  - intros V. destruct (verify_proposal_list ps senders c) as [[]|e| |]; [reflexivity| | |].
    + exfalso. exact (valid_not_reported e _ _ _ V S).
    + exfalso. destruct S as (i & p & s & x & A & X & N). destruct (vl_psk_written _ _ _ V _ _ _ _ A X) as [b B]. exact (N b B).
    + exfalso. destruct S as (i & p & s & x & A & X & N). destruct (vl_psk_written _ _ _ V _ _ _ _ A X) as [b B]. exact (N b B).
Qed.
Lemma c48_reason ps senders c e : psks_wf ps -> verify_proposal_list ps senders c = Err e -> reported e ps senders c.
Proof. intros WF E. pose proof (list_spec ps senders c WF) as S. rewrite E in S. exact S. Qed.


(** ** The first proposal refused *)
Lemma loop_first total c : forall l adds touched psks gce e, proposal_loop total c adds touched psks gce l = Err e ->
  exists l1 x l2, l = (l1 ++ x :: l2)%list /\ proposal_loop total c adds touched psks gce l1 = Ok tt /\ proposal_loop total c adds touched psks gce (l1 ++ [x]) = Err e.
Proof.
  induction l as [|[p s] l IH]; intros adds touched psks gce e H; [discriminate|].
  assert (HERE : proposal_loop total c adds touched psks gce [(p, s)] = Err e ->
    exists l1 x l2, ((p, s) :: l)%list = (l1 ++ x :: l2)%list /\ proposal_loop total c adds touched psks gce l1 = Ok tt /\ proposal_loop total c adds touched psks gce (l1 ++ [x]) = Err e)
    by (intros E; exists [], (p, s), l; split; [reflexivity|split; [reflexivity|exact E]]).
  destruct p as [a|u|m|q|r|x|g]; cbn [proposal_loop] in H, HERE;
    repeat match type of H with (if ?b then _ else _) = _ => destruct b eqn:? end; try (apply HERE; exact H).
  all: try (destruct (se_psk_id (pp_psk q)) as [b|e'| |] eqn:S; cbn [bind] in H, HERE; [|apply HERE; exact H|discriminate|discriminate];
    destruct (mem bytes_eqb b psks) eqn:M; [apply HERE; exact H|]).
  all: apply IH in H as (l1 & y & l2 & -> & A & B); eexists (_ :: l1)%list, y, l2; split; [reflexivity|]; cbn [proposal_loop app];
    try rewrite S; cbn [bind]; repeat match goal with E : ?b = false |- context [if ?b then _ else _] => rewrite E end; auto.
Qed.
(** Only a reinit proposal makes the length of the list matter. *)
Lemma loop_total total total' c : forall l adds touched psks gce, Forall (fun q : proposal * N => is_reinit (fst q) = false) l ->
  proposal_loop total c adds touched psks gce l = proposal_loop total' c adds touched psks gce l.
Proof.
  induction l as [|[p s] l IH]; intros adds touched psks gce F; [reflexivity|]. inversion F as [|q l' X F']; subst. cbn [fst] in X.
  destruct p as [a|u|m|q|r|x|g]; cbn [proposal_loop]; try discriminate X; try reflexivity;
    repeat match goal with |- (if ?b then _ else _) = _ => destruct b; [reflexivity|] end; try (apply IH; exact F').
  destruct (se_psk_id (pp_psk q)) as [b|e'| |]; cbn [bind]; try reflexivity. destruct (mem bytes_eqb b psks); [reflexivity|]. apply IH, F'.
Qed.
Lemma loop_reinit total c : (1 < total)%nat -> forall l adds touched psks gce, proposal_loop total c adds touched psks gce l = Ok tt ->
  Forall (fun q : proposal * N => is_reinit (fst q) = false) l.
Proof.
  intros T. induction l as [|[p s] l IH]; intros adds touched psks gce H; [constructor|].
  destruct p as [a|u|m|q|r|x|g]; cbn [proposal_loop] in H; try discriminate H;
    repeat match type of H with (if ?b then _ else _) = _ => destruct b eqn:?; [discriminate H|] end;
    try (constructor; [reflexivity|exact (IH _ _ _ _ H)]).
  - destruct (se_psk_id (pp_psk q)) as [b|e'| |]; cbn [bind] in H; try discriminate H.
    destruct (mem bytes_eqb b psks); [discriminate H|]. constructor; [reflexivity|exact (IH _ _ _ _ H)].
  - apply Nat.ltb_ge in Heqb. lia.
Qed.
Lemma combine_split : forall (ps : list proposal) (senders : list N) l1 p s l2, length ps = length senders -> combine ps senders = (l1 ++ (p, s) :: l2)%list ->
  at_ ps senders (length l1) p s /\ combine (firstn (length l1) ps) (firstn (length l1) senders) = l1 /\
  combine (firstn (S (length l1)) ps) (firstn (S (length l1)) senders) = (l1 ++ [(p, s)])%list.
Proof.
  intros ps senders l1 p s l2 L E. split; [|split].
  - apply at_combine. rewrite E, nth_error_app2, Nat.sub_diag by lia. reflexivity.
  - rewrite <- combine_firstn, E, firstn_app, Nat.sub_diag, firstn_all. cbn. apply app_nil_r.
  - rewrite <- combine_firstn, E, firstn_app. rewrite (firstn_all2 l1) by lia. replace (S (length l1) - length l1)%nat with 1%nat by lia. reflexivity.
Qed.
Lemma firstn_wf n ps : psks_wf ps -> psks_wf (firstn n ps).
Proof. intros W p x I. apply W. rewrite <- (firstn_skipn n ps). apply in_or_app. left. exact I. Qed.
Lemma verify_firstn n ps senders c total : length ps = length senders ->
  proposal_loop total c [] [] [] false (combine (firstn n ps) (firstn n senders)) =
  proposal_loop (length (firstn n ps)) c [] [] [] false (combine (firstn n ps) (firstn n senders)) ->
  verify_proposal_list (firstn n ps) (firstn n senders) c = proposal_loop total c [] [] [] false (combine (firstn n ps) (firstn n senders)).
Proof.
  intros L E. unfold verify_proposal_list. rewrite !firstn_length, <- L, Nat.eqb_refl. cbn [negb]. rewrite E, firstn_length. reflexivity.
Qed.
Lemma c48_first ps senders c e : psks_wf ps -> length ps = length senders -> verify_proposal_list ps senders c = Err e ->
  exists n, first_refused e ps senders c n.
Proof.
  intros WF L H. unfold verify_proposal_list in H. rewrite L, Nat.eqb_refl in H. cbn [negb] in H. rewrite <- L in H.
  apply loop_first in H as (l1 & [p s] & l2 & E & A & B).
  pose proof (combine_split _ _ _ _ _ _ L E) as (AT & C1 & C2). exists (length l1).
  assert (NR : Forall (fun q : proposal * N => is_reinit (fst q) = false) l1).
  { destruct (Nat.lt_ge_cases 1 (length ps)) as [T|T]; [exact (loop_reinit _ _ T _ _ _ _ _ A)|].
    assert (X : length (combine ps senders) = length ps) by (rewrite combine_length; lia). rewrite E, app_length in X. cbn in X.
    destruct l1; [constructor|cbn in X; lia]. }
  split; [|split].
  - apply c48_iff; [apply firstn_wf, WF|]. rewrite (verify_firstn _ _ _ _ (length ps) L); rewrite C1; [exact A|apply loop_total, NR].
  - intros i q t I AI. apply at_combine in AI. rewrite E, nth_error_app1 in AI by exact I. apply nth_error_In in AI.
    rewrite Forall_forall in NR. exact (NR _ AI).
  - exists p, s. split; [exact AT|]. destruct (is_reinit p) eqn:R.
    + assert (S : forall l adds touched psks gce, proposal_loop (length ps) c adds touched psks gce l = Ok tt -> proposal_loop (length ps) c adds touched psks gce (l ++ [(p, s)]) =
        if (1 <? length ps)%nat then Err ReinitProposalTogetherWithAnyOtherProposal else Ok tt).
      { destruct p; try discriminate R. induction l as [|[q t] l IH]; intros adds touched psks gce X; [reflexivity|].
        destruct q as [a|u|m|q|r'|x|g]; cbn [proposal_loop app] in X |- *; try discriminate X;
          repeat match type of X with (if ?b then _ else _) = _ => destruct b eqn:?; [discriminate X|] end; try (apply IH; exact X).
        destruct (se_psk_id (pp_psk q)) as [b|e'| |]; cbn [bind] in X |- *; try discriminate X. destruct (mem bytes_eqb b psks); [discriminate X|]. apply IH, X. }
      rewrite S in B by exact A. destruct (Nat.ltb_spec 1 (length ps)); [|discriminate B]. injection B as <-. auto.
    + assert (NR' : Forall (fun q : proposal * N => is_reinit (fst q) = false) (l1 ++ [(p, s)])) by (apply Forall_app; split; [exact NR|constructor; [exact R|constructor]]).
      assert (V : verify_proposal_list (firstn (S (length l1)) ps) (firstn (S (length l1)) senders) c = Err e)
        by (rewrite (verify_firstn _ _ _ _ (length ps) L); rewrite C2; [exact B|apply loop_total, NR']).
      pose proof (c48_reason _ _ _ _ (firstn_wf _ _ WF) V) as RE. split; [|exact RE].
      intros ->. destruct RE as (_ & i & q & t & A' & Q). apply at_combine in A'. rewrite C2 in A'. apply nth_error_In in A'.
      rewrite Forall_forall in NR'. specialize (NR' _ A'). cbn in NR'. congruence.
Qed.

Lemma nth_first {A} : forall (l : list A) n i, (i < n)%nat -> nth_error (firstn n l) i = nth_error l i.
Proof. induction l as [|a l IH]; intros [|n] [|i] H; cbn; try reflexivity; try lia. apply IH. lia. Qed.
Lemma at_firstn ps senders n i p s : at_ (firstn n ps) (firstn n senders) i p s <-> (i < n)%nat /\ at_ ps senders i p s.
Proof.
  unfold at_. split.
  - intros [A B]. assert (i < n)%nat as I.
    { assert (X : (i < length (firstn n ps))%nat) by (apply nth_error_Some; congruence). rewrite firstn_length in X. lia. }
    split; [exact I|]. rewrite nth_first in A by exact I. rewrite nth_first in B by exact I. auto.
  - intros [I [A B]]. rewrite (nth_first ps), (nth_first senders) by exact I. auto.
Qed.
(** What is wrong with the last proposal, given it alone. *)
Definition last_wrong (c : N) (p : proposal) (s : N) : error :=
  match p with
  | PAdd _ => MultipleAddProposalsHaveTheSameSignatureKey
  | PUpdate _ => if s =? c then UpdateProposalGeneratedByTheCommitter else MultipleUpdateRemoveProposalsApplyToTheSameLeaf
  | PRemove m => if rem_removed m =? c then RemoveProposalRemovesTheCommitter else MultipleUpdateRemoveProposalsApplyToTheSameLeaf
  | PPreSharedKey q => match se_psk_id (pp_psk q) with Err e => e | _ => MultiplePSKProposalsReferenceTheSamePSKId end
  | PReInit _ => ReinitProposalTogetherWithAnyOtherProposal
  | PExternalInit _ => ExternalInitProposalNotAllowed
  | PGroupContextExtensions _ => MultipleGroupContextExtensionsProposals
  end.
Lemma reported_last ps senders c n p s e : valid_list (firstn n ps) (firstn n senders) c -> at_ ps senders n p s ->
  e <> ReinitProposalTogetherWithAnyOtherProposal -> reported e (firstn (S n) ps) (firstn (S n) senders) c -> e = last_wrong c p s.
Proof.
  intros V AT NE R.
  assert (LE : length (firstn (S n) ps) = length (firstn (S n) senders)).
  { destruct AT as [A B]. assert (n < length ps)%nat by (apply nth_error_Some; congruence). assert (n < length senders)%nat by (apply nth_error_Some; congruence).
    rewrite !firstn_length. lia. }
  assert (W : forall i q t, at_ (firstn (S n) ps) (firstn (S n) senders) i q t -> i = n /\ q = p /\ t = s \/ (i < n)%nat /\ at_ (firstn n ps) (firstn n senders) i q t).
  { intros i q t X. apply at_firstn in X as [I X]. destruct (Nat.eq_dec i n) as [->|D].
    - left. destruct X as [X Y], AT as [X' Y']. split; [reflexivity|]. split; congruence.
    - right. split; [lia|]. apply at_firstn. split; [lia|exact X]. }
  destruct V as [VL Ad To Co Ps Wr G Re X].
  destruct e; cbn in R; try contradiction;
    try (destruct R as (i & q & t & x & A & Q & F); apply W in A as [(-> & -> & ->)|[_ A]]; [|destruct (Wr _ _ _ _ A Q) as [b B]; congruence];
         destruct p; try discriminate Q; injection Q as <-; cbn; rewrite F; reflexivity).
  - destruct R as (i & j & q & t & q' & t' & k & D & A & B & E & F). apply W in A as [(-> & -> & ->)|[_ A]].
    + destruct p; try discriminate E. reflexivity.
    + apply W in B as [(-> & -> & ->)|[_ B]]; [destruct p; try discriminate F; reflexivity|]. destruct (D (Ad _ _ _ _ _ _ _ A B E F)).
  - destruct R as (i & u & A). apply W in A as [(-> & <- & <-)|[_ A]]; [cbn; rewrite N.eqb_refl; reflexivity|]. destruct (Co _ _ _ A eq_refl).
  - destruct R as (i & j & q & t & q' & t' & k & D & A & B & E & F).
    assert (Y : forall i q t, at_ (firstn n ps) (firstn n senders) i q t -> touched_leaf q t = Some k -> touched_leaf p s = Some k ->
      MultipleUpdateRemoveProposalsApplyToTheSameLeaf = last_wrong c p s).
    { intros i0 q0 t0 A0 E0 F0. assert (k <> c) by (intros ->; exact (Co _ _ _ A0 E0)). destruct p as [a|u|m|z|r|x|g]; try discriminate F0; injection F0 as <-; cbn.
      - destruct (N.eqb_spec s c); [contradiction|reflexivity].
      - destruct (N.eqb_spec (rem_removed m) c); [contradiction|reflexivity]. }
    apply W in A as [(-> & -> & ->)|[_ A]].
    + apply W in B as [(-> & _)|[_ B]]; [destruct (D eq_refl)|]. exact (Y _ _ _ B F E).
    + apply W in B as [(-> & -> & ->)|[_ B]]; [exact (Y _ _ _ A E F)|]. destruct (D (To _ _ _ _ _ _ _ A B E F)).
  - destruct R as (i & t & A). apply W in A as [(-> & <- & <-)|[_ A]]; [cbn; rewrite N.eqb_refl; reflexivity|]. destruct (Co _ _ _ A eq_refl).
  - destruct R as (i & j & q & t & q' & t' & k & D & A & B & E & F).
    assert (Y : forall i q t, at_ (firstn n ps) (firstn n senders) i q t -> psk_of q = Some k -> psk_of p = Some k ->
      MultiplePSKProposalsReferenceTheSamePSKId = last_wrong c p s).
    { intros i0 q0 t0 A0 E0 F0. destruct (Wr _ _ _ _ A0 E0) as [b Hb]. destruct p; try discriminate F0. injection F0 as <-. cbn. rewrite Hb. reflexivity. }
    apply W in A as [(-> & -> & ->)|[_ A]].
    + apply W in B as [(-> & _)|[_ B]]; [destruct (D eq_refl)|]. exact (Y _ _ _ B F E).
    + apply W in B as [(-> & -> & ->)|[_ B]]; [exact (Y _ _ _ A E F)|]. destruct (D (Ps _ _ _ _ _ _ _ A B E F)).
  - destruct R as (i & j & q & t & q' & t' & D & A & B & E & F). apply W in A as [(-> & -> & ->)|[_ A]].
    + destruct p; try discriminate E. reflexivity.
    + apply W in B as [(-> & -> & ->)|[_ B]]; [destruct p; try discriminate F; reflexivity|]. destruct (D (G _ _ _ _ _ _ A B E F)).
  - destruct R as (i & q & t & A & E). apply W in A as [(-> & -> & ->)|[_ A]]; [destruct p; try discriminate E; reflexivity|]. rewrite (X _ _ _ A) in E. discriminate.
Qed.
Lemma refused_wrong e ps senders c n : first_refused e ps senders c n -> exists p s, at_ ps senders n p s /\ e = last_wrong c p s.
Proof.
  intros (V & _ & p & s & A & R). exists p, s. split; [exact A|]. destruct (is_reinit p) eqn:Rp.
  - destruct p; try discriminate Rp. destruct R as [-> _]. reflexivity.
  - destruct R as [D R]. exact (reported_last _ _ _ _ _ _ _ V A D R).
Qed.
Lemma refused_before e ps senders c n e' n' : first_refused e ps senders c n -> first_refused e' ps senders c n' -> ~ (n < n')%nat.
Proof.
  intros (V & _ & p & s & A & R) (V' & N' & _) L. rewrite (N' _ _ _ L A) in R. destruct R as [D R].
  assert (PRE : valid_list (firstn (S n) ps) (firstn (S n) senders) c); [|exact (valid_not_reported _ _ _ _ PRE R)].
  assert (W : forall i q t, at_ (firstn (S n) ps) (firstn (S n) senders) i q t -> at_ (firstn n' ps) (firstn n' senders) i q t).
  { intros i q t X. apply at_firstn in X as [I X]. apply at_firstn. split; [lia|exact X]. }
  assert (LE : length (firstn (S n) ps) = length (firstn (S n) senders)).
  { destruct A as [A B]. assert (n < length ps)%nat by (apply nth_error_Some; congruence). assert (n < length senders)%nat by (apply nth_error_Some; congruence).
    rewrite !firstn_length. lia. }
  destruct V' as [VL Ad To Co Ps Wr G Re X]. split; eauto 10.
  intros i q t B Q. apply at_firstn in B as [I B]. rewrite (N' i q t) in Q by (auto; lia). discriminate.
Qed.
Lemma c48_first_unique e ps senders c n e' n' : first_refused e ps senders c n -> first_refused e' ps senders c n' -> e = e' /\ n = n'.
Proof.
  intros H H'. assert (n = n') as <- by (pose proof (refused_before _ _ _ _ _ _ _ H H'); pose proof (refused_before _ _ _ _ _ _ _ H' H); lia).
  split; [|reflexivity]. apply refused_wrong in H as (p & s & [A B] & ->). apply refused_wrong in H' as (p' & s' & [A' B'] & ->). congruence.
Qed.

(** ** needs_path *)
Lemma c49_iff ps : proposal_list_needs_path ps = true <-> ps = [] \/ exists p, In p ps /\ wants_path p.
Proof.
  assert (A : forall ps, any_needs_path ps = true <-> exists p, In p ps /\ wants_path p).
  { induction ps0 as [|p ps0 IH]; cbn; [split; [discriminate|intros (p & [] & _)]|].
    assert (S : (exists q, (p = q \/ In q ps0) /\ wants_path q) <-> wants_path p \/ exists q, In q ps0 /\ wants_path q).
    { split; [intros (q & [->|I] & W); eauto|]. intros [W|(q & I & W)]; eauto. }
    rewrite S, <- IH. destruct p; cbn; tauto. }
  unfold proposal_list_needs_path. destruct ps as [|p ps]; [tauto|]. rewrite A. split; [auto|]. intros [D|X]; [discriminate|exact X].
Qed.

(** ** Welcome PSKs *)
Definition rbb (id : psk_id) : bool := match pi_psk id with PResumption rs => match rs_usage rs with UseReinit | UseBranch => true | _ => false end | _ => false end.
Lemma rbb_iff id : rbb id = true <-> reinit_or_branch id.
Proof.
  unfold rbb, reinit_or_branch. destruct (pi_psk id) as [e|rs]; [split; [discriminate|intros (r & D & _); discriminate]|].
  destruct (rs_usage rs) eqn:U; (split; [intros H|intros (r & D & H)]); try discriminate; try reflexivity; eauto.
  injection D as <-. rewrite U in H. destruct H; discriminate.
Qed.
Lemma count_spec : forall ids n, n + N.of_nat (length ids) < 2147483648 -> count_reinit_branch ids n = Ok (n + N.of_nat (length (filter rbb ids))).
Proof.
  induction ids as [|id ids IH]; intros n L; cbn [count_reinit_branch filter length]; [f_equal; cbn; lia|]. cbn [length] in L.
  change (rbb id) with (match pi_psk id with PResumption rs => match rs_usage rs with UseReinit | UseBranch => true | _ => false end | _ => false end).
  destruct (pi_psk id) as [e|rs]; [apply IH; lia|]. destruct (rs_usage rs); cbn [length]; try (apply IH; lia).
  - destruct (N.eqb_spec n 2147483647); [lia|]. rewrite IH by lia. f_equal. lia.
  - destruct (N.eqb_spec n 2147483647); [lia|]. rewrite IH by lia. f_equal. lia.
Qed.
Lemma at_most_one_filter {A} (f : A -> bool) (Q : A -> Prop) (H : forall x, f x = true <-> Q x) : forall l, (length (filter f l) <= 1)%nat <-> at_most_one Q l.
Proof.
  assert (Z : forall l, length (filter f l) = 0%nat <-> forall x, In x l -> ~ Q x).
  { induction l as [|a l IH]; cbn; [split; [intros _ x []|reflexivity]|]. destruct (f a) eqn:F.
    - split; [discriminate|]. intros N. exfalso. apply (N a); [auto|]. apply H, F.
    - rewrite IH. split; [intros N x [<-|I]; [rewrite <- H; congruence|auto]|auto]. }
  induction l as [|a l IH]; cbn [filter].
  - split; [intros _ [|i] j x y D; discriminate|cbn; lia].
  - destruct (f a) eqn:F.
    + cbn [length]. split.
      * intros L. assert (L0 : length (filter f l) = 0%nat) by lia. rewrite Z in L0. intros [|i] [|j] x y X Y QX QY; cbn in X, Y; [reflexivity| | |].
        -- exfalso. exact (L0 y (nth_error_In _ _ Y) QY).
        -- exfalso. exact (L0 x (nth_error_In _ _ X) QX).
        -- exfalso. exact (L0 x (nth_error_In _ _ X) QX).
      * intros M. assert (L0 : length (filter f l) = 0%nat); [|lia]. apply Z. intros x I QX. apply In_nth_error in I as [i I].
        specialize (M 0%nat (S i) a x eq_refl I (proj1 (H a) F) QX). discriminate.
    + rewrite IH. split.
      * intros M [|i] [|j] x y X Y QX QY; cbn in X, Y; [reflexivity| | |].
        -- exfalso. injection X as <-. apply H in QX. congruence.
        -- exfalso. injection Y as <-. apply H in QY. congruence.
        -- f_equal. exact (M i j x y X Y QX QY).
      * intros M i j x y X Y QX QY. specialize (M (S i) (S j) x y X Y QX QY). lia.
Qed.
Lemma c50_iff s : N.of_nat (length (gs_psk_ids s)) < 2147483648 ->
  exists b, single_reinit_or_branch s = Ok b /\ (b = true <-> at_most_one reinit_or_branch (gs_psk_ids s)).
Proof.
  intros L. unfold single_reinit_or_branch. rewrite count_spec by lia. cbn [bind]. eexists. split; [reflexivity|].
  rewrite <- (at_most_one_filter rbb _ rbb_iff). rewrite N.leb_le. lia.
Qed.

Lemma valid_perm ps senders ps' senders' c : length ps' = length senders' -> Permutation (combine ps senders) (combine ps' senders') ->
  valid_list ps senders c -> valid_list ps' senders' c.
Proof.
  intros L' P V. pose proof (vl_length _ _ _ V) as L. apply Permutation_nth_error in P as [LL [f [Inj F]]].
  assert (AT : forall i p s, at_ ps' senders' i p s -> at_ ps senders (f i) p s) by (intros i p s A; apply at_combine in A; apply at_combine; rewrite <- F; exact A).
  assert (LP : length ps' = length ps) by (rewrite !combine_length in LL; lia).
  destruct V as [_ Ad To Co Ps W G R X]. split.
  - exact L'.
  - intros i j p s q t k A B E E'. apply Inj. exact (Ad _ _ _ _ _ _ _ (AT _ _ _ A) (AT _ _ _ B) E E').
  - intros i j p s q t k A B E E'. apply Inj. exact (To _ _ _ _ _ _ _ (AT _ _ _ A) (AT _ _ _ B) E E').
  - intros i p s A. exact (Co _ _ _ (AT _ _ _ A)).
  - intros i j p s q t k A B E E'. apply Inj. exact (Ps _ _ _ _ _ _ _ (AT _ _ _ A) (AT _ _ _ B) E E').
  - intros i p s x A. exact (W _ _ _ _ (AT _ _ _ A)).
  - intros i j p s q t A B E E'. apply Inj. exact (G _ _ _ _ _ _ (AT _ _ _ A) (AT _ _ _ B) E E').
  - intros i p s A E. rewrite LP. exact (R _ _ _ (AT _ _ _ A) E).
  - intros i p s A. exact (X _ _ _ (AT _ _ _ A)).
Qed.
Lemma psks_wf_perm ps ps' : Permutation ps ps' -> psks_wf ps -> psks_wf ps'.
Proof. intros P W p x I. apply W. exact (Permutation_in _ (Permutation_sym P) I). Qed.
Lemma c48_order ps senders ps' senders' c : psks_wf ps -> length ps = length senders -> length ps' = length senders' ->
  Permutation (combine ps senders) (combine ps' senders') ->
  (verify_proposal_list ps senders c = Ok tt <-> verify_proposal_list ps' senders' c = Ok tt).
Proof.
  intros WF L L' P. assert (WF' : psks_wf ps').
  { apply (psks_wf_perm ps); [|exact WF]. rewrite <- (map_fst_combine ps senders L), <- (map_fst_combine ps' senders' L'). apply Permutation_map, P. }
  rewrite (c48_iff ps senders c WF), (c48_iff ps' senders' c WF'). split; apply valid_perm; auto using Permutation_sym.
Qed.
