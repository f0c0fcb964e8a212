(** Proofs about calls that share the random number generator. *)
From Coq Require Import ZifyBool ZifyNat ZifyN.
From Verif Require Import SpecRand SpecProvider KeyStoreFacts ThreadFacts.
Local Open Scope N_scope.

(** ** Answers to the requests of a call *)

Inductive fed : work -> list bytes -> work -> Prop :=
| fed_nil w : fed w [] w
| fed_cons n k b bs w : N.of_nat (length b) = n -> fed (k b) bs w -> fed (Need n k) (b :: bs) w.
Lemma fed_snoc w bs n k b : fed w bs (Need n k) -> N.of_nat (length b) = n -> fed w (bs ++ [b]) (k b).
Proof.
  intros F L. remember (Need n k) as v. revert Heqv L. induction F as [w|m k' b' bs w L' F IH]; intros -> L.
  - cbn [app]. constructor; [exact L|constructor].
  - cbn [app]. constructor; auto.
Qed.
Lemma fed_end w bs v : fed w bs v -> (forall n k, w <> Need n k) -> bs = [] /\ v = w.
Proof. destruct 1; [auto|]. intros X. destruct (X n k eq_refl). Qed.
Lemma fed_need n k bs v : fed (Need n k) bs v -> bs = [] /\ v = Need n k \/ exists b bs', bs = b :: bs' /\ N.of_nat (length b) = n /\ fed (k b) bs' v.
Proof. inversion 1; subst; [auto|right; eauto]. Qed.

(** The shapes of a call after some answers. *)
Definition shape (P : provider) (q : request) (bs : list bytes) (w : work) : Prop :=
  match w with
  | Need _ _ => True
  | Work t => t = start P (job_of q bs) /\ match q with RBuild _ _ _ _ _ => length bs = 2%nat \/ failed t | _ => True end
  | GotGroup r => exists v cs cred skp id, q = RGroup v cs cred skp id /\ r = group_new (fun _ => Ok (nth 0 bs [])) v cs cred skp id /\ (id = None -> length bs = 1%nat)
  | GotSender d => exists l g, q = RSender l g /\ d = new_sender_data l g (nth 0 bs []) /\ length bs = 1%nat
  end.
Lemma fed_build P b v cs cred skp bs w : let q := RBuild b v cs cred skp in fed (begin P q) bs w ->
  Forall (fun x => N.of_nat (length x) = size_of P q) bs /\ N.of_nat (length bs) * ((size_of P q + 3) / 4) <= words_of P q /\ shape P q bs w.
Proof.
  intros q F. subst q. cbn [begin] in F. unfold begin_build in F.
  assert (FIN : forall r, (forall kp, r <> Ok kp) -> failed (Building (BDone r))) by (intros r N; exists r; auto).
  unfold size_of, words_of.
  destruct (p_sig P cs) as [s|e| |] eqn:S; cbn [wbind] in F;
    try (apply fed_end in F as [-> ->]; [|discriminate]; split; [constructor|]; split; [cbn; lia|]; cbn [shape job_of start]; unfold build_start, key_package_new; rewrite S; cbn;
         split; [reflexivity|]; right; apply FIN; discriminate).
  destruct (scheme_eqb (s_scheme s) (skp_scheme skp)) eqn:EQ; cbn [negb] in F;
    [|apply fed_end in F as [-> ->]; [|discriminate]; split; [constructor|]; split; [cbn; lia|]; cbn [shape job_of start]; unfold build_start, key_package_new; rewrite S; cbn;
      rewrite EQ; cbn; split; [reflexivity|]; right; apply FIN; discriminate].
  destruct (p_hash P cs) as [h|e| |] eqn:H; cbn [wbind] in F;
    try (apply fed_end in F as [-> ->]; [|discriminate]; split; [constructor|]; split; [cbn; lia|]; cbn [shape job_of start]; unfold build_start, key_package_new; rewrite S; cbn;
         rewrite EQ; cbn; rewrite H; cbn; split; [reflexivity|]; right; apply FIN; discriminate).
  apply fed_need in F as [[-> ->]|(b1 & bs1 & -> & L1 & F)]; [split; [constructor|]; split; [cbn; lia|exact I]|].
  destruct (p_hpke P cs) as [k|e| |] eqn:K; cbn [wbind] in F;
    try (apply fed_end in F as [-> ->]; [|discriminate]; split; [repeat constructor; assumption|]; split; [cbn [length]; lia|]; cbn [shape job_of start]; unfold build_start, key_package_new; rewrite S; cbn;
         rewrite EQ; cbn; rewrite H; cbn; rewrite K; cbn; split; [reflexivity|]; right; apply FIN; discriminate).
  destruct (k_derive_key_pair k b1) as [kp|e| |] eqn:D; cbn [wbind] in F;
    try (apply fed_end in F as [-> ->]; [|discriminate]; split; [repeat constructor; assumption|]; split; [cbn [length]; lia|]; cbn [shape job_of start]; unfold build_start, key_package_new; rewrite S; cbn;
         rewrite EQ; cbn; rewrite H; cbn; rewrite K; cbn; rewrite D; cbn; split; [reflexivity|]; right; apply FIN; discriminate).
  apply fed_need in F as [[-> ->]|(b2 & bs2 & -> & L2 & F)]; [split; [repeat constructor; assumption|]; split; [cbn [length]; lia|exact I]|].
  apply fed_end in F as [-> ->]; [|discriminate]. split; [repeat constructor; assumption|]. split; [cbn [length]; lia|]. split; [reflexivity|left; reflexivity].
Qed.
Lemma fed_shape P q bs w : fed (begin P q) bs w ->
  Forall (fun x => N.of_nat (length x) = size_of P q) bs /\ N.of_nat (length bs) * ((size_of P q + 3) / 4) <= words_of P q /\ shape P q bs w.
Proof.
  destruct q as [wl|b v cs cred skp|v cs cred skp [id|]|l g]; [|apply fed_build| | |]; cbn [begin]; intros F.
  - apply fed_end in F as [-> ->]; [|discriminate]. split; [constructor|]. split; [cbn; lia|]. split; [reflexivity|exact I].
  - apply fed_end in F as [-> ->]; [|discriminate]. split; [constructor|]. split; [cbn; lia|]. exists v, cs, cred, skp, (Some id). split; [reflexivity|]. split; [reflexivity|discriminate].
  - apply fed_need in F as [[-> ->]|(i & bs1 & -> & L & F)]; [split; [constructor|]; split; [cbn; lia|exact I]|].
    apply fed_end in F as [-> ->]; [|discriminate]. split; [repeat constructor; exact L|]. split; [cbn; lia|]. exists v, cs, cred, skp, None. split; [reflexivity|]. split; reflexivity.
  - apply fed_need in F as [[-> ->]|(i & bs1 & -> & L & F)]; [split; [constructor|]; split; [cbn; lia|exact I]|].
    apply fed_end in F as [-> ->]; [|discriminate]. split; [repeat constructor; exact L|]. split; [cbn; lia|]. exists l, g. split; [reflexivity|]. split; reflexivity.
Qed.

(** ** The stream *)

Lemma g_read_bytes stream n : forall p, p + N.of_nat n <= 4 * g_period -> g_read stream p n = map (fun i => stream (p + N.of_nat i)) (seq 0 n).
Proof.
  induction n as [|n IH]; intros p L; [reflexivity|]. cbn [g_read seq map]. rewrite N.mod_small by lia. f_equal; [f_equal; lia|].
  rewrite IH by lia. rewrite <- seq_shift, map_map. apply map_ext. intros i. f_equal. lia.
Qed.
Lemma bytes_of_length stream a : N.of_nat (length (bytes_of stream a)) = pt_length a.
Proof. unfold bytes_of. rewrite map_length, seq_length. lia. Qed.
Lemma fill_bytes g used n : g_next g = used mod g_period -> used + (n + 3) / 4 <= g_period ->
  g_fill g n = (MkGenerator (g_stream g) ((used + (n + 3) / 4) mod g_period), bytes_of (g_stream g) (Part (4 * used) n)).
Proof.
  intros E L. unfold g_fill. assert (PZ : g_period <> 0) by (unfold g_period; discriminate). f_equal.
  - f_equal. rewrite E. rewrite N.add_mod_idemp_l by exact PZ. reflexivity.
  - destruct (N.eq_dec n 0) as [->|NZ]; [reflexivity|]. assert (W : 1 <= (n + 3) / 4) by (pose proof (N.div_le_lower_bound (n + 3) 4 1); lia).
    rewrite N.mod_small in E by lia. rewrite E. unfold bytes_of. cbn [pt_start pt_length]. apply g_read_bytes.
    pose proof (N.div_mod (n + 3) 4). pose proof (N.mod_lt (n + 3) 4). lia.
Qed.

(** ** A job that was never run can be exchanged *)

Lemma set_nth_length {A} (l : list A) i x : (i < length l)%nat -> length (set_nth l i x) = length l.
Proof. intros L. unfold set_nth. rewrite app_length, firstn_length. cbn [length]. rewrite skipn_length. lia. Qed.
Lemma exchange_fold P i sched : ~ In i sched -> forall y y',
  fst y = fst y' -> length (snd y) = length (snd y') -> (forall j, j <> i -> nth_error (snd y) j = nth_error (snd y') j) ->
  let z := fold_left (shared_step P) sched y in let z' := fold_left (shared_step P) sched y' in
  fst z = fst z' /\ length (snd z) = length (snd z') /\ (forall j, j <> i -> nth_error (snd z) j = nth_error (snd z') j) /\
  nth_error (snd z') i = nth_error (snd y') i.
Proof.
  induction sched as [|x sched IH]; intros NI y y' E L A; cbn [fold_left]; [auto|].
  assert (XI : x <> i) by (intros ->; apply NI; left; reflexivity).
  assert (NI' : ~ In i sched) by (intros X; apply NI; right; exact X).
  assert (S : fst (shared_step P y x) = fst (shared_step P y' x) /\ length (snd (shared_step P y x)) = length (snd (shared_step P y' x)) /\
    (forall j, j <> i -> nth_error (snd (shared_step P y x)) j = nth_error (snd (shared_step P y' x)) j) /\
    nth_error (snd (shared_step P y' x)) i = nth_error (snd y') i).
  { unfold shared_step. rewrite <- (A x XI). destruct (nth_error (snd y) x) as [t|] eqn:X; [|auto].
    assert (LX : (x < length (snd y))%nat) by (apply nth_error_Some; congruence). assert (LX' : (x < length (snd y'))%nat) by lia.
    rewrite <- E. destruct (task_step P (fst y) t) as [s t']. cbn [fst snd]. rewrite !set_nth_length by assumption. split; [reflexivity|]. split; [exact L|]. split.
    - intros j J. rewrite !set_nth_get by assumption. destruct (Nat.eqb j x); [reflexivity|]. apply A, J.
    - rewrite set_nth_get by assumption. destruct (Nat.eqb_spec i x) as [->|_]; [congruence|reflexivity]. }
  destruct S as (S1 & S2 & S3 & S4). destruct (IH NI' _ _ S1 S2 S3) as (Z1 & Z2 & Z3 & Z4). cbn zeta. rewrite <- S4 in *. auto.
Qed.

(** ** What was given out so far *)

Definition wsum (l : list part) : N := fold_right (fun a n => (pt_length a + 3) / 4 + n) 0 l.
Definition total (own : nat -> list part) (l : list nat) : N := fold_right (fun i n => wsum (own i) + n) 0 l.
Lemma wsum_snoc l a : wsum (l ++ [a]) = wsum l + (pt_length a + 3) / 4.
Proof. induction l as [|x l IH]; cbn [app wsum fold_right]; [lia|]. fold (wsum (l ++ [a])). fold (wsum l). lia. Qed.
Lemma wsum_const l n : Forall (fun a => pt_length a = n) l -> wsum l = N.of_nat (length l) * ((n + 3) / 4).
Proof. induction 1 as [|a l E _ IH]; [reflexivity|]. cbn [wsum fold_right length]. fold (wsum l). rewrite IH, E. lia. Qed.
Lemma total_off own own' l i : ~ In i l -> (forall j, j <> i -> own' j = own j) -> total own' l = total own l.
Proof.
  intros NI A. induction l as [|x l IH]; [reflexivity|]. cbn [total fold_right]. fold (total own' l) (total own l). rewrite IH by (intros X; apply NI; right; exact X).
  rewrite A; [reflexivity|]. intros ->. apply NI. left. reflexivity.
Qed.
Lemma total_upd own own' l i c : NoDup l -> In i l -> (forall j, j <> i -> own' j = own j) -> wsum (own' i) = wsum (own i) + c -> total own' l = total own l + c.
Proof.
  intros D I A W. induction D as [|x l NI D IH]; [destruct I|]. cbn [total fold_right]. fold (total own' l) (total own l). destruct (Nat.eq_dec x i) as [->|N].
  - rewrite W, (total_off own own' l i NI A). lia.
  - rewrite (A x N), IH; [lia|]. destruct I as [X|X]; [congruence|exact X].
Qed.
Lemma total_words P own qs : forall o, (forall i q, nth_error qs i = Some q -> wsum (own (o + i)%nat) <= words_of P q) -> total own (seq o (length qs)) <= words P qs.
Proof.
  induction qs as [|q qs IH]; intros o H; cbn [length seq total fold_right words]; [lia|]. fold (total own (seq (S o) (length qs))). fold (words P qs).
  pose proof (H O q eq_refl) as H0. rewrite Nat.add_0_r in H0. assert (total own (seq (S o) (length qs)) <= words P qs); [|lia].
  apply IH. intros i q' E. specialize (H (S i) q' E). rewrite Nat.add_succ_r in H. exact H.
Qed.

Lemma jobs_of_nth qs ans i : nth_error (jobs_of qs ans) i = option_map (fun q => job_of q (ans i)) (nth_error qs i).
Proof.
  unfold jobs_of. assert (G : forall o, nth_error (map (fun '(i, q) => job_of q (ans i)) (combine (seq o (length qs)) qs)) i = option_map (fun q => job_of q (ans (o + i)%nat)) (nth_error qs i)).
  { revert i. induction qs as [|q qs IH]; intros i o; [destruct i; reflexivity|]. destruct i as [|i]; cbn [length seq combine map nth_error option_map]; [rewrite Nat.add_0_r; reflexivity|].
    rewrite IH, Nat.add_succ_r. reflexivity. }
  exact (G O).
Qed.
Lemma jobs_of_length qs ans : length (jobs_of qs ans) = length qs.
Proof. unfold jobs_of. rewrite map_length, combine_length, seq_length. lia. Qed.

Section Inv.
Context (P : provider) (stream : N -> byte) (s : key_store) (qs : list request).
Definition ans (own : nat -> list part) (i : nat) : list bytes := map (bytes_of stream) (own i).
Record rinv (y : world) (own : nat -> list part) (sched : list nat) (used : N) : Prop := {
  r_stream : g_stream (w_gen y) = stream;
  r_next : g_next (w_gen y) = used mod g_period;
  r_len : length (w_calls y) = length qs;
  r_used : used = total own (seq 0 (length qs));
  r_low : forall i k a, nth_error (own i) k = Some a -> pt_start a + pt_length a <= 4 * used;
  r_apart : forall i k a j l b, nth_error (own i) k = Some a -> nth_error (own j) l = Some b -> (i, k) <> (j, l) -> apart a b;
  r_store : w_store y = fst (run P s (jobs_of qs (ans own)) sched);
  r_calls : forall i q w, nth_error qs i = Some q -> nth_error (w_calls y) i = Some w -> exists w0, fed (begin P q) (ans own i) w0 /\
    match w with
    | Work t => (exists t0, w0 = Work t0) /\ nth_error (snd (run P s (jobs_of qs (ans own)) sched)) i = Some t
    | _ => w = w0 /\ ~ In i sched
    end }.

Lemma own_words own i q w0 : fed (begin P q) (ans own i) w0 -> wsum (own i) <= words_of P q /\ Forall (fun a => pt_length a = size_of P q) (own i).
Proof.
  intros F. destruct (fed_shape P q _ _ F) as (A & B & _). assert (L : Forall (fun a => pt_length a = size_of P q) (own i)).
  { unfold ans in A. rewrite Forall_map in A. eapply Forall_impl; [|exact A]. intros a X. cbn beta in X. rewrite bytes_of_length in X. exact X. }
  split; [|exact L]. rewrite (wsum_const _ _ L). unfold ans in B. rewrite map_length in B. exact B.
Qed.
Lemma run_snoc own sched i : run P s (jobs_of qs (ans own)) (sched ++ [i]) = shared_step P (run P s (jobs_of qs (ans own)) sched) i.
Proof. unfold run. rewrite fold_left_app. reflexivity. Qed.

Lemma rinv_start : rinv (MkWorld (new_generator stream) s (map (begin P) qs)) (fun _ => []) [] 0.
Proof.
  constructor; cbn [w_gen w_store w_calls new_generator g_stream g_next].
  - reflexivity.
  - unfold g_period. rewrite N.mod_0_l; [reflexivity|discriminate].
  - apply map_length.
  - induction (seq 0 (length qs)); [reflexivity|]. cbn [total fold_right]. assumption.
  - intros i [|k] a; discriminate.
  - intros i [|k] a; discriminate.
  - reflexivity.
  - intros i q w Q W. rewrite nth_error_map, Q in W. injection W as <-. exists (begin P q). split; [constructor|].
    destruct (begin P q) as [n k|t|r|d] eqn:B; auto. split; [eauto|]. unfold run. cbn [fold_left snd]. rewrite nth_error_map, jobs_of_nth, Q. cbn [option_map].
    destruct (fed_shape P q [] (Work t)) as (_ & _ & E & _); [rewrite B; constructor|]. cbn [ans map]. rewrite E. reflexivity.
Qed.
Lemma rinv_step y own sched used i : words P qs <= g_period -> rinv y own sched used -> exists own' sched' used', rinv (world_step P y i) own' sched' used'.
Proof.
  intros B R. unfold world_step. destruct (nth_error (w_calls y) i) as [w|] eqn:W; [|eauto].
  assert (LI : (i < length (w_calls y))%nat) by (apply nth_error_Some; congruence).
  destruct (nth_error qs i) as [q|] eqn:Q; [|apply nth_error_None in Q; rewrite (r_len _ _ _ _ R) in LI; lia].
  destruct (r_calls _ _ _ _ R i q w Q W) as (w0 & F & M). destruct w as [n k|t|r|d]; cbn [work_step].
  - destruct M as (<- & NI).
    set (a := Part (4 * used) n). set (own' := fun j => if Nat.eqb j i then own i ++ [a] else own j).
    assert (OI : own' i = own i ++ [a]) by (unfold own'; rewrite Nat.eqb_refl; reflexivity).
    assert (OJ : forall j, j <> i -> own' j = own j) by (intros j D; unfold own'; destruct (Nat.eqb_spec j i); [congruence|reflexivity]).
    assert (F' : fed (begin P q) (ans own' i) (k (bytes_of stream a))).
    { unfold ans. rewrite OI, map_app. apply (fed_snoc _ _ n); [exact F|]. apply bytes_of_length. }
    assert (T : total own' (seq 0 (length qs)) = used + (n + 3) / 4).
    { rewrite (r_used _ _ _ _ R). apply (total_upd own own' _ i); [apply seq_NoDup|apply in_seq; rewrite <- (r_len _ _ _ _ R); lia|exact OJ|]. rewrite OI, wsum_snoc. reflexivity. }
    assert (L : used + (n + 3) / 4 <= g_period).
    { rewrite <- T. etransitivity; [|exact B]. apply total_words. intros j q' Q'. cbn [Nat.add]. destruct (Nat.eq_dec j i) as [->|D].
      - rewrite Q in Q'. injection Q' as <-. exact (proj1 (own_words own' i q _ F')).
      - rewrite (OJ j D). destruct (nth_error (w_calls y) j) as [w'|] eqn:W'; [|apply nth_error_None in W'; rewrite (r_len _ _ _ _ R) in W'; apply nth_error_None in W'; congruence].
        destruct (r_calls _ _ _ _ R j q' w' Q' W') as (w0 & F0 & _). exact (proj1 (own_words own j q' _ F0)). }
    rewrite (fill_bytes _ used n (r_next _ _ _ _ R) L), (r_stream _ _ _ _ R). fold a.
    assert (X : let z := run P s (jobs_of qs (ans own)) sched in let z' := run P s (jobs_of qs (ans own')) sched in
      fst z = fst z' /\ length (snd z) = length (snd z') /\ (forall j, j <> i -> nth_error (snd z) j = nth_error (snd z') j) /\
      nth_error (snd z') i = Some (start P (job_of q (ans own' i)))).
    { cbn zeta. unfold run. destruct (exchange_fold P i sched NI (s, map (start P) (jobs_of qs (ans own))) (s, map (start P) (jobs_of qs (ans own')))) as (X1 & X2 & X3 & X4).
      - reflexivity.
      - cbn [snd]. rewrite !map_length, !jobs_of_length. reflexivity.
      - intros j D. cbn [snd]. rewrite !nth_error_map, !jobs_of_nth. unfold ans. rewrite (OJ j D). reflexivity.
      - split; [exact X1|]. split; [exact X2|]. split; [exact X3|]. rewrite X4. cbn [snd]. rewrite nth_error_map, jobs_of_nth, Q. reflexivity. }
    destruct X as (X1 & _ & X3 & X4). exists own', sched, (used + (n + 3) / 4). constructor; cbn [w_gen w_store w_calls g_stream g_next].
    + reflexivity.
    + reflexivity.
    + rewrite set_nth_length by exact LI. exact (r_len _ _ _ _ R).
    + symmetry. exact T.
    + intros j l b N. destruct (Nat.eq_dec j i) as [->|D]; [|rewrite (OJ j D) in N; pose proof (r_low _ _ _ _ R j l b N); lia].
      rewrite OI in N. apply nth_error_In in N. apply in_app_or in N as [N|[<-|[]]].
      * apply In_nth_error in N as (l' & N). pose proof (r_low _ _ _ _ R i l' b N). lia.
      * cbn [a pt_start pt_length]. pose proof (N.div_mod (n + 3) 4). pose proof (N.mod_lt (n + 3) 4). lia.
    + assert (OLD : forall j l b, nth_error (own' j) l = Some b -> nth_error (own j) l = Some b \/ j = i /\ l = length (own i) /\ b = a).
      { intros j l b N. destruct (Nat.eq_dec j i) as [->|D]; [|rewrite (OJ j D) in N; auto]. rewrite OI in N. destruct (Nat.lt_ge_cases l (length (own i))) as [G|G].
        - rewrite nth_error_app1 in N by exact G. auto.
        - rewrite nth_error_app2 in N by exact G. destruct (l - length (own i))%nat as [|z] eqn:Z; [|destruct z; discriminate]. injection N as <-. right. repeat split. lia. }
      intros j l b j' l' b' N N' NE. apply OLD in N as [N|(-> & -> & ->)]; apply OLD in N' as [N'|(-> & -> & ->)].
      * exact (r_apart _ _ _ _ R _ _ _ _ _ _ N N' NE).
      * left. cbn [a pt_start]. exact (r_low _ _ _ _ R _ _ _ N).
      * right. cbn [a pt_start]. exact (r_low _ _ _ _ R _ _ _ N').
      * congruence.
    + rewrite (r_store _ _ _ _ R). exact X1.
    + intros j q' w' Q' W'. rewrite set_nth_get in W' by exact LI. destruct (Nat.eqb_spec j i) as [->|D].
      * rewrite Q in Q'. injection Q' as <-. injection W' as W'. exists (k (bytes_of stream a)). split; [exact F'|]. destruct (fed_shape P q _ _ F') as (_ & _ & SH).
        destruct (k (bytes_of stream a)) as [m k'|t|r|d]; subst w'; [auto| |auto|auto]. split; [eauto|]. rewrite X4. destruct SH as (-> & _). reflexivity.
      * destruct (r_calls _ _ _ _ R j q' w' Q' W') as (w0 & F0 & M0). exists w0. replace (ans own' j) with (ans own j) by (unfold ans; rewrite (OJ j D); reflexivity). split; [exact F0|].
        destruct w' as [m k'|t|r|d]; [exact M0| |exact M0|exact M0]. rewrite <- (X3 j D). exact M0.
  - destruct M as ((t0 & ->) & Z). destruct (task_step P (w_store y) t) as [s' t'] eqn:T. exists own, (sched ++ [i])%list, used.
    assert (E : run P s (jobs_of qs (ans own)) (sched ++ [i]) = (s', set_nth (snd (run P s (jobs_of qs (ans own)) sched)) i t')).
    { rewrite run_snoc. unfold shared_step. rewrite Z, <- (r_store _ _ _ _ R), T. reflexivity. }
    assert (LZ : (i < length (snd (run P s (jobs_of qs (ans own)) sched)))%nat) by (apply nth_error_Some; congruence).
    constructor; cbn [w_gen w_store w_calls]; try apply R.
    + rewrite set_nth_length by exact LI. exact (r_len _ _ _ _ R).
    + rewrite E. reflexivity.
    + intros j q' w' Q' W'. rewrite set_nth_get in W' by exact LI. rewrite E. cbn [snd]. rewrite set_nth_get by exact LZ. destruct (Nat.eqb_spec j i) as [->|D].
      * injection W' as <-. rewrite Q in Q'. injection Q' as <-. exists (Work t0). split; [exact F|]. split; [eauto|reflexivity].
      * destruct (r_calls _ _ _ _ R j q' w' Q' W') as (w0 & F0 & M0). exists w0. split; [exact F0|].
        assert (NI : forall Z, ~ In j sched -> Z = true -> ~ In j (sched ++ [i])) by (intros _ X _ Y; apply in_app_or in Y as [Y|[Y|[]]]; [exact (X Y)|congruence]).
        destruct w' as [m k'|u|r|d]; [|exact M0| |]; (split; [exact (proj1 M0)|exact (NI true (proj2 M0) eq_refl)]).
  - exists own, sched, used. constructor; cbn [w_gen w_store w_calls]; try apply R.
    + rewrite set_nth_length by exact LI. exact (r_len _ _ _ _ R).
    + intros j q' w' Q' W'. rewrite set_nth_get in W' by exact LI. destruct (Nat.eqb_spec j i) as [->|D]; [injection W' as <-; exact (r_calls _ _ _ _ R i q' _ Q' W)|exact (r_calls _ _ _ _ R j q' w' Q' W')].
  - exists own, sched, used. constructor; cbn [w_gen w_store w_calls]; try apply R.
    + rewrite set_nth_length by exact LI. exact (r_len _ _ _ _ R).
    + intros j q' w' Q' W'. rewrite set_nth_get in W' by exact LI. destruct (Nat.eqb_spec j i) as [->|D]; [injection W' as <-; exact (r_calls _ _ _ _ R i q' _ Q' W)|exact (r_calls _ _ _ _ R j q' w' Q' W')].
Qed.
Lemma rinv_run sched : words P qs <= g_period -> exists own sched' used, rinv (world_run P stream s qs sched) own sched' used.
Proof.
  intros B. unfold world_run. assert (G : forall l y, (exists own sched' used, rinv y own sched' used) -> exists own sched' used, rinv (fold_left (world_step P) l y) own sched' used).
  { induction l as [|i l IH]; intros y (own & sched' & used & R); cbn [fold_left]; [eauto|]. apply IH. exact (rinv_step y own sched' used i B R). }
  apply G. exists (fun _ => []), [], 0. exact rinv_start.
Qed.
End Inv.

(** ** The property *)

Lemma c89_parts P stream s qs schedule : words P qs <= 2 ^ 68 -> exists own : nat -> list part,
  (forall i k a j l b, nth_error (own i) k = Some a -> nth_error (own j) l = Some b -> (i, k) <> (j, l) -> apart a b) /\
  (forall i q a, nth_error qs i = Some q -> In a (own i) -> pt_length a = size_of P q /\ pt_start a + pt_length a <= 4 * words P qs) /\
  came_to P s qs (fun i => map (bytes_of stream) (own i)) (world_run P stream s qs schedule).
Proof.
  intros B. destruct (rinv_run P stream s qs schedule B) as (own & sched & used & R). exists own.
  assert (GET : forall i q, nth_error qs i = Some q -> exists w, nth_error (w_calls (world_run P stream s qs schedule)) i = Some w).
  { intros i q Q. destruct (nth_error (w_calls _) i) eqn:W; [eauto|]. apply nth_error_None in W. rewrite (r_len _ _ _ _ _ _ _ _ R) in W. apply nth_error_None in W. congruence. }
  split; [exact (r_apart _ _ _ _ _ _ _ _ R)|]. split.
  - intros i q a Q A. destruct (GET i q Q) as (w & W). destruct (r_calls _ _ _ _ _ _ _ _ R i q w Q W) as (w0 & F & _).
    destruct (own_words P stream own i q w0 F) as (_ & L). rewrite Forall_forall in L. split; [exact (L a A)|]. apply In_nth_error in A as (l & A).
    pose proof (r_low _ _ _ _ _ _ _ _ R i l a A) as LOW. assert (U : used <= words P qs); [|lia]. rewrite (r_used _ _ _ _ _ _ _ _ R). apply total_words. intros j q' Q'. cbn [Nat.add].
    destruct (GET j q' Q') as (w' & W'). destruct (r_calls _ _ _ _ _ _ _ _ R j q' w' Q' W') as (w1 & F1 & _). exact (proj1 (own_words P stream own j q' w1 F1)).
  - exists sched. cbn zeta. split; [exact (r_store _ _ _ _ _ _ _ _ R)|]. intros i q Q. destruct (GET i q Q) as (w & W). rewrite W.
    destruct (r_calls _ _ _ _ _ _ _ _ R i q w Q W) as (w0 & F & M). destruct (fed_shape P q _ _ F) as (_ & _ & SH). destruct w as [n k|t|r|d].
    + exact I.
    + destruct M as ((t0 & ->) & Z). split; [exact Z|]. destruct SH as (_ & SH). destruct q; [exact I| |exact I|exact I]. destruct SH as [SH|(r & -> & N)]; [left; exact SH|].
      right. destruct (fed_shape P _ _ _ F) as (_ & _ & E & _). assert (X : t = Building (BDone r)); [|rewrite X; exists r; auto].
      revert Z. unfold run. assert (G : forall l z, nth_error (snd z) i = Some (Building (BDone r)) -> nth_error (snd (fold_left (shared_step P) l z)) i = Some (Building (BDone r))).
      { induction l as [|x l IH]; intros z Z; [exact Z|]. cbn [fold_left]. apply IH. unfold shared_step. destruct (nth_error (snd z) x) as [u|] eqn:U; [|exact Z].
        assert (LX : (x < length (snd z))%nat) by (apply nth_error_Some; congruence). destruct (task_step P (fst z) u) as [s' u'] eqn:T. cbn [snd]. rewrite set_nth_get by exact LX.
        destruct (Nat.eqb_spec i x) as [->|D]; [|exact Z]. rewrite Z in U. injection U as <-. cbn in T. congruence. }
      intros Z. rewrite G in Z; [congruence|]. cbn [snd]. rewrite nth_error_map, jobs_of_nth, Q. cbn [option_map]. rewrite E. reflexivity.
    + destruct M as (<- & _). exact SH.
    + destruct M as (<- & _). exact SH.
Qed.
Lemma one_part {A} (f : part -> A) (l : list part) d : length (map f l) = 1%nat -> exists a, l = [a] /\ nth 0 (map f l) d = f a.
Proof. destruct l as [|a [|b l]]; cbn; intros L; try discriminate. eauto. Qed.

Lemma c89_groups P stream s qs schedule i j v cs cred skp v' cs' cred' skp' r r' : words P qs <= 2 ^ 68 -> i <> j ->
  nth_error qs i = Some (RGroup v cs cred skp None) -> nth_error qs j = Some (RGroup v' cs' cred' skp' None) ->
  nth_error (w_calls (world_run P stream s qs schedule)) i = Some (GotGroup r) -> nth_error (w_calls (world_run P stream s qs schedule)) j = Some (GotGroup r') ->
  exists a b, apart a b /\ pt_length a = 16 /\ pt_length b = 16 /\ pt_start a + 16 <= 4 * words P qs /\ pt_start b + 16 <= 4 * words P qs /\
    r = Ok (MkGroup v cs cred (skp_public skp) (bytes_of stream a)) /\ r' = Ok (MkGroup v' cs' cred' (skp_public skp') (bytes_of stream b)).
Proof.
  intros B D Q Q' W W'. destruct (c89_parts P stream s qs schedule B) as (own & A & L & sched & _ & C).
  pose proof (C i _ Q) as X. rewrite W in X. destruct X as (? & ? & ? & ? & ? & E & -> & X). injection E as <- <- <- <- <-. destruct (one_part _ _ [] (X eq_refl)) as (a & OA & ->).
  pose proof (C j _ Q') as X'. rewrite W' in X'. destruct X' as (? & ? & ? & ? & ? & E & -> & X'). injection E as <- <- <- <- <-. destruct (one_part _ _ [] (X' eq_refl)) as (b & OB & ->).
  exists a, b. split; [apply (A i O a j O b); [rewrite OA; reflexivity|rewrite OB; reflexivity|congruence]|].
  assert (LA : In a (own i)) by (rewrite OA; left; reflexivity). assert (LB : In b (own j)) by (rewrite OB; left; reflexivity).
  destruct (L i _ a Q LA) as (PA & SA). destruct (L j _ b Q' LB) as (PB & SB). cbn [size_of] in PA, PB. rewrite PA in SA. rewrite PB in SB. auto 10.
Qed.
Lemma c89_guards P stream s qs schedule i j l g l' g' d d' : words P qs <= 2 ^ 68 -> i <> j ->
  nth_error qs i = Some (RSender l g) -> nth_error qs j = Some (RSender l' g') ->
  nth_error (w_calls (world_run P stream s qs schedule)) i = Some (GotSender d) -> nth_error (w_calls (world_run P stream s qs schedule)) j = Some (GotSender d') ->
  exists a b, apart a b /\ pt_length a = 4 /\ pt_length b = 4 /\ pt_start a + 4 <= 4 * words P qs /\ pt_start b + 4 <= 4 * words P qs /\ d = MkSenderData l g (bytes_of stream a) /\ d' = MkSenderData l' g' (bytes_of stream b).
Proof.
  intros B D Q Q' W W'. destruct (c89_parts P stream s qs schedule B) as (own & A & L & sched & _ & C).
  pose proof (C i _ Q) as X. rewrite W in X. destruct X as (? & ? & E & -> & X). injection E as <- <-. destruct (one_part _ _ [] X) as (a & OA & ->).
  pose proof (C j _ Q') as X'. rewrite W' in X'. destruct X' as (? & ? & E & -> & X'). injection E as <- <-. destruct (one_part _ _ [] X') as (b & OB & ->).
  exists a, b. split; [apply (A i O a j O b); [rewrite OA; reflexivity|rewrite OB; reflexivity|congruence]|].
  assert (LA : In a (own i)) by (rewrite OA; left; reflexivity). assert (LB : In b (own j)) by (rewrite OB; left; reflexivity).
  destruct (L i _ a Q LA) as (PA & SA). destruct (L j _ b Q' LB) as (PB & SB). cbn [size_of] in PA, PB. rewrite PA in SA. rewrite PB in SB. auto 10.
Qed.

Lemma done_makes P s js sched i kp : nth_error (snd (run P s js sched)) i = Some (Building (BDone (Ok kp))) ->
  exists j ekp init, nth_error js i = Some j /\ makes P j kp ekp init.
Proof.
  intros H. destruct (run_ind P s js (fun _ => True) I (fun _ _ _ _ => I) sched) as ((_ & _ & T) & _).
  destruct (T i _ H) as (j & J & K). destruct K as (ekp & init & M). eauto.
Qed.
Lemma package_parts P stream s qs schedule own i b v cs cred skp kp :
  (forall i q a, nth_error qs i = Some q -> In a (own i) -> pt_length a = size_of P q /\ pt_start a + pt_length a <= 4 * words P qs) ->
  came_to P s qs (fun i => map (bytes_of stream) (own i)) (world_run P stream s qs schedule) ->
  nth_error qs i = Some (RBuild b v cs cred skp) -> nth_error (w_calls (world_run P stream s qs schedule)) i = Some (Work (Building (BDone (Ok kp)))) ->
  exists a1 a2, own i = [a1; a2] /\ kp_suite (kp_payload kp) = cs /\ drawn_keys P stream kp a1 a2 /\
    pt_start a1 + pt_length a1 <= 4 * words P qs /\ pt_start a2 + pt_length a2 <= 4 * words P qs.
Proof.
  intros L (sched & _ & C) Q W. pose proof (C i _ Q) as X. rewrite W in X. destruct X as (Z & [N|(r & E & N)]).
  2:{ injection E as <-. exfalso. exact (N kp eq_refl). }
  rewrite map_length in N. destruct (own i) as [|a1 [|a2 [|a3 l]]] eqn:O; try discriminate N. exists a1, a2. split; [reflexivity|].
  destruct (done_makes _ _ _ _ _ _ Z) as (j & ekp & init & J & M). rewrite jobs_of_nth, Q in J. cbn [option_map job_of] in J. injection J as <-. rewrite O in M. cbn [map nth makes] in M.
  apply new_package_ok in M as (leaf & init' & h & k & ikm & PL & _ & H & K & F & D & LF & _). apply Ok_inj in F. subst ikm.
  unfold leaf_node_new in LF. rewrite H, K in LF. cbn [bind] in LF. apply bind_ok in LF as (enc & D2 & LF).
  apply bind_ok in LF as (tbs & _ & LF). apply bind_ok in LF as (sig & _ & LF). apply Ok_inj in LF. injection LF as <- <-.
  unfold drawn_keys. rewrite PL. cbn [kp_suite kp_init_key kp_leaf ln_payload lp_encryption_key]. split; [reflexivity|].
  enough (X : exists h0 k0 init0 enc0, p_hash P cs = Ok h0 /\ p_hpke P cs = Ok k0 /\ pt_length a1 = h_size h0 /\ pt_length a2 = h_size h0 /\ k_derive_key_pair k0 (bytes_of stream a1) = Ok init0 /\
    hkp_public init' = hkp_public init0 /\ k_derive_key_pair k0 (bytes_of stream a2) = Ok enc0 /\ hkp_public enc = hkp_public enc0);
    [split; [exact X|]; split; [apply (L i _ a1 Q)|apply (L i _ a2 Q)]; rewrite O; cbn; auto|]. exists h, k, init', enc. rewrite H, K.
  assert (L1 : pt_length a1 = size_of P (RBuild b v cs cred skp) /\ pt_start a1 + pt_length a1 <= 4 * words P qs) by (apply (L i); [exact Q|rewrite O; cbn; auto]).
  assert (L2 : pt_length a2 = size_of P (RBuild b v cs cred skp) /\ pt_start a2 + pt_length a2 <= 4 * words P qs) by (apply (L i); [exact Q|rewrite O; cbn; auto]). cbn [size_of] in L1, L2. rewrite H in L1, L2. destruct L1 as (L1 & _). destruct L2 as (L2 & _). auto 10.
Qed.
Lemma c89_packages P stream s qs schedule i j b v cs cred skp b' v' cs' cred' skp' kp kp' : words P qs <= 2 ^ 68 -> i <> j ->
  nth_error qs i = Some (RBuild b v cs cred skp) -> nth_error qs j = Some (RBuild b' v' cs' cred' skp') ->
  nth_error (w_calls (world_run P stream s qs schedule)) i = Some (Work (Building (BDone (Ok kp)))) ->
  nth_error (w_calls (world_run P stream s qs schedule)) j = Some (Work (Building (BDone (Ok kp')))) ->
  exists a1 a2 b1 b2, ForallOrdPairs apart [a1; a2; b1; b2] /\ Forall (fun a => pt_start a + pt_length a <= 4 * words P qs) [a1; a2; b1; b2] /\
    drawn_keys P stream kp a1 a2 /\ drawn_keys P stream kp' b1 b2.
Proof.
  intros B D Q Q' W W'. destruct (c89_parts P stream s qs schedule B) as (own & A & L & C).
  destruct (package_parts _ _ _ _ _ _ _ _ _ _ _ _ _ L C Q W) as (a1 & a2 & O & _ & K & S1 & S2). destruct (package_parts _ _ _ _ _ _ _ _ _ _ _ _ _ L C Q' W') as (b1 & b2 & O' & _ & K' & S3 & S4).
  exists a1, a2, b1, b2. split; [|split; [repeat (apply Forall_cons; [assumption|]); apply Forall_nil|auto]].
  assert (G : forall x y k l a b, nth_error (own x) k = Some a -> nth_error (own y) l = Some b -> (x, k) <> (y, l) -> apart a b) by (intros; eapply A; eassumption).
  repeat first [apply FOP_cons|apply FOP_nil|apply Forall_cons|apply Forall_nil].
  - apply (G i i 0 1)%nat; rewrite ?O; auto; congruence.
  - apply (G i j 0 0)%nat; rewrite ?O, ?O'; auto; congruence.
  - apply (G i j 0 1)%nat; rewrite ?O, ?O'; auto; congruence.
  - apply (G i j 1 0)%nat; rewrite ?O, ?O'; auto; congruence.
  - apply (G i j 1 1)%nat; rewrite ?O, ?O'; auto; congruence.
  - apply (G j j 0 1)%nat; rewrite ?O'; auto; congruence.
Qed.
Lemma FOP_cons_inv {A} (R : A -> A -> Prop) x l : ForallOrdPairs R (x :: l) -> Forall (R x) l /\ ForallOrdPairs R l.
Proof. intros H. inversion H. auto. Qed.
Lemma c89_keys P stream s qs schedule i j b v cs cred skp b' v' cred' skp' kp kp' h k : words P qs <= 2 ^ 68 -> i <> j ->
  p_hash P cs = Ok h -> p_hpke P cs = Ok k -> unrepeated stream (4 * words P qs) (h_size h) -> derives_apart k stream (4 * words P qs) (h_size h) ->
  nth_error qs i = Some (RBuild b v cs cred skp) -> nth_error qs j = Some (RBuild b' v' cs cred' skp') ->
  nth_error (w_calls (world_run P stream s qs schedule)) i = Some (Work (Building (BDone (Ok kp)))) ->
  nth_error (w_calls (world_run P stream s qs schedule)) j = Some (Work (Building (BDone (Ok kp')))) ->
  NoDup (package_keys kp ++ package_keys kp').
Proof.
  intros B D H K U V Q Q' W W'. destruct (c89_packages _ _ _ _ _ _ _ _ _ _ _ _ _ _ _ _ _ _ _ B D Q Q' W W') as (a1 & a2 & b1 & b2 & A & S & X & X'). rewrite Forall_forall in S.
  pose proof (S a1 (or_introl eq_refl)) as S1. pose proof (S a2 (or_intror (or_introl eq_refl))) as S2.
  pose proof (S b1 (or_intror (or_intror (or_introl eq_refl)))) as S3. pose proof (S b2 (or_intror (or_intror (or_intror (or_introl eq_refl))))) as S4. clear S.
  destruct (c89_parts P stream s qs schedule B) as (own & _ & L & C).
  destruct (package_parts _ _ _ _ _ _ _ _ _ _ _ _ _ L C Q W) as (_ & _ & _ & CS & _). destruct (package_parts _ _ _ _ _ _ _ _ _ _ _ _ _ L C Q' W') as (_ & _ & _ & CS' & _).
  unfold package_keys. unfold drawn_keys in X, X'. rewrite CS in X. rewrite CS' in X'. clear C L own.
  destruct X as (h1 & k1 & i1 & e1 & E1 & E2 & L1 & L2 & D1 & -> & D2 & ->). destruct X' as (h2 & k2 & i2 & e2 & E3 & E4 & L3 & L4 & D3 & -> & D4 & ->).
  rewrite H in E1, E3. rewrite K in E2, E4. apply Ok_inj in E1, E2, E3, E4. subst h1 h2 k1 k2.
  assert (N : forall x y p q, pt_length x = h_size h -> pt_length y = h_size h -> pt_start x + pt_length x <= 4 * words P qs -> pt_start y + pt_length y <= 4 * words P qs -> apart x y -> k_derive_key_pair k (bytes_of stream x) = Ok p -> k_derive_key_pair k (bytes_of stream y) = Ok q -> hkp_public p <> hkp_public q).
  { intros x y p q Lx Ly Sx Sy Axy Dx Dy E. rewrite Lx in Sx. rewrite Ly in Sy. apply (U x y Lx Ly Sx Sy Axy). exact (V x y p q Lx Ly Sx Sy Dx Dy E). }
  apply FOP_cons_inv in A as (A1 & A). apply FOP_cons_inv in A as (A2 & A). apply FOP_cons_inv in A as (A3 & _).
  rewrite Forall_forall in A1, A2, A3. cbn [app].
  pose proof (N a1 a2 _ _ L1 L2 S1 S2 (A1 a2 (or_introl eq_refl)) D1 D2). pose proof (N a1 b1 _ _ L1 L3 S1 S3 (A1 b1 (or_intror (or_introl eq_refl))) D1 D3).
  pose proof (N a1 b2 _ _ L1 L4 S1 S4 (A1 b2 (or_intror (or_intror (or_introl eq_refl)))) D1 D4). pose proof (N a2 b1 _ _ L2 L3 S2 S3 (A2 b1 (or_introl eq_refl)) D2 D3).
  pose proof (N a2 b2 _ _ L2 L4 S2 S4 (A2 b2 (or_intror (or_introl eq_refl))) D2 D4). pose proof (N b1 b2 _ _ L3 L4 S3 S4 (A3 b2 (or_introl eq_refl)) D3 D4).
  apply NoDup_cons; [cbn; intuition congruence|]. apply NoDup_cons; [cbn; intuition congruence|]. apply NoDup_cons; [cbn; intuition congruence|].
  apply NoDup_cons; [cbn; tauto|constructor].
Qed.

Lemma bundled_hash_size p P cs h : bundled p P -> p_hash P cs = Ok h -> h_size h <= 64.
Proof.
  intros [-> | ->] H; cbn [rust_provider ring_provider p_hash] in H; apply bind_ok in H as (d & _ & H); apply Ok_inj in H; subst h; cbn [bundled_hash h_size];
    destruct (d_hash d); cbn [hash_size]; lia.
Qed.
Lemma c89_bundled p P qs : bundled p P -> N.of_nat (length qs) <= 2 ^ 63 -> words P qs <= 2 ^ 68.
Proof.
  intros B L. assert (G : words P qs <= 32 * N.of_nat (length qs)); [|lia]. clear L. induction qs as [|q qs IH]; [reflexivity|].
  cbn [words fold_right length]. assert (W : words_of P q <= 32); [|unfold words in IH; lia].
  destruct q as [w|b v cs cred skp|v cs cred skp [i|]|l g]; cbn [words_of]; try lia. destruct (p_hash P cs) as [h|e| |] eqn:H; try lia.
  pose proof (bundled_hash_size p P cs h B H). lia.
Qed.
Lemma c89_groups_differ P stream s qs schedule i j v cs cred skp v' cs' cred' skp' g g' : words P qs <= 2 ^ 68 -> i <> j -> unrepeated stream (4 * words P qs) 16 ->
  nth_error qs i = Some (RGroup v cs cred skp None) -> nth_error qs j = Some (RGroup v' cs' cred' skp' None) ->
  nth_error (w_calls (world_run P stream s qs schedule)) i = Some (GotGroup (Ok g)) -> nth_error (w_calls (world_run P stream s qs schedule)) j = Some (GotGroup (Ok g')) ->
  g_group_id g <> g_group_id g'.
Proof.
  intros B D U Q Q' W W'. destruct (c89_groups _ _ _ _ _ _ _ _ _ _ _ _ _ _ _ _ _ B D Q Q' W W') as (a & b & A & L & L' & S & S' & E & E').
  apply Ok_inj in E, E'. subst g g'. cbn. exact (U a b L L' S S' A).
Qed.
