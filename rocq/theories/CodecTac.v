(** Tactics for the codec proofs. *)
From Verif Require Export WireWF.
Local Open Scope N_scope.

(* ------------------------------------------------------------------------------------------- *)
(** * Code points *)

Ltac small_n v := destruct v as [|v]; [reflexivity|]; do 8 (try reflexivity; destruct v as [v|v|]; try reflexivity).

Lemma cipher_suite_u16 v : u16_of_cipher_suite (cipher_suite_of_u16 v) = v. Proof. small_n v. Qed.
Lemma credential_type_u16 v : u16_of_credential_type (credential_type_of_u16 v) = v. Proof. small_n v. Qed.
Lemma version_u16 v : u16_of_version (version_of_u16 v) = v. Proof. small_n v. Qed.
Lemma extension_type_u16 v : u16_of_extension_type (extension_type_of_u16 v) = v. Proof. small_n v. Qed.
Lemma proposal_type_u16 v : u16_of_proposal_type (proposal_type_of_u16 v) = v. Proof. small_n v. Qed.
#[export] Hint Rewrite cipher_suite_u16 credential_type_u16 version_u16 extension_type_u16 proposal_type_u16 : u16.

(* ------------------------------------------------------------------------------------------- *)
(** * Tactics *)

Arguments seqw : simpl never.
Arguments put_u8 : simpl never.
Arguments put_u16 : simpl never.
Arguments put_u32 : simpl never.
Arguments put_u64 : simpl never.
Arguments read_u8 : simpl never.
Arguments read_u16 : simpl never.
Arguments read_u32 : simpl never.
Arguments read_u64 : simpl never.
Arguments get_u16 : simpl never.
Arguments get_u32 : simpl never.
Arguments get_u64 : simpl never.
Arguments need : simpl never.
Arguments se_opaque : simpl never.
Arguments de_opaque : simpl never.
Arguments se_vector : simpl never.
Arguments de_vector : simpl never.
Arguments se_option : simpl never.
Arguments de_option : simpl never.

Ltac aliases := unfold de_secret_key, se_secret_key, de_identity, se_identity, de_certificate, se_certificate,
  de_key_package_ref, se_key_package_ref in *.

Lemma put_u16_len v p : put_u16 v = Ok p -> length p = 2%nat.
Proof. intros H; inversion H; reflexivity. Qed.
Lemma put_u32_len v p : put_u32 v = Ok p -> length p = 4%nat.
Proof. intros H; inversion H; reflexivity. Qed.
Lemma put_u64_len v p : put_u64 v = Ok p -> length p = 8%nat.
Proof. intros H; inversion H; reflexivity. Qed.
Lemma get_u16_rt v p rest : is_u16 v -> put_u16 v = Ok p -> get_u16 (p ++ rest) = Ok (v, rest).
Proof. intros W H. apply Ok_inj in H; subst. apply get_u16_app, W. Qed.
Lemma get_u32_rt v p rest : is_u32 v -> put_u32 v = Ok p -> get_u32 (p ++ rest) = Ok (v, rest).
Proof. intros W H. apply Ok_inj in H; subst. apply get_u32_app, W. Qed.
Lemma get_u64_rt v p rest : is_u64 v -> put_u64 v = Ok p -> get_u64 (p ++ rest) = Ok (v, rest).
Proof. intros W H. apply Ok_inj in H; subst. apply get_u64_app, W. Qed.

Ltac split_seq :=
  repeat match goal with
  | H : _ +++ _ = Ok _ |- _ =>
      let a := fresh "q" in let b := fresh "q" in let Ha := fresh "Hq" in let Hb := fresh "Hq" in
      let E := fresh "E" in
      apply seqw_ok in H as (a & b & Ha & Hb & E); subst
  | H : Ok [] = Ok _ |- _ => apply Ok_inj in H; subst
  end.

Ltac split_wf :=
  repeat match goal with
  | H : _ /\ _ |- _ => destruct H
  | H : from_u16 _ _ |- _ => let v := fresh "v" in let Hv := fresh "Hv" in destruct H as (v & Hv & H); subst
  end.

Lemma opt_P_T {A} (o : option A) : opt_P (fun _ => True) o.
Proof. destruct o; exact I. Qed.
#[export] Hint Resolve opt_P_T : core.
Ltac solve_wf := first [assumption | solve [auto] | exact I | reflexivity | (unfold is_u8, is_u16; reflexivity) | idtac ].

Ltac need_len :=
  rewrite ?app_length;
  repeat match goal with
  | H : put_u16 _ = Ok ?p |- context [length ?p] => rewrite (put_u16_len _ _ H)
  | H : put_u32 _ = Ok ?p |- context [length ?p] => rewrite (put_u32_len _ _ H)
  | H : put_u64 _ = Ok ?p |- context [length ?p] => rewrite (put_u64_len _ _ H)
  end;
  repeat match goal with
  | H : ?S ?a = Ok ?q |- context [length ?q] =>
      lazymatch goal with
      | L : (1 <= length q)%nat |- _ => fail
      | _ => pose proof ((_ : ser_ne S) a q H)
      end
  end; lia.

(** One decoding step on an input that starts with a known encoding. *)
Ltac rt_step :=
  cbn [bind];
  match goal with
  | H : put_u16 ?a = Ok ?q |- context [get_u16 (?q ++ ?R)] =>
      rewrite (get_u16_rt a q R) by (first [exact H | solve_wf])
  | H : put_u32 ?a = Ok ?q |- context [get_u32 (?q ++ ?R)] =>
      rewrite (get_u32_rt a q R) by (first [exact H | solve_wf])
  | H : put_u64 ?a = Ok ?q |- context [get_u64 (?q ++ ?R)] =>
      rewrite (get_u64_rt a q R) by (first [exact H | solve_wf])
  | H : ?S ?a = Ok ?q |- context [bind (?D (?q ++ ?R)) _] =>
      rewrite (codec_rt (_ : codec _ _ D) a q R) by (first [exact H | solve_wf])
  | |- context [need ?k ?bs] => rewrite (need_ok k bs) by need_len
  end; cbn [bind].

Ltac rt_done := cbn; autorewrite with u16; reflexivity.

Ltac can_step H :=
  match type of H with
  | bind (need _ _) _ = Ok _ => let u := fresh "u" in let N := fresh "N" in apply bind_ok in H as (u & N & H)
  | bind (get_u16 _) _ = Ok _ =>
      let K := fresh "K" in let W := fresh "W" in
      apply bind_ok in H as ([? ?] & K & H); apply get_u16_ok in K as [K W]; subst
  | bind (get_u32 _) _ = Ok _ =>
      let K := fresh "K" in let W := fresh "W" in
      apply bind_ok in H as ([? ?] & K & H); apply get_u32_ok in K as [K W]; subst
  | bind (get_u64 _) _ = Ok _ =>
      let K := fresh "K" in let W := fresh "W" in
      apply bind_ok in H as ([? ?] & K & H); apply get_u64_ok in K as [K W]; subst
  | bind (?D _) _ = Ok _ =>
      let K := fresh "K" in apply bind_ok in H as ([? ?] & K & H);
      let W := fresh "W" in let p := fresh "p" in let Hp := fresh "Hp" in
      apply (codec_can (_ : codec _ _ D)) in K as (W & p & Hp & K); subst
  end.

Ltac seq_intro :=
  repeat (match goal with
  | |- _ +++ _ = Ok _ => eapply seqw_intro
  | |- _ = Ok _ => first [ eassumption | reflexivity ]
  end).

Ltac can_done H :=
  apply Ok_inj in H; injection H as; subst;
  split;
  [ cbn in *; repeat (first [assumption | match goal with |- _ /\ _ => split end]); unfold any; try solve [trivial | assumption | (eexists; split; [|reflexivity]; assumption)]
  | eexists; split; [ cbn; autorewrite with u16; seq_intro | rewrite <- ?app_assoc; reflexivity ] ].

Tactic Notation "record_codec" reference(wf) reference(se) reference(de) :=
  split;
  [ let a := fresh "a" in let W := fresh "W" in let H := fresh "H" in
    intros a p rest W H; unfold wf in W; unfold se in H; unfold de; aliases; destruct a; cbn in W, H; split_wf;
    autorewrite with u16 in H; split_seq; rewrite <- ?app_assoc; repeat rt_step; rt_done
  | let H := fresh "H" in
    intros bs a rest H; unfold de in H; unfold wf, se; aliases; repeat can_step H; can_done H ].

Ltac sized_step :=
  match goal with
  | |- sized _ (_ +++ _) => eapply sized_seq
  | |- sized _ (put_u8 _) => eapply (sized_put 1)
  | |- sized _ (put_u16 _) => eapply (sized_put 2)
  | |- sized _ (put_u32 _) => eapply (sized_put 4)
  | |- sized _ (put_u64 _) => eapply (sized_put 8)
  | |- sized _ (Ok _) => eapply sized_ok
  | |- sized _ (?S ?a) => refine ((_ : sizing _ S) a)
  end.
Tactic Notation "record_sizing" reference(fits) reference(se) :=
  intros a; unfold fits, se; aliases; destruct a; cbn;
  (eapply sized_iff; [|repeat sized_step]); unfold any; tauto.
Tactic Notation "ne_first" reference(se) :=
  intros a p H; unfold se in H; aliases;
  eapply seqw_ne_l; [|exact H]; intros x Hx; exact ((_ : ser_ne _) _ _ Hx).

Ltac safe_step :=
  match goal with
  | |- safe _ (bind (need _ _) _) => apply safe_bind; [apply safe_need|intros ? ?]
  | |- safe _ (bind _ _) => apply safe_bind; [|intros [? ?] ?]
  | |- safe _ (Ok _) => exact I
  | |- safe _ (Err _) => exact I
  | |- safe _ (?D ?bs) => refine ((_ : desafe _ D) bs)
  end.

Tactic Notation "record_safe" reference(de) := intros bs; unfold de; aliases; repeat safe_step.

Ltac u8_cases H :=
  repeat (match type of H with context [match ?v with _ => _ end] => destruct v end; try discriminate H).

(** Sums: a tag, then one alternative. *)
Tactic Notation "sum_codec" reference(wf) reference(se) reference(de) :=
  split;
  [ let a := fresh "a" in let W := fresh "W" in let H := fresh "H" in
    intros a p rest W H; unfold wf in W; unfold se in H; unfold de; aliases; destruct a; cbn in W, H; aliases; split_wf;
    split_seq; rewrite <- ?app_assoc; repeat rt_step; solve [rt_done | rewrite ?app_nil_l; rt_done]
  | let H := fresh "H" in
    intros bs a rest H; unfold de in H; unfold wf, se; aliases; repeat can_step H;
    u8_cases H; repeat can_step H; can_done H ].
Tactic Notation "sum_safe" reference(de) :=
  intros bs; unfold de; aliases;
  repeat first [ safe_step | match goal with |- safe _ (need _ _) => apply safe_need end
               | match goal with |- context [match ?v with _ => _ end] => destruct v end ].
Tactic Notation "sum_sizing" reference(fits) reference(se) :=
  intros a; unfold fits, se; aliases; destruct a; cbn; aliases;
  (eapply sized_iff; [|repeat sized_step]); unfold any; tauto.

(** Tag bytes. *)
Tactic Notation "tag_codec" reference(d) :=
  split;
  [ let a := fresh "a" in intros a p rest _ H; destruct a; inversion H; subst; reflexivity
  | intros bs a rest H; split; [exact I|]; unfold d in H; can_step H;
    u8_cases H;
    apply Ok_inj in H; injection H as; subst; eexists; (split; [eassumption|reflexivity]) ].
Tactic Notation "tag_safe" reference(d) :=
  intros bs; unfold d; apply safe_bind; [refine ((_ : desafe _ _) bs)|];
  intros [v r] _; destruct v as [|v]; [exact I|]; do 4 (try exact I; destruct v as [v|v|]; try exact I).

