(** Proof library for the codecs: integers, framing combinators, and the four facts proved about every
    encoder / decoder pair (round trip, canonicity, sizing, outcomes). *)
From Verif Require Export Serde.
From Coq Require Export ZifyBool ZifyNat ZifyN.
Ltac Zify.zify_post_hook ::= Z.div_mod_to_equations.
Local Open Scope N_scope.

Arguments N.add : simpl never.
Arguments N.mul : simpl never.
Arguments N.sub : simpl never.
Arguments N.div : simpl never.
Arguments N.modulo : simpl never.
Arguments N.pow : simpl never.

(* ------------------------------------------------------------------------------------------- *)
(** * Outcomes *)

Lemma Ok_inj {A} (a b : A) : Ok a = Ok b -> a = b.
Proof. congruence. Qed.

Lemma bind_ok {A B} (m : res A) (f : A -> res B) b :
  bind m f = Ok b -> exists a, m = Ok a /\ f a = Ok b.
Proof. destruct m; cbn; intros H; try discriminate; eauto. Qed.

Lemma seqw_ok x y p : x +++ y = Ok p -> exists a b, x = Ok a /\ y = Ok b /\ p = a ++ b.
Proof. unfold seqw. destruct x, y; cbn; intros H; try discriminate; inversion H; eauto. Qed.

Lemma seqw_intro x y a b : x = Ok a -> y = Ok b -> x +++ y = Ok (a ++ b).
Proof. intros -> ->; reflexivity. Qed.

(** [safe true r]: the call returned (value or error). [safe false r]: it did not loop for ever. *)
Definition safe {A} (strict : bool) (r : res A) : Prop :=
  match r with Ok _ | Err _ => True | Panic => strict = false | Hang => False end.

Lemma safe_bind {A B} s (m : res A) (f : A -> res B) :
  safe s m -> (forall a, m = Ok a -> safe s (f a)) -> safe s (bind m f).
Proof. destruct m; cbn; intros H K; auto. Qed.

Lemma safe_weaken {A} s (r : res A) : safe true r -> safe s r.
Proof. destruct r; cbn; auto; discriminate. Qed.

Lemma safe_true {A} (r : res A) : safe true r <-> r <> Panic /\ r <> Hang.
Proof. destruct r; cbn; intuition (congruence || auto). Qed.
Lemma safe_false {A} (r : res A) : safe false r <-> r <> Hang.
Proof. destruct r; cbn; intuition (congruence || auto). Qed.

(* ------------------------------------------------------------------------------------------- *)
(** * Bytes and big-endian integers *)

Lemma b2n_lt b : b2n b < 256.
Proof. unfold b2n. pose proof (Byte.to_N_bounded b). lia. Qed.

Lemma b2n_n2b n : b2n (n2b n) = n mod 256.
Proof.
  unfold n2b, b2n. assert (H : n mod 256 < 256) by (apply N.mod_lt; lia).
  destruct (Byte.of_N (n mod 256)) as [b|] eqn:E.
  - apply Byte.to_of_N in E. exact E.
  - apply Byte.of_N_None_iff in E. lia.
Qed.

Lemma n2b_b2n b : n2b (b2n b) = b.
Proof.
  unfold n2b. rewrite N.mod_small by apply b2n_lt. unfold b2n. rewrite Byte.of_to_N. reflexivity.
Qed.

Lemma b2n_inj a b : b2n a = b2n b -> a = b.
Proof. intros H. rewrite <- (n2b_b2n a), <- (n2b_b2n b), H. reflexivity. Qed.

Lemma be_length k n : length (be k n) = k.
Proof. induction k; cbn; congruence. Qed.

Lemma unbe_app acc xs ys : unbe acc (xs ++ ys) = unbe (unbe acc xs) ys.
Proof. revert acc; induction xs; cbn; intros; auto. Qed.

Lemma unbe_acc acc xs : unbe acc xs = acc * 256 ^ N.of_nat (length xs) + unbe 0 xs.
Proof.
  revert acc; induction xs as [|b xs IH]; intros acc; cbn [unbe length].
  - change (N.of_nat 0) with 0. rewrite N.pow_0_r. lia.
  - rewrite IH, (IH (256 * 0 + b2n b)). rewrite Nat2N.inj_succ, N.pow_succ_r'. lia.
Qed.

Lemma unbe_lt xs : unbe 0 xs < 256 ^ N.of_nat (length xs).
Proof.
  induction xs as [|b xs IH]; cbn [unbe length].
  - rewrite N.pow_0_r. lia.
  - rewrite unbe_acc, Nat2N.inj_succ, N.pow_succ_r'. pose proof (b2n_lt b). nia.
Qed.

Lemma pow256_pos k : 0 < 256 ^ k.
Proof. apply N.neq_0_lt_0, N.pow_nonzero. lia. Qed.

Lemma unbe_be k : forall n, unbe 0 (be k n) = n mod 256 ^ N.of_nat k.
Proof.
  induction k as [|k IH]; intros n; cbn [be unbe].
  - change (N.of_nat 0) with 0. rewrite N.pow_0_r, N.mod_1_r. reflexivity.
  - rewrite unbe_acc, be_length, IH, b2n_n2b, Nat2N.inj_succ, N.pow_succ_r'.
    set (m := 256 ^ N.of_nat k). assert (0 < m) by apply pow256_pos.
    rewrite (N.mul_comm 256 m), N.mod_mul_r by lia. nia.
Qed.

Lemma be_mod k : forall n, be k (n mod 256 ^ N.of_nat k) = be k n.
Proof.
  assert (G : forall k j n, (j <= k)%nat -> be j (n mod 256 ^ N.of_nat k) = be j n).
  { clear k. intros k j. induction j as [|j IH]; intros n Hj; cbn [be]; [reflexivity|].
    f_equal; [|apply IH; lia].
    apply b2n_inj. rewrite !b2n_n2b.
    replace (256 ^ N.of_nat k) with (256 ^ N.of_nat j * (256 * 256 ^ (N.of_nat k - N.of_nat j - 1))).
    - set (m := 256 ^ N.of_nat j). set (q := 256 ^ (N.of_nat k - N.of_nat j - 1)).
      assert (0 < m) by apply pow256_pos. assert (0 < q) by apply pow256_pos.
      rewrite N.mod_mul_r by lia.
      rewrite (N.mul_comm m ((n / m) mod _)), N.div_add by lia.
      rewrite N.div_small by (apply N.mod_lt; lia). rewrite N.add_0_l.
      rewrite N.mod_mul_r by lia. rewrite N.add_mod, N.mul_mod by lia.
      rewrite N.mod_same by lia. cbn. rewrite N.mod_0_l, N.add_0_r, !N.mod_mod by lia. reflexivity.
    - rewrite <- N.pow_succ_r', <- N.pow_add_r. f_equal. lia. }
  intros n. apply G. lia.
Qed.

Lemma be_unbe xs : be (length xs) (unbe 0 xs) = xs.
Proof.
  induction xs as [|b xs IH]; cbn [unbe length be]; [reflexivity|].
  rewrite unbe_acc. rewrite N.mul_0_r, N.add_0_l.
  set (m := 256 ^ N.of_nat (length xs)). assert (0 < m) by apply pow256_pos.
  pose proof (unbe_lt xs) as Hlt. fold m in Hlt. f_equal.
  - rewrite N.add_comm, N.div_add, N.div_small, N.add_0_l by lia. apply n2b_b2n.
  - rewrite <- (be_mod _ (b2n b * m + _)). fold m.
    rewrite N.add_comm, N.mod_add, N.mod_small by lia. exact IH.
Qed.

Lemma get_be_app k n rest : get_be k (be k n ++ rest) = Ok (n mod 256 ^ N.of_nat k, rest).
Proof.
  unfold get_be. rewrite app_length, be_length.
  replace (Nat.ltb (k + length rest) k) with false by (symmetry; apply Nat.ltb_ge; lia).
  rewrite firstn_app, skipn_app, be_length, Nat.sub_diag.
  rewrite firstn_all2 by (rewrite be_length; lia). rewrite skipn_all2 by (rewrite be_length; lia).
  cbn [firstn skipn app]. rewrite app_nil_r, unbe_be. reflexivity.
Qed.

Lemma get_be_ok k bs n rest : get_be k bs = Ok (n, rest) -> bs = be k n ++ rest /\ n < 256 ^ N.of_nat k.
Proof.
  unfold get_be. destruct (Nat.ltb_spec (length bs) k) as [L|L]; intros H; [discriminate|].
  inversion H; subst n rest; clear H.
  assert (E : length (firstn k bs) = k) by (apply firstn_length_le; lia).
  split.
  - rewrite <- E at 1. rewrite be_unbe, firstn_skipn. reflexivity.
  - rewrite <- E at 2. apply unbe_lt.
Qed.

Lemma need_ok k bs : (k <= length bs)%nat -> need k bs = Ok tt.
Proof. intros H. unfold need. destruct (Nat.ltb_spec (length bs) k); [lia|reflexivity]. Qed.
Lemma need_inv k bs u : need k bs = Ok u -> (k <= length bs)%nat.
Proof. unfold need. destruct (Nat.ltb_spec (length bs) k); [discriminate|lia]. Qed.
Lemma need_short k bs : (length bs < k)%nat -> need k bs = Err BufferTooSmall.
Proof. intros H. unfold need. destruct (Nat.ltb_spec (length bs) k); [reflexivity|lia]. Qed.
Lemma get_be_short k bs : (length bs < k)%nat -> get_be k bs = Panic.
Proof. intros H. unfold get_be. destruct (Nat.ltb_spec (length bs) k); [reflexivity|lia]. Qed.

Lemma safe_need s k bs : safe s (need k bs).
Proof. unfold need. destruct (Nat.ltb _ _); cbn; auto. Qed.
Lemma safe_get_be s k bs : (k <= length bs)%nat -> safe s (get_be k bs).
Proof. intros H. unfold get_be. destruct (Nat.ltb_spec (length bs) k); [lia|]. cbn; auto. Qed.
Lemma nohang_get_be k bs : safe false (get_be k bs).
Proof. unfold get_be. destruct (Nat.ltb _ _); cbn; auto. Qed.

Lemma pow256_1 : 256 ^ N.of_nat 1 = 256. Proof. reflexivity. Qed.
Lemma pow256_2 : 256 ^ N.of_nat 2 = 65536. Proof. reflexivity. Qed.
Lemma pow256_4 : 256 ^ N.of_nat 4 = 4294967296. Proof. reflexivity. Qed.
Lemma pow256_8 : 256 ^ N.of_nat 8 = 18446744073709551616. Proof. reflexivity. Qed.

(** Ranges of the Rust integer types. *)
Definition is_u8 (n : N) : Prop := n < 256.
Definition is_u16 (n : N) : Prop := n < 65536.
Definition is_u32 (n : N) : Prop := n < 4294967296.
Definition is_u64 (n : N) : Prop := n < 18446744073709551616.

(* ------------------------------------------------------------------------------------------- *)
(** * The facts proved about an encoder/decoder pair *)

(** Round trip with any suffix, and canonicity of everything accepted. *)
Record codec {A} (wf : A -> Prop) (ser : A -> res bytes) (de : bytes -> res (A * bytes)) : Prop := {
  codec_rt : forall a p rest, wf a -> ser a = Ok p -> de (p ++ rest) = Ok (a, rest);
  codec_can : forall bs a rest, de bs = Ok (a, rest) -> wf a /\ exists p, ser a = Ok p /\ bs = p ++ rest }.
Existing Class codec.
Arguments codec_rt {A wf ser de}.
Arguments codec_can {A wf ser de}.

(** No value has an empty encoding. *)
Definition ser_ne {A} (ser : A -> res bytes) : Prop := forall a p, ser a = Ok p -> (1 <= length p)%nat.
Existing Class ser_ne.

(** Outcome of a write: succeeds exactly if [P], else fails with one of the two size errors. *)
Definition size_error (e : error) : Prop :=
  e = VarintExceeds30Bits \/ e = OpaqueSizeExceedsMaximumValueOfU32.
Definition sized (P : Prop) (r : res bytes) : Prop :=
  (P /\ exists p, r = Ok p) \/ (~ P /\ exists e, r = Err e /\ size_error e).
Definition sizing {A} (fits : A -> Prop) (ser : A -> res bytes) : Prop := forall a, sized (fits a) (ser a).
Existing Class sizing.

Definition desafe {A} (s : bool) (de : bytes -> res (A * bytes)) : Prop := forall bs, safe s (de bs).
Existing Class desafe.

Lemma sized_put k n : sized True (Ok (be k n)).
Proof. left; eauto. Qed.
Lemma sized_ok (p : bytes) : sized True (Ok p).
Proof. left; eauto. Qed.
Lemma sized_seq P Q x y : sized P x -> sized Q y -> sized (P /\ Q) (x +++ y).
Proof.
  unfold sized, seqw.
  intros [[p [a ->]]|[p [e [-> He]]]] [[q [b ->]]|[q [f [-> Hf]]]]; cbn; [left|right|right|right];
    (split; [tauto|eauto]).
Qed.
Lemma sized_iff P Q x : (P <-> Q) -> sized P x -> sized Q x.
Proof. unfold sized. tauto. Qed.

Lemma seqw_ne_l x y p n : (forall a, x = Ok a -> (n <= length a)%nat) -> x +++ y = Ok p -> (n <= length p)%nat.
Proof. intros H K. apply seqw_ok in K as (a & b & Hx & Hy & ->). rewrite app_length. apply H in Hx. lia. Qed.

(** Consequences used for C07. *)
Section Consequences.
  Context {A} {wf : A -> Prop} {ser : A -> res bytes} {de : bytes -> res (A * bytes)} (C : codec wf ser de).
  Lemma codec_prefix_free a b p q r s :
    wf a -> wf b -> ser a = Ok p -> ser b = Ok q -> p ++ r = q ++ s -> a = b /\ r = s.
  Proof.
    intros Wa Wb Ha Hb E.
    pose proof (codec_rt C a p r Wa Ha) as H1. pose proof (codec_rt C b q s Wb Hb) as H2.
    rewrite E, H2 in H1. inversion H1. auto.
  Qed.
  Lemma codec_inj a b p : wf a -> wf b -> ser a = Ok p -> ser b = Ok p -> a = b.
  Proof. intros. eapply (codec_prefix_free a b p p [] []); eauto. Qed.
  Lemma codec_no_truncation a p q x : wf a -> ser a = Ok p -> p = q ++ x -> x <> [] ->
    forall b rest, de q <> Ok (b, rest).
  Proof.
    intros Wa Ha E Hx b rest H.
    pose proof (codec_can C _ _ _ H) as (Wb & p' & Hp' & ->).
    rewrite <- app_assoc in E.
    assert (T : p ++ [] = p' ++ (rest ++ x)) by (rewrite app_nil_r; exact E).
    destruct (codec_prefix_free _ _ _ _ _ _ Wa Wb Ha Hp' T) as [_ E2].
    destruct rest; cbn in E2; [congruence|discriminate].
  Qed.
  Lemma codec_progress : ser_ne ser -> forall bs a rest, de bs = Ok (a, rest) -> (length rest < length bs)%nat.
  Proof.
    intros NE bs a rest H. destruct (codec_can C _ _ _ H) as (_ & p & Hp & ->).
    rewrite app_length. apply NE in Hp. lia.
  Qed.
End Consequences.

(* ------------------------------------------------------------------------------------------- *)
(** * Fixed-width integers *)

Lemma codec_be k (bound : N) : bound = 256 ^ N.of_nat k ->
  codec (fun n => n < bound) (fun n => Ok (be k n)) (fun bs => let* _ := need k bs in get_be k bs).
Proof.
  intros ->. split.
  - intros n p rest W H. inversion H; subst p.
    rewrite need_ok by (rewrite app_length, be_length; lia). cbn [bind].
    rewrite get_be_app, N.mod_small by exact W. reflexivity.
  - intros bs n rest H. apply bind_ok in H as (u & _ & H). apply get_be_ok in H as [-> L].
    split; [exact L|eauto].
Qed.

#[export] Instance codec_u8 : codec is_u8 put_u8 read_u8.
Proof. exact (codec_be 1 256 eq_refl). Qed.
#[export] Instance codec_u16 : codec is_u16 put_u16 read_u16.
Proof. exact (codec_be 2 65536 eq_refl). Qed.
#[export] Instance codec_u32 : codec is_u32 put_u32 read_u32.
Proof. exact (codec_be 4 4294967296 eq_refl). Qed.
#[export] Instance codec_u64 : codec is_u64 put_u64 read_u64.
Proof. exact (codec_be 8 18446744073709551616 eq_refl). Qed.

#[export] Instance ne_u8 : ser_ne put_u8. Proof. intros a p H; inversion H; cbn; lia. Qed.
#[export] Instance ne_u16 : ser_ne put_u16. Proof. intros a p H; inversion H; cbn; lia. Qed.
#[export] Instance ne_u32 : ser_ne put_u32. Proof. intros a p H; inversion H; cbn; lia. Qed.
#[export] Instance ne_u64 : ser_ne put_u64. Proof. intros a p H; inversion H; cbn; lia. Qed.

#[export] Instance sizing_u8 : sizing (fun _ => True) put_u8. Proof. intros a. apply sized_put. Qed.
#[export] Instance sizing_u16 : sizing (fun _ => True) put_u16. Proof. intros a. apply sized_put. Qed.
#[export] Instance sizing_u32 : sizing (fun _ => True) put_u32. Proof. intros a. apply sized_put. Qed.
#[export] Instance sizing_u64 : sizing (fun _ => True) put_u64. Proof. intros a. apply sized_put. Qed.

Lemma safe_read k s bs : safe s (let* _ := need k bs in get_be k bs).
Proof.
  apply safe_bind; [apply safe_need|]. intros u H. apply need_inv in H. apply safe_get_be. exact H.
Qed.
#[export] Instance safe_u8 s : desafe s read_u8. Proof. intros bs. apply safe_read. Qed.
#[export] Instance safe_u16 s : desafe s read_u16. Proof. intros bs. apply safe_read. Qed.
#[export] Instance safe_u32 s : desafe s read_u32. Proof. intros bs. apply safe_read. Qed.
#[export] Instance safe_u64 s : desafe s read_u64. Proof. intros bs. apply safe_read. Qed.

Lemma get_u16_app v rest : is_u16 v -> get_u16 (be 2 v ++ rest) = Ok (v, rest).
Proof. intros H. unfold get_u16. rewrite get_be_app, N.mod_small; [reflexivity|exact H]. Qed.
Lemma get_u32_app v rest : is_u32 v -> get_u32 (be 4 v ++ rest) = Ok (v, rest).
Proof. intros H. unfold get_u32. rewrite get_be_app, N.mod_small; [reflexivity|exact H]. Qed.
Lemma get_u64_app v rest : is_u64 v -> get_u64 (be 8 v ++ rest) = Ok (v, rest).
Proof. intros H. unfold get_u64. rewrite get_be_app, N.mod_small; [reflexivity|exact H]. Qed.
Lemma get_u16_ok bs v rest : get_u16 bs = Ok (v, rest) -> bs = be 2 v ++ rest /\ is_u16 v.
Proof. intros H. exact (get_be_ok _ _ _ _ H). Qed.
Lemma get_u32_ok bs v rest : get_u32 bs = Ok (v, rest) -> bs = be 4 v ++ rest /\ is_u32 v.
Proof. intros H. exact (get_be_ok _ _ _ _ H). Qed.
Lemma get_u64_ok bs v rest : get_u64 bs = Ok (v, rest) -> bs = be 8 v ++ rest /\ is_u64 v.
Proof. intros H. exact (get_be_ok _ _ _ _ H). Qed.

(* ------------------------------------------------------------------------------------------- *)
(** * Variable-length integers *)

Lemma lor_add_pow a b k : b < 2 ^ k -> N.lor (N.shiftl a k) b = a * 2 ^ k + b.
Proof.
  intros H. rewrite <- N.shiftl_mul_pow2.
  apply N.bits_inj. intros i. symmetry.
  rewrite <- N.lxor_lor.
  - rewrite N.add_nocarry_lxor; [reflexivity|].
    apply N.bits_inj. intros j. rewrite N.land_spec, N.bits_0.
    destruct (N.lt_ge_cases j k).
    + rewrite N.shiftl_spec_low by lia. reflexivity.
    + replace (N.testbit b j) with false; [apply andb_false_r|].
      symmetry. destruct (N.eq_dec b 0) as [->|Hb]; [apply N.bits_0|].
      apply N.bits_above_log2. apply N.log2_lt_pow2; [lia|].
      eapply N.lt_le_trans; [exact H|]. apply N.pow_le_mono_r; lia.
  - apply N.bits_inj. intros j. rewrite N.land_spec, N.bits_0.
    destruct (N.lt_ge_cases j k).
    + rewrite N.shiftl_spec_low by lia. reflexivity.
    + replace (N.testbit b j) with false; [apply andb_false_r|].
      symmetry. destruct (N.eq_dec b 0) as [->|Hb]; [apply N.bits_0|].
      apply N.bits_above_log2. apply N.log2_lt_pow2; [lia|].
      eapply N.lt_le_trans; [exact H|]. apply N.pow_le_mono_r; lia.
Qed.

(** [se_varint] without bit operations. *)
Lemma se_varint_eq n :
  se_varint n =
  if n <? 64 then Ok (be 1 n) else
  if n <? 16384 then Ok (be 2 (16384 + n)) else
  if n <? 1073741824 then Ok (be 4 (2147483648 + n)) else Err VarintExceeds30Bits.
Proof.
  unfold se_varint, put_u8, put_u16, put_u32.
  change (N.shiftl 1 6) with 64. change (N.shiftl 1 14) with 16384 at 1.
  change (N.shiftl 1 30) with 1073741824 at 1.
  destruct (N.ltb_spec n 64); [reflexivity|].
  destruct (N.ltb_spec n 16384) as [L|_]; [|destruct (N.ltb_spec n 1073741824) as [L|_]; [|reflexivity]].
  - rewrite lor_add_pow by exact L. reflexivity.
  - rewrite lor_add_pow; [reflexivity|]. change (2 ^ 30) with 1073741824. exact L.
Qed.

Lemma read_u8_cons b r : read_u8 (b :: r) = Ok (b2n b, r).
Proof. reflexivity. Qed.
Lemma read_u8_nil : read_u8 [] = Err BufferTooSmall.
Proof. reflexivity. Qed.

Lemma varint_tail_app k : forall v bs rest, (length bs = k)%nat ->
  varint_tail k v (bs ++ rest) = Ok (unbe v bs, rest).
Proof.
  induction k as [|k IH]; intros v bs rest H; destruct bs as [|b bs]; try discriminate; cbn [varint_tail]; [reflexivity|].
  cbn [app]. rewrite read_u8_cons. cbn [bind]. rewrite N.shiftl_mul_pow2, IH by (cbn in H; lia). cbn [unbe].
  change (2 ^ 8) with 256. rewrite N.mul_comm. reflexivity.
Qed.

Lemma varint_tail_ok k : forall v bs n rest, varint_tail k v bs = Ok (n, rest) ->
  exists xs, length xs = k /\ bs = xs ++ rest /\ n = unbe v xs.
Proof.
  induction k as [|k IH]; intros v bs n rest H; cbn [varint_tail] in H.
  - inversion H; subst. exists []. auto.
  - destruct bs as [|b bs]; [rewrite read_u8_nil in H; discriminate|].
    rewrite read_u8_cons in H. cbn [bind] in H.
    apply IH in H as (xs & L & -> & ->). exists (b :: xs). cbn [length app unbe].
    rewrite N.shiftl_mul_pow2. change (2 ^ 8) with 256. rewrite N.mul_comm. auto.
Qed.

(** [de_varint] without bit operations: one case per prefix. *)
Lemma de_varint_cons b r :
  de_varint (b :: r) =
  if b2n b <? 64 then Ok (b2n b, r) else
  if b2n b <? 128 then
    let* (v, r) := varint_tail 1 (b2n b - 64) r in
    if v <? 64 then Err MinimumEncodingWasNotUsed else Ok (v, r) else
  if b2n b <? 192 then
    let* (v, r) := varint_tail 3 (b2n b - 128) r in
    if v <? 16384 then Err MinimumEncodingWasNotUsed else Ok (v, r)
  else Err InvalidVariableLengthIntegerPrefix.
Proof.
  unfold de_varint. rewrite read_u8_cons. cbn [bind].
  rewrite N.shiftr_div_pow2. change (2 ^ 6) with 64.
  change 63 with (N.ones 6). rewrite N.land_ones. change (2 ^ 6) with 64.
  pose proof (b2n_lt b) as Hb. set (x := b2n b) in *. clearbody x.
  destruct (N.ltb_spec x 64).
  { replace (x / 64) with 0 by lia. replace (x mod 64) with x by lia. reflexivity. }
  destruct (N.ltb_spec x 128).
  { replace (x / 64) with 1 by lia. replace (x mod 64) with (x - 64) by lia. reflexivity. }
  destruct (N.ltb_spec x 192).
  { replace (x / 64) with 2 by lia. replace (x mod 64) with (x - 128) by lia. reflexivity. }
  replace (x / 64) with 3 by lia. reflexivity.
Qed.

#[export] Instance codec_varint : codec (fun n => n < 1073741824) se_varint de_varint.
Proof.
  split.
  - intros n p rest W H. rewrite se_varint_eq in H.
    destruct (N.ltb_spec n 64) as [L1|L1];
      [|destruct (N.ltb_spec n 16384) as [L2|L2]; [|destruct (N.ltb_spec n 1073741824) as [L3|L3]; [|lia]]];
      apply Ok_inj in H; subst p.
    + change (be 1 n) with [n2b (n / 1)]. cbn [app]. rewrite de_varint_cons, b2n_n2b.
      replace (n / 1) with n by lia. rewrite N.mod_small by lia.
      destruct (N.ltb_spec n 64); [reflexivity|lia].
    + pose proof (unbe_be 2 (16384 + n)) as U. rewrite pow256_2, N.mod_small in U by lia.
      set (q := 16384 + n) in *.
      change (be 2 q) with (n2b (q / 256) :: be 1 q) in *.
      cbn [app]. rewrite de_varint_cons, b2n_n2b. rewrite (N.mod_small (q / 256)) by lia.
      destruct (N.ltb_spec (q / 256) 64); [lia|]. destruct (N.ltb_spec (q / 256) 128); [|lia].
      rewrite varint_tail_app by apply be_length. cbn [bind].
      replace (unbe (q / 256 - 64) (be 1 q)) with n.
      * destruct (N.ltb_spec n 64); [lia|reflexivity].
      * cbn [unbe] in U. rewrite unbe_acc, be_length, pow256_1, b2n_n2b, (N.mod_small (q / 256)) in U by lia.
        rewrite unbe_acc, be_length, pow256_1. lia.
    + pose proof (unbe_be 4 (2147483648 + n)) as U. rewrite pow256_4, N.mod_small in U by lia.
      set (q := 2147483648 + n) in *.
      change (be 4 q) with (n2b (q / 16777216) :: be 3 q) in *.
      cbn [app]. rewrite de_varint_cons, b2n_n2b. rewrite (N.mod_small (q / 16777216)) by lia.
      destruct (N.ltb_spec (q / 16777216) 64); [lia|]. destruct (N.ltb_spec (q / 16777216) 128); [lia|].
      destruct (N.ltb_spec (q / 16777216) 192); [|lia].
      rewrite varint_tail_app by apply be_length. cbn [bind].
      replace (unbe (q / 16777216 - 128) (be 3 q)) with n.
      * destruct (N.ltb_spec n 16384); [lia|reflexivity].
      * cbn [unbe] in U. rewrite unbe_acc, be_length, b2n_n2b, (N.mod_small (q / 16777216)) in U by lia.
        rewrite unbe_acc, be_length. change (256 ^ N.of_nat 3) with 16777216 in *. lia.
  - intros bs n rest H. destruct bs as [|b r]; [discriminate|].
    rewrite de_varint_cons in H. pose proof (b2n_lt b) as Hb.
    destruct (N.ltb_spec (b2n b) 64) as [L1|L1];
      [|destruct (N.ltb_spec (b2n b) 128) as [L2|L2]; [|destruct (N.ltb_spec (b2n b) 192) as [L3|L3]; [|discriminate]]].
    + inversion H; subst n rest. split; [lia|]. exists [b].
      rewrite se_varint_eq. destruct (N.ltb_spec (b2n b) 64); [|lia]. split; [|reflexivity].
      rewrite <- (be_unbe [b]). reflexivity.
    + apply bind_ok in H as ([v r'] & Ht & H). apply varint_tail_ok in Ht as (xs & Lx & -> & ->).
      destruct (N.ltb_spec (unbe (b2n b - 64) xs) 64) as [L3|L3]; inversion H; subst n rest; clear H.
      pose proof (be_unbe (b :: xs)) as U. cbn [length unbe] in U. rewrite Lx in U.
      pose proof (unbe_lt xs) as Hlt. rewrite Lx, pow256_1 in Hlt.
      rewrite unbe_acc, Lx, pow256_1 in U. rewrite unbe_acc, Lx, pow256_1 in L3 |- *.
      split; [lia|]. exists (b :: xs). split; [|reflexivity].
      rewrite se_varint_eq.
      destruct (N.ltb_spec ((b2n b - 64) * 256 + unbe 0 xs) 64); [lia|].
      destruct (N.ltb_spec ((b2n b - 64) * 256 + unbe 0 xs) 16384); [|lia].
      rewrite <- U. do 2 f_equal. lia.
    + apply bind_ok in H as ([v r'] & Ht & H). apply varint_tail_ok in Ht as (xs & Lx & -> & ->).
      destruct (N.ltb_spec (unbe (b2n b - 128) xs) 16384) as [L4|L4]; inversion H; subst n rest; clear H.
      pose proof (be_unbe (b :: xs)) as U. cbn [length unbe] in U. rewrite Lx in U.
      pose proof (unbe_lt xs) as Hlt. rewrite Lx in Hlt. change (256 ^ N.of_nat 3) with 16777216 in Hlt.
      rewrite unbe_acc, Lx in U. rewrite unbe_acc, Lx in L4 |- *. change (256 ^ N.of_nat 3) with 16777216 in *.
      split; [lia|]. exists (b :: xs). split; [|reflexivity].
      rewrite se_varint_eq. set (y := unbe 0 xs) in *.
      destruct (N.ltb_spec ((b2n b - 128) * 16777216 + y) 64); [lia|].
      destruct (N.ltb_spec ((b2n b - 128) * 16777216 + y) 16384); [lia|].
      destruct (N.ltb_spec ((b2n b - 128) * 16777216 + y) 1073741824); [|lia].
      rewrite <- U. do 2 f_equal. lia.
Qed.

#[export] Instance ne_varint : ser_ne se_varint.
Proof.
  intros n p H. rewrite se_varint_eq in H.
  destruct (n <? 64), (n <? 16384), (n <? 1073741824); inversion H; cbn; lia.
Qed.

#[export] Instance sizing_varint : sizing (fun n => n < 1073741824) se_varint.
Proof.
  intros n. rewrite se_varint_eq.
  destruct (N.ltb_spec n 64); [left; split; [lia|eauto]|].
  destruct (N.ltb_spec n 16384); [left; split; [lia|eauto]|].
  destruct (N.ltb_spec n 1073741824); [left; split; [lia|eauto]|].
  right. split; [lia|]. eexists; split; [reflexivity|left; reflexivity].
Qed.

Lemma safe_varint_tail s k : forall v bs, safe s (varint_tail k v bs).
Proof.
  induction k as [|k IH]; intros v bs; cbn [varint_tail]; [cbn; auto|].
  apply safe_bind; [apply safe_u8|]. intros [b r] _. apply IH.
Qed.
#[export] Instance safe_varint s : desafe s de_varint.
Proof.
  intros bs. unfold de_varint. apply safe_bind; [apply safe_u8|]. intros [b r] _.
  destruct (_ =? 3); [cbn; auto|]. apply safe_bind; [apply safe_varint_tail|].
  intros [v r'] _. destruct (_ && _); cbn; auto.
Qed.

(* ------------------------------------------------------------------------------------------- *)
(** * Opaque byte strings, vectors, options *)

Definition short (v : bytes) : Prop := N.of_nat (length v) < 1073741824.

Lemma copy_app (v rest : bytes) : copy_to_bytes (N.of_nat (length v)) (v ++ rest) = Ok (v, rest).
Proof.
  unfold copy_to_bytes. rewrite app_length, Nat2N.id.
  destruct (N.ltb_spec (N.of_nat (length v + length rest)) (N.of_nat (length v))); [lia|].
  rewrite firstn_app, skipn_app, Nat.sub_diag, firstn_all, skipn_all. cbn. rewrite app_nil_r. reflexivity.
Qed.
Lemma copy_ok n bs v rest : copy_to_bytes n bs = Ok (v, rest) -> bs = v ++ rest /\ N.of_nat (length v) = n.
Proof.
  unfold copy_to_bytes. destruct (N.ltb_spec (N.of_nat (length bs)) n) as [L|L]; intros H; [discriminate|].
  inversion H; subst. rewrite firstn_skipn. split; [reflexivity|].
  rewrite firstn_length_le by lia. lia.
Qed.

Lemma se_opaque_eq v :
  se_opaque v = if 1073741824 <=? N.of_nat (length v)
                then if 4294967295 <=? N.of_nat (length v) then Err OpaqueSizeExceedsMaximumValueOfU32
                     else Err VarintExceeds30Bits
                else se_varint (N.of_nat (length v)) +++ Ok v.
Proof.
  unfold se_opaque. change (2 ^ 32 - 1) with 4294967295.
  destruct (N.leb_spec 4294967295 (N.of_nat (length v))), (N.leb_spec 1073741824 (N.of_nat (length v)));
    try reflexivity; try lia.
  rewrite se_varint_eq.
  destruct (N.ltb_spec (N.of_nat (length v)) 64); [lia|].
  destruct (N.ltb_spec (N.of_nat (length v)) 16384); [lia|].
  destruct (N.ltb_spec (N.of_nat (length v)) 1073741824); [lia|]. reflexivity.
Qed.

Lemma se_opaque_ok v p : se_opaque v = Ok p -> short v /\ exists h, se_varint (N.of_nat (length v)) = Ok h /\ p = h ++ v.
Proof.
  rewrite se_opaque_eq. unfold short.
  destruct (N.leb_spec 1073741824 (N.of_nat (length v))) as [L|L].
  - destruct (_ <=? _); discriminate.
  - intros H. split; [lia|]. apply seqw_ok in H as (h & b & Hh & Hb & ->). inversion Hb; subst. eauto.
Qed.
Lemma se_opaque_short v : short v -> exists h, se_varint (N.of_nat (length v)) = Ok h /\ se_opaque v = Ok (h ++ v).
Proof.
  unfold short. intros S. rewrite se_opaque_eq.
  destruct (N.leb_spec 1073741824 (N.of_nat (length v))); [lia|].
  destruct (sizing_varint (N.of_nat (length v))) as [[_ [h E]]|[K _]]; [|lia].
  exists h. rewrite E. split; reflexivity.
Qed.

#[export] Instance codec_opaque : codec (fun _ => True) se_opaque de_opaque.
Proof.
  split.
  - intros v p rest _ H. apply se_opaque_ok in H as (S & h & Hh & ->).
    unfold de_opaque. rewrite <- app_assoc, (codec_rt codec_varint _ _ _ S Hh). cbn [bind].
    rewrite app_length.
    destruct (N.ltb_spec (N.of_nat (length v + length rest)) (N.of_nat (length v))); [lia|].
    apply copy_app.
  - intros bs v rest H. split; [trivial|]. unfold de_opaque in H.
    apply bind_ok in H as ([n r] & Hn & H).
    apply (codec_can codec_varint) in Hn as (W & h & Hh & ->).
    destruct (_ <? n); [discriminate|]. apply copy_ok in H as [-> <-].
    destruct (se_opaque_short v) as (h' & Hh' & E); [exact W|].
    assert (h = h') by congruence. subst. rewrite app_assoc. eauto.
Qed.

#[export] Instance ne_opaque : ser_ne se_opaque.
Proof.
  intros v p H. apply se_opaque_ok in H as (_ & h & Hh & ->). apply ne_varint in Hh. rewrite app_length. lia.
Qed.

#[export] Instance sizing_opaque : sizing short se_opaque.
Proof.
  intros v. rewrite se_opaque_eq. unfold short, size_error.
  destruct (N.leb_spec 1073741824 (N.of_nat (length v))).
  - right. split; [lia|]. destruct (_ <=? _); eexists; (split; [reflexivity|unfold size_error; auto]).
  - left. split; [lia|]. destruct (sizing_varint (N.of_nat (length v))) as [[_ [h E]]|[K _]]; [|lia].
    rewrite E. cbn. eauto.
Qed.

Lemma safe_copy s n bs : (n <= N.of_nat (length bs)) -> safe s (copy_to_bytes n bs).
Proof. intros H. unfold copy_to_bytes. destruct (N.ltb_spec (N.of_nat (length bs)) n); [lia|cbn; auto]. Qed.

#[export] Instance safe_opaque s : desafe s de_opaque.
Proof.
  intros bs. unfold de_opaque. apply safe_bind; [apply safe_varint|]. intros [n r] _.
  destruct (N.ltb_spec (N.of_nat (length r)) n); [cbn; auto|]. apply safe_copy. lia.
Qed.

(** Vectors. *)
Section Vector.
  Context {A} {wf : A -> Prop} {ser : A -> res bytes} {de : bytes -> res (A * bytes)}.

  Lemma vec_loop_rt (C : codec wf ser de) (NE : ser_ne ser) : forall l p fuel,
    Forall wf l -> se_elems ser l = Ok p -> (length p <= fuel)%nat -> vec_loop de fuel p = Ok l.
  Proof.
    induction l as [|a l IH]; intros p fuel W H F; cbn [se_elems] in H.
    - inversion H; subst. destruct fuel; reflexivity.
    - apply seqw_ok in H as (x & y & Hx & Hy & ->). inversion W as [|? ? Wa Wl]; subst.
      pose proof (NE _ _ Hx) as Lx. rewrite app_length in F.
      destruct x as [|b x]; [cbn in Lx; lia|].
      destruct fuel as [|fuel]; [cbn in F; lia|].
      pose proof (codec_rt C a (b :: x) y Wa Hx) as E. cbn [app] in E |- *. cbn [vec_loop].
      rewrite E. cbn [bind]. rewrite (IH y fuel Wl Hy) by (cbn in F; lia). reflexivity.
  Qed.

  Lemma vec_loop_can (C : codec wf ser de) : forall fuel p l,
    vec_loop de fuel p = Ok l -> Forall wf l /\ se_elems ser l = Ok p.
  Proof.
    induction fuel as [|fuel IH]; intros p l H; destruct p as [|b p]; cbn [vec_loop] in H;
      try discriminate H; try (inversion H; subst; split; [constructor|reflexivity]).
    apply bind_ok in H as ([a r] & Ha & H). apply bind_ok in H as (l' & Hl & H). inversion H; subst.
    apply (codec_can C) in Ha as (Wa & x & Hx & E). apply IH in Hl as [Wl Hl].
    split; [constructor; assumption|]. cbn [se_elems]. rewrite E. apply seqw_intro; assumption.
  Qed.

  Lemma codec_vector_gen : codec wf ser de -> ser_ne ser -> codec (Forall wf) (se_vector ser) (de_vector de).
  Proof.
    intros C NE. split.
    - intros l p rest W H. unfold se_vector in H. apply bind_ok in H as (raw & Hraw & H).
      apply se_opaque_ok in H as (S & h & Hh & ->).
      unfold de_vector. rewrite <- app_assoc, (codec_rt codec_varint _ _ _ S Hh). cbn [bind].
      rewrite app_length.
      destruct (N.ltb_spec (N.of_nat (length raw + length rest)) (N.of_nat (length raw))); [lia|].
      rewrite copy_app. cbn [bind]. rewrite (vec_loop_rt C NE l raw) by (auto; lia). reflexivity.
    - intros bs l rest H. unfold de_vector in H. apply bind_ok in H as ([n r] & Hn & H).
      apply (codec_can codec_varint) in Hn as (W & h & Hh & ->).
      destruct (_ <? n); [discriminate|]. apply bind_ok in H as ([v r'] & Hv & H).
      apply copy_ok in Hv as [-> <-]. apply bind_ok in H as (l' & Hl & H). inversion H; subst.
      apply (vec_loop_can C) in Hl as [Wl Hl]. split; [exact Wl|].
      destruct (se_opaque_short v) as (h' & Hh' & E); [exact W|].
      assert (h = h') by congruence. subst. unfold se_vector. rewrite Hl. cbn [bind]. rewrite app_assoc. eauto.
  Qed.

  Lemma ne_vector_gen : ser_ne (se_vector ser).
  Proof. intros l p H. unfold se_vector in H. apply bind_ok in H as (raw & _ & H). apply ne_opaque in H. exact H. Qed.

  Lemma safe_vec_loop s (C : codec wf ser de) (NE : ser_ne ser) : desafe s de ->
    forall fuel bs, (length bs <= fuel)%nat -> safe s (vec_loop de fuel bs).
  Proof.
    intros S. induction fuel as [|fuel IH]; intros [|b bs] L; cbn [vec_loop]; try (cbn; auto; fail).
    - cbn in L. lia.
    - apply safe_bind; [apply S|]. intros [a r] H. apply safe_bind; [|intros; cbn; auto].
      apply IH. pose proof (codec_progress C NE _ _ _ H). lia.
  Qed.
  Lemma safe_vector_gen s : codec wf ser de -> ser_ne ser -> desafe s de -> desafe s (de_vector de).
  Proof.
    intros C NE S bs. unfold de_vector. apply safe_bind; [apply safe_varint|]. intros [n r] _.
    destruct (N.ltb_spec (N.of_nat (length r)) n); [cbn; auto|].
    apply safe_bind; [apply safe_copy; lia|]. intros [v r'] _.
    apply safe_bind; [|intros; cbn; auto]. apply (safe_vec_loop s C NE S). lia.
  Qed.
End Vector.

(** A list fits if its elements do and their concatenated encodings are shorter than 2^30 bytes. *)
Definition fits_list {A} (fits : A -> Prop) (ser : A -> res bytes) (l : list A) : Prop :=
  Forall fits l /\ forall p, se_elems ser l = Ok p -> short p.

Lemma sized_elems {A} (fits : A -> Prop) (ser : A -> res bytes) :
  sizing fits ser -> forall l, sized (Forall fits l) (se_elems ser l).
Proof.
  intros S. induction l as [|a l IH]; cbn [se_elems].
  - left. split; [constructor|eauto].
  - eapply sized_iff; [|apply sized_seq; [apply S|apply IH]].
    split; [intros [? ?]; constructor; assumption|]. intros H. inversion H; auto.
Qed.

Lemma sizing_vector_gen {A} (fits : A -> Prop) (ser : A -> res bytes) :
  sizing fits ser -> sizing (fits_list fits ser) (se_vector ser).
Proof.
  intros S l. unfold se_vector, fits_list.
  destruct (sized_elems fits ser S l) as [[F [p Hp]]|[F [e [He Se]]]].
  - rewrite Hp. cbn [bind]. eapply sized_iff; [|apply sizing_opaque]. split.
    + intros H. split; [exact F|]. intros q Hq. congruence.
    + intros [_ H]. auto.
  - rewrite He. cbn [bind]. right. split; [tauto|eauto].
Qed.

#[export] Instance codec_vector {A} wf (ser : A -> res bytes) de :
  codec wf ser de -> ser_ne ser -> codec (Forall wf) (se_vector ser) (de_vector de).
Proof. apply codec_vector_gen. Qed.
#[export] Instance ne_vector {A} (ser : A -> res bytes) : ser_ne (se_vector ser).
Proof. apply ne_vector_gen. Qed.
#[export] Instance sizing_vector {A} fits (ser : A -> res bytes) :
  sizing fits ser -> sizing (fits_list fits ser) (se_vector ser).
Proof. apply sizing_vector_gen. Qed.

(** Options. *)
Definition opt_P {A} (P : A -> Prop) (o : option A) : Prop := match o with Some a => P a | None => True end.

#[export] Instance codec_optflag : codec (fun _ => True) se_optflag de_optflag.
Proof.
  split.
  - intros [|] p rest _ H; inversion H; subst; reflexivity.
  - intros bs b rest H. split; [trivial|]. unfold de_optflag in H. apply bind_ok in H as ([v r] & Hv & H).
    apply (codec_can codec_u8) in Hv as (_ & p & Hp & ->).
    destruct (N.eqb_spec v 0); [|destruct (N.eqb_spec v 1); [|discriminate]]; inversion H; subst; eauto.
Qed.
#[export] Instance safe_optflag s : desafe s de_optflag.
Proof.
  intros bs. apply safe_bind; [apply safe_u8|]. intros [v r] _. destruct (v =? 0), (v =? 1); cbn; auto.
Qed.
#[export] Instance codec_option {A} wf (ser : A -> res bytes) de :
  codec wf ser de -> codec (opt_P wf) (se_option ser) (de_option de).
Proof.
  intros C. split.
  - intros [a|] p rest W H; cbn [se_option] in H.
    + apply seqw_ok in H as (x & y & Hx & Hy & ->). unfold de_option. rewrite <- app_assoc.
      rewrite (codec_rt codec_optflag true x _ I Hx). cbn [bind]. rewrite (codec_rt C a y rest W Hy). reflexivity.
    + unfold de_option. rewrite (codec_rt codec_optflag false p _ I H). reflexivity.
  - intros bs o rest H. unfold de_option in H. apply bind_ok in H as ([b r] & Hb & H).
    apply (codec_can codec_optflag) in Hb as (_ & x & Hx & ->). destruct b.
    + apply bind_ok in H as ([a r'] & Ha & H). inversion H; subst.
      apply (codec_can C) in Ha as (W & y & Hy & ->). split; [exact W|].
      exists (x ++ y). split; [apply seqw_intro; assumption|apply app_assoc].
    + inversion H; subst. split; [exact I|eauto].
Qed.
#[export] Instance ne_option {A} (ser : A -> res bytes) : ser_ne (se_option ser).
Proof.
  intros [a|] p H; cbn [se_option] in H.
  - eapply seqw_ne_l; [|exact H]. intros x Hx. inversion Hx. cbn. lia.
  - inversion H. cbn. lia.
Qed.
#[export] Instance sizing_option {A} fits (ser : A -> res bytes) :
  sizing fits ser -> sizing (opt_P fits) (se_option ser).
Proof.
  intros S [a|]; cbn [se_option opt_P].
  - eapply sized_iff; [|apply sized_seq; [apply (sized_put 1)|apply S]]. tauto.
  - apply (sized_put 1).
Qed.
#[export] Instance safe_option {A} s (de : bytes -> res (A * bytes)) : desafe s de -> desafe s (de_option de).
Proof.
  intros S bs. apply safe_bind; [apply safe_optflag|]. intros [[|] r] _; [|cbn; auto].
  apply safe_bind; [apply S|]. intros [a r'] _. cbn; auto.
Qed.

#[export] Instance safe_vector {A} s wf (ser : A -> res bytes) de :
  codec wf ser de -> ser_ne ser -> desafe s de -> desafe s (de_vector de).
Proof. apply safe_vector_gen. Qed.
