(** Proofs about decoding errors (SpecFaults.v). *)
From Coq Require Import Lia.
From Verif Require Import CodecLib WireCodecs TreeCodec LayoutFacts StreamFacts SpecFaults.
From Coq.Strings Require Import Byte.
Local Open Scope N_scope.
Existing Class truthful.

Lemma fault_app e p pre f post : fault e pre f post -> fault e (p ++ pre) f post.
Proof.
  destruct e; cbn; try exact (fun H => H). intros (C & [E|(q & c & ->)]); split; auto. right. exists (p ++ q), c. rewrite <- !app_assoc. reflexivity.
Qed.

Lemma t_ok {A} (g : bytes -> A) : truthful (fun bs => Ok (g bs)). Proof. intros bs e H. discriminate. Qed.
Lemma t_panic {A} : truthful (fun _ => @Panic A). Proof. intros bs e H. discriminate. Qed.
Lemma t_ext {A} (f g : bytes -> res A) : (forall bs, f bs = g bs) -> truthful f -> truthful g.
Proof. intros E T bs e H. rewrite <- E in H. destruct (T bs e H) as (p & x & q & -> & F & S). exists p, x, q. repeat split; auto. intros q' L. rewrite <- E. auto. Qed.

(** Sequences. *)
Lemma t_bind {A B} (wf : A -> Prop) ser (de : bytes -> res (A * bytes)) (k : A * bytes -> res B) :
  codec wf ser de -> truthful de -> (forall a, wf a -> truthful (fun bs => k (a, bs))) -> truthful (fun bs => bind (de bs) k).
Proof.
  intros C T K bs e H. destruct (de bs) as [[a r]|e0| |] eqn:D; cbn [bind] in H; try discriminate.
  - destruct (codec_can C bs a r D) as (W & p & S & ->). destruct (K a W r e H) as (p1 & x & q & -> & F & G).
    exists (p ++ p1), x, q. split; [rewrite app_assoc; reflexivity|]. split; [apply fault_app, F|]. intros q' L. rewrite <- app_assoc, (codec_rt C a p _ W S). cbn [bind]. auto.
  - injection H as ->. destruct (T bs e D) as (p1 & x & q & -> & F & G). exists p1, x, q. repeat split; auto. intros q' L. rewrite G by exact L. reflexivity.
Qed.
Lemma t_then {A B} (de : bytes -> res A) (k : A -> res B) : truthful de -> (forall a e, k a <> Err e) -> truthful (fun bs => bind (de bs) k).
Proof.
  intros T K bs e H. destruct (de bs) as [a|e0| |] eqn:D; cbn [bind] in H; try discriminate; [destruct (K a e H)|].
  injection H as ->. destruct (T bs e D) as (p1 & x & q & -> & F & G). exists p1, x, q. repeat split; auto. intros q' L. rewrite G by exact L. reflexivity.
Qed.
Lemma too_short (bs : bytes) k : (length bs < k)%nat -> (k <= 16)%nat -> exists pre f, bs = pre ++ f /\ (length f < 8)%nat.
Proof.
  intros L K. destruct (Nat.lt_ge_cases (length bs) 8) as [S|S]; [exists [], bs; split; [reflexivity|exact S]|].
  exists (firstn 8 bs), (skipn 8 bs). split; [rewrite firstn_skipn; reflexivity|]. rewrite skipn_length. lia.
Qed.
Lemma t_need {A} k (f : bytes -> res A) : (k <= 16)%nat -> truthful f -> truthful (fun bs => bind (need k bs) (fun _ => f bs)).
Proof.
  intros K T bs e H. destruct (Nat.lt_ge_cases (length bs) k) as [L|L].
  - rewrite need_short in H by exact L. injection H as <-. destruct (too_short bs k L K) as (pre & x & -> & S). exists pre, x, [].
    split; [rewrite app_nil_r; reflexivity|]. split; [split; [left; exact S|left; reflexivity]|]. intros [|] E; [|discriminate]. rewrite app_nil_r, need_short by exact L. reflexivity.
  - rewrite need_ok in H by exact L. cbn [bind] in H. destruct (T bs e H) as (pre & x & q & -> & F & G). exists pre, x, q. repeat split; auto.
    intros q' E. rewrite need_ok; [apply G, E|]. rewrite !app_length in *. lia.
Qed.
Lemma t_get {A} k (f : N * bytes -> res A) : (forall v, v < 256 ^ N.of_nat k -> truthful (fun bs => f (v, bs))) -> truthful (fun bs => bind (get_be k bs) f).
Proof.
  intros T bs e H. destruct (get_be k bs) as [[v r]|e0| |] eqn:D; cbn [bind] in H; try discriminate.
  - apply get_be_ok in D as (-> & B). destruct (T v B r e H) as (pre & x & q & -> & F & G). exists (be k v ++ pre), x, q. split; [rewrite app_assoc; reflexivity|].
    split; [apply fault_app, F|]. intros q' E. rewrite <- app_assoc, get_be_app, N.mod_small by exact B. cbn [bind]. auto.
  - unfold get_be in D. destruct (Nat.ltb (length bs) k); discriminate.
Qed.
Lemma t_copy {A} n (f : bytes * bytes -> res A) : (forall v, truthful (fun bs => f (v, bs))) -> truthful (fun bs => bind (copy_to_bytes n bs) f).
Proof.
  intros T bs e H. unfold copy_to_bytes in H. destruct (N.ltb_spec (N.of_nat (length bs)) n) as [L|L]; [discriminate|]. cbn [bind] in H.
  destruct (T _ _ e H) as (pre & x & q & E & F & G). exists (firstn (N.to_nat n) bs ++ pre), x, q.
  assert (Hb : bs = firstn (N.to_nat n) bs ++ pre ++ x ++ q) by (rewrite <- E, firstn_skipn; reflexivity).
  split; [rewrite <- app_assoc; exact Hb|]. split; [apply fault_app, F|]. intros q' E'. unfold copy_to_bytes. rewrite <- app_assoc.
  assert (Ln : length (firstn (N.to_nat n) bs) = N.to_nat n) by (rewrite firstn_length; lia).
  destruct (N.ltb_spec (N.of_nat (length (firstn (N.to_nat n) bs ++ pre ++ x ++ q'))) n) as [L'|L']; [rewrite app_length in L'; lia|]. cbn [bind].
  rewrite firstn_app, skipn_app, Ln, Nat.sub_diag, firstn_O, app_nil_r, skipn_O, firstn_firstn, Nat.min_id.
  rewrite skipn_all2 by lia. cbn [app]. auto.
Qed.

(** Integers that are looked at. *)
Definition settled {B} (v : N) (f : bytes) (k : N * bytes -> res B) : Prop :=
  truthful (fun bs => k (v, bs)) \/ exists e, (forall bs, k (v, bs) = Err e) /\ forall pre post, fault e pre f post.
Lemma t_be {B} n (k : N * bytes -> res B) : (n <= 8)%nat -> (forall v, v < 256 ^ N.of_nat n -> settled v (be n v) k) ->
  truthful (fun bs => bind (let* _ := need n bs in get_be n bs) k).
Proof.
  intros Ln K bs e H. destruct (Nat.lt_ge_cases (length bs) n) as [L|L].
  - rewrite need_short in H by exact L. injection H as <-. exists [], bs, []. rewrite app_nil_r. split; [reflexivity|]. split; [split; [left; lia|left; reflexivity]|].
    intros [|] E; [|discriminate]. cbn [app]. rewrite app_nil_r, need_short by exact L. reflexivity.
  - rewrite need_ok in H by exact L. cbn [bind] in H. destruct (get_be n bs) as [[v r]|e0| |] eqn:D; cbn [bind] in H; try discriminate.
    + apply get_be_ok in D as (-> & B'). destruct (K v B') as [T|(e' & All & F)].
      * destruct (T r e H) as (pre & x & q & -> & F & G). exists (be n v ++ pre), x, q. split; [rewrite app_assoc; reflexivity|]. split; [apply fault_app, F|].
        intros q' E. rewrite <- app_assoc, need_ok, get_be_app, N.mod_small by (try exact B'; rewrite app_length, be_length; lia). cbn [bind]. auto.
      * rewrite All in H. injection H as <-. exists [], (be n v), r. split; [reflexivity|]. split; [apply F|]. intros q' E. cbn [app].
        rewrite need_ok, get_be_app, N.mod_small by (try exact B'; rewrite app_length, be_length; lia). cbn [bind]. apply All.
    + unfold get_be in D. destruct (Nat.ltb (length bs) n); discriminate.
Qed.
Lemma be_uint8 v : be 1 v = uint8 v. Proof. apply (says_u8 v). reflexivity. Qed.
Lemma t_u8 {B} (k : N * bytes -> res B) : (forall v, v < 256 -> settled v (uint8 v) k) -> truthful (fun bs => bind (read_u8 bs) k).
Proof. intros K. apply (t_be 1); [lia|]. intros v L. rewrite be_uint8. apply K, L. Qed.
Lemma t_u16 {B} (k : N * bytes -> res B) : (forall v, v < 65536 -> settled v (uint16 v) k) -> truthful (fun bs => bind (read_u16 bs) k).
Proof. intros K. apply (t_be 2); [lia|]. intros v L. rewrite be_uint16. apply K, L. Qed.
Lemma t_read n : (n <= 8)%nat -> truthful (fun bs => let* _ := need n bs in get_be n bs).
Proof. intros L. apply (t_ext (fun bs => bind (let* _ := need n bs in get_be n bs) Ok)); [intros bs; destruct (let* _ := need n bs in get_be n bs); reflexivity|]. apply t_be; [exact L|]. intros v _. left. apply t_ok. Qed.
#[export] Instance t_read8 : truthful read_u8. Proof. apply (t_read 1). lia. Qed.
#[export] Instance t_read16 : truthful read_u16. Proof. apply (t_read 2). lia. Qed.
#[export] Instance t_read32 : truthful read_u32. Proof. apply (t_read 4). lia. Qed.
#[export] Instance t_read64 : truthful read_u64. Proof. apply (t_read 8). lia. Qed.

(** Lengths. *)
Lemma header_se n : n < 1073741824 -> se_varint n = Ok (size_header n).
Proof.
  intros L. rewrite se_varint_eq. unfold size_header. destruct (n <? 64); [rewrite be_uint8; reflexivity|]. destruct (n <? 16384); [rewrite be2_uint; reflexivity|].
  destruct (N.ltb_spec n 1073741824); [rewrite be4_uint; reflexivity|lia].
Qed.
Lemma tail_err k : forall v bs e, varint_tail k v bs = Err e -> e = BufferTooSmall /\ (length bs < k)%nat.
Proof.
  induction k as [|k IH]; intros v bs e H; cbn [varint_tail] in H; [discriminate|]. destruct bs as [|b bs]; [injection H as <-; split; [reflexivity|cbn; lia]|].
  rewrite read_u8_cons in H. cbn [bind] in H. apply IH in H as (E & L). split; [exact E|cbn; lia].
Qed.
Lemma unbe_cons a b r : unbe a (b :: r) = unbe (256 * a + b2n b) r. Proof. reflexivity. Qed.
#[export] Instance t_varint : truthful de_varint.
Proof.
  intros [|b r] e H.
  - injection H as <-. exists [], [], []. split; [reflexivity|]. split; [split; [left; cbn; lia|left; reflexivity]|]. intros [|] E; [reflexivity|discriminate].
  - pose proof (b2n_lt b) as B. pose proof H as H0. rewrite de_varint_cons in H.
    assert (Short : e = BufferTooSmall -> (length r < 3)%nat -> true_of de_varint (b :: r) e).
    { intros -> L. exists [], (b :: r), []. split; [rewrite app_nil_r; reflexivity|]. split; [split; [left; cbn; lia|left; reflexivity]|].
      intros [|] E; [|discriminate]. cbn [app]. rewrite app_nil_r. exact H0. }
    destruct (N.ltb_spec (b2n b) 64) as [L1|L1]; [discriminate|]. destruct (N.ltb_spec (b2n b) 128) as [L2|L2]; [|destruct (N.ltb_spec (b2n b) 192) as [L3|L3]].
    + destruct (varint_tail 1 (b2n b - 64) r) as [[v r']|e0| |] eqn:T; cbn [bind] in H; try discriminate.
      * apply varint_tail_ok in T as (xs & Lx & -> & ->). destruct (N.ltb_spec (unbe (b2n b - 64) xs) 64) as [M|M]; [|discriminate]. injection H as <-.
        exists [], (b :: xs), r'. split; [reflexivity|]. split.
        -- left. exists (unbe (b2n b - 64) xs). split; [exact M|]. rewrite <- be2_uint. rewrite <- (be_unbe (b :: xs)) at 1. cbn [length]. rewrite Lx. f_equal.
           rewrite unbe_cons, (unbe_acc (256 * 0 + b2n b)), (unbe_acc (b2n b - 64)), Lx, pow256_1. lia.
        -- intros q _. cbn [app]. rewrite de_varint_cons. destruct (N.ltb_spec (b2n b) 64); [lia|]. destruct (N.ltb_spec (b2n b) 128); [|lia].
           rewrite varint_tail_app by exact Lx. cbn [bind]. destruct (N.ltb_spec (unbe (b2n b - 64) xs) 64); [reflexivity|lia].
      * injection H as ->. apply tail_err in T as (E & L). apply Short; [exact E|lia].
    + destruct (varint_tail 3 (b2n b - 128) r) as [[v r']|e0| |] eqn:T; cbn [bind] in H; try discriminate.
      * apply varint_tail_ok in T as (xs & Lx & -> & ->). destruct (N.ltb_spec (unbe (b2n b - 128) xs) 16384) as [M|M]; [|discriminate]. injection H as <-.
        exists [], (b :: xs), r'. split; [reflexivity|]. split.
        -- right. exists (unbe (b2n b - 128) xs). split; [exact M|]. rewrite <- be4_uint. rewrite <- (be_unbe (b :: xs)) at 1. cbn [length]. rewrite Lx. f_equal.
           rewrite unbe_cons, (unbe_acc (256 * 0 + b2n b)), (unbe_acc (b2n b - 128)), Lx. change (256 ^ N.of_nat 3) with 16777216. lia.
        -- intros q _. cbn [app]. rewrite de_varint_cons. destruct (N.ltb_spec (b2n b) 64); [lia|]. destruct (N.ltb_spec (b2n b) 128); [lia|]. destruct (N.ltb_spec (b2n b) 192); [|lia].
           rewrite varint_tail_app by exact Lx. cbn [bind]. destruct (N.ltb_spec (unbe (b2n b - 128) xs) 16384); [reflexivity|lia].
      * injection H as ->. apply tail_err in T as (E & L). apply Short; [exact E|lia].
    + injection H as <-. exists [], [b], r. split; [reflexivity|]. split.
      * exists (b2n b). split; [lia|]. rewrite <- be_uint8. rewrite <- (be_unbe [b]) at 1. reflexivity.
      * intros q _. cbn [app]. rewrite de_varint_cons. destruct (N.ltb_spec (b2n b) 64); [lia|]. destruct (N.ltb_spec (b2n b) 128); [lia|]. destruct (N.ltb_spec (b2n b) 192); [lia|reflexivity].
Qed.
(** What follows a length; [k] gets the content and the rest. *)
Lemma t_counted {A B} (g : bytes -> res A) (k : A -> bytes -> B) : truthful g ->
  truthful (fun bs => let* (n, bs) := de_varint bs in if N.of_nat (length bs) <? n then Err BufferTooSmall else
    let* (v, rest) := copy_to_bytes n bs in let* a := g v in Ok (k a rest)).
Proof.
  intros T bs e H. destruct (de_varint bs) as [[n r]|e0| |] eqn:D; cbn [bind] in H; try discriminate.
  - destruct (codec_can codec_varint bs n r D) as (W & p & S & ->). rewrite header_se in S by exact W. apply Ok_inj in S. subst p.
    destruct (N.ltb_spec (N.of_nat (length r)) n) as [L|L].
    + injection H as <-. exists [], (size_header n ++ r), []. split; [rewrite app_nil_r; reflexivity|]. split; [split; [right; exists n, r; auto|left; reflexivity]|].
      intros [|] E; [|discriminate]. cbn [app]. rewrite app_nil_r, D. cbn [bind]. destruct (N.ltb_spec (N.of_nat (length r)) n); [reflexivity|lia].
    + unfold copy_to_bytes in H. destruct (N.ltb_spec (N.of_nat (length r)) n); [lia|]. cbn [bind] in H.
      destruct (g (firstn (N.to_nat n) r)) as [a|e0| |] eqn:G; cbn [bind] in H; try discriminate. injection H as ->.
      destruct (T _ _ G) as (pre & x & q & E & F & St). set (c := firstn (N.to_nat n) r) in *.
      assert (Lc : length c = N.to_nat n) by (unfold c; rewrite firstn_length; lia).
      exists (size_header n ++ pre), x, (q ++ skipn (N.to_nat n) r).
      split. { rewrite <- !app_assoc. f_equal. rewrite <- (firstn_skipn (N.to_nat n) r) at 1. fold c. rewrite E, <- !app_assoc. reflexivity. }
      split.
      * assert (F' : fault e (size_header n ++ pre) x q) by (apply fault_app, F). destruct e; cbn in F |- *; try exact F'. destruct F as (C & [->|V]); [|split; [exact C|right; destruct F' as (_ & [F'|F'])]].
        -- split; [exact C|]. right. exists [], pre. cbn [app]. rewrite app_nil_r in E. rewrite <- E, Lc, N2Nat.id. reflexivity.
        -- destruct V as (p1 & c1 & ->). exists (size_header n ++ p1), c1. rewrite <- !app_assoc. reflexivity.
        -- exact F'.
      * intros q' Lq. rewrite app_length in Lq. rewrite <- app_assoc. rewrite (codec_rt codec_varint n (size_header n)) by (try exact W; apply header_se, W). cbn [bind].
        assert (Lt : (length (pre ++ x ++ q') = length r)%nat) by (rewrite !app_length; apply (f_equal (@length byte)) in E; rewrite !app_length in E; rewrite skipn_length in Lq; lia).
        unfold copy_to_bytes. rewrite Lt. destruct (N.ltb_spec (N.of_nat (length r)) n); [lia|]. cbn [bind].
        assert (Lp : (length pre + length x + length q = N.to_nat n)%nat) by (apply (f_equal (@length byte)) in E; rewrite !app_length in E; lia).
        assert (Ef : firstn (N.to_nat n) (pre ++ x ++ q') = pre ++ x ++ firstn (length q) q').
        { rewrite app_assoc, firstn_app, app_length. rewrite firstn_all2 by (rewrite app_length; lia). rewrite <- app_assoc. do 3 f_equal. lia. }
        rewrite Ef, St; [reflexivity|]. rewrite firstn_length. rewrite skipn_length in Lq. lia.
  - injection H as ->. destruct (t_varint bs e D) as (p1 & x & q & -> & F & G). exists p1, x, q. repeat split; auto. intros q' L. rewrite G by exact L. reflexivity.
Qed.
#[export] Instance t_opaque : truthful de_opaque.
Proof.
  eapply t_ext; [|apply (t_counted (fun v => Ok v) (fun v (r : bytes) => (v, r))); apply t_ok]. intros bs. unfold de_opaque.
  destruct (de_varint bs) as [[n r]| | |]; [|reflexivity..]. cbn [bind]. destruct (_ <? n); [reflexivity|]. destruct (copy_to_bytes n r) as [[]| | |]; reflexivity.
Qed.
Lemma t_loop {A} wf (ser : A -> res bytes) de : codec wf ser de -> truthful de -> forall k, truthful (vec_loop de k).
Proof.
  intros C T. assert (P : forall bs bs' k e, vec_loop de k bs = e -> bs = bs' -> vec_loop de k bs' = e) by (intros; subst; reflexivity). clear P.
  induction k as [|k IH]; intros bs e H.
  - destruct bs; discriminate.
  - destruct bs as [|b bs]; [discriminate|]. cbn [vec_loop] in H.
    assert (S : truthful (fun bs => let* (a, r) := de bs in let* l := vec_loop de k r in Ok (a :: l))).
    { eapply (t_bind wf ser de); [exact C|exact T|]. intros a _. apply (t_then (vec_loop de k) (fun l => Ok (a :: l))); [exact IH|]. discriminate. }
    destruct (S _ e H) as (p & x & q & E & F & G). exists p, x, q. split; [exact E|]. split; [exact F|]. intros q' L. specialize (G q' L).
    destruct (p ++ x ++ q') as [|b' r'] eqn:Q; [|exact G]. exfalso. apply (f_equal (@length byte)) in E, Q. rewrite !app_length in *. cbn in *. lia.
Qed.
#[export] Instance t_vector {A} wf (ser : A -> res bytes) de : codec wf ser de -> truthful de -> truthful (de_vector de).
Proof.
  intros C T. assert (G : truthful (fun v => vec_loop de (length v) v)).
  { intros bs e H. destruct (t_loop wf ser de C T (length bs) bs e H) as (p & x & q & -> & F & G). exists p, x, q. repeat split; auto. intros q' L. rewrite <- (G q' L). rewrite !app_length. f_equal. lia. }
  exact (t_counted _ (fun l (r : bytes) => (l, r)) G).
Qed.

(** Structure by structure. *)
Ltac t1 := cbv beta iota; first
  [ apply t_ok
  | apply t_need; [lia|]
  | apply (t_get 2); intros | apply (t_get 4); intros | apply (t_get 8); intros
  | apply t_copy; intros
  | eapply t_bind; [solve [apply _]|solve [apply _]|intros] ].
Ltac ts := aliases; repeat t1.
Ltac not_in := let H := fresh in intros H; cbn [In] in H; repeat (destruct H as [H|H]; [discriminate|]); exact H.
Ltac named := right; eexists; split; [intros; reflexivity|intros; cbn; first [split; [lia|split; [reflexivity|not_in]] | eexists; split; [|split; [reflexivity|not_in]]; lia]].

#[export] Instance t_optflag : truthful de_optflag.
Proof.
  unfold de_optflag. apply t_u8. intros v L. cbv beta iota. destruct (N.eqb_spec v 0) as [->|N0]; [left; apply t_ok|]. destruct (N.eqb_spec v 1) as [->|N1]; [left; apply t_ok|].
  right. exists InvalidOptionalValue. split.
  - intros bs. destruct (N.eqb_spec v 0); [contradiction|]. destruct (N.eqb_spec v 1); [contradiction|reflexivity].
  - intros. exists v. split; [exact L|]. split; [reflexivity|]. intros [H|[H|[]]]; congruence.
Qed.
#[export] Instance t_option {A} wf (ser : A -> res bytes) de : codec wf ser de -> truthful de -> truthful (de_option de).
Proof. intros C T. unfold de_option. eapply t_bind; [apply codec_optflag|apply t_optflag|]. intros [|] _; cbv beta iota; [|apply t_ok]. ts. Qed.
#[export] Instance t_content_type : truthful de_content_type.
Proof. unfold de_content_type. apply t_u8. intros v L. destruct v as [|[[p|p|]|[p|p|]|]]; first [left; apply t_ok|named]. Qed.
#[export] Instance t_sender_type : truthful de_sender_type.
Proof. unfold de_sender_type. apply t_u8. intros v L. destruct v as [|[[p|p|]|[[p|p|]|[p|p|]|]|]]; first [left; apply t_ok|named]. Qed.
#[export] Instance t_psk_type : truthful de_psk_type.
Proof. unfold de_psk_type. apply t_u8. intros v L. destruct v as [|[[p|p|]|[p|p|]|]]; first [left; apply t_ok|named]. Qed.
#[export] Instance t_psk_usage : truthful de_psk_usage.
Proof. unfold de_psk_usage. apply t_u8. intros v L. destruct v as [|[[p|p|]|[p|p|]|]]; first [left; apply t_ok|named]. Qed.
#[export] Instance t_node_type : truthful de_node_type.
Proof. unfold de_node_type. apply t_u8. intros v L. destruct v as [|[[p|p|]|[p|p|]|]]; first [left; apply t_ok|named]. Qed.
#[export] Instance t_wire_format : truthful de_wire_format.
Proof. unfold de_wire_format. apply t_u16. intros v L. destruct v as [|[[[p|p|]|[p|p|]|]|[[p|p|]|[p|p|]|]|]]; first [left; apply t_ok|named]. Qed.
#[export] Instance t_signature_scheme : truthful de_signature_scheme.
Proof.
  unfold de_signature_scheme. apply t_u16. intros v L. cbv beta iota.
  destruct (N.eqb_spec v 0x0403) as [->|N1]; [left; apply t_ok|]. destruct (N.eqb_spec v 0x0503) as [->|N2]; [left; apply t_ok|].
  destruct (N.eqb_spec v 0x0603) as [->|N3]; [left; apply t_ok|]. destruct (N.eqb_spec v 0x0807) as [->|N4]; [left; apply t_ok|].
  destruct (N.eqb_spec v 0x0808) as [->|N5]; [left; apply t_ok|]. right. exists (InvalidSignatureSchemeValue v). split.
  - intros bs. apply N.eqb_neq in N1, N2, N3, N4, N5. rewrite N1, N2, N3, N4, N5. reflexivity.
  - intros. split; [exact L|]. split; [reflexivity|]. intros [H|[H|[H|[H|[H|[]]]]]]; congruence.
Qed.
#[export] Instance t_credential : truthful de_credential.
Proof. unfold de_credential. apply t_u16. intros v L. destruct v as [|[p|[p|p|]|]]; cbn [credential_type_of_u16]; first [named|left; ts]. Qed.
#[export] Instance t_sender : truthful de_sender.
Proof. unfold de_sender. ts. destruct a; ts. Qed.
#[export] Instance t_extension : truthful de_extension.
Proof. unfold de_extension. ts. Qed.
#[export] Instance t_extensions : truthful de_extensions.
Proof. apply (t_vector wf_extension se_extension); apply _. Qed.
#[export] Instance t_external_senders : truthful de_external_senders.
Proof. unfold de_external_senders. ts. Qed.
#[export] Instance t_u16_as {A} (f : N -> A) : truthful (de_u16_as f).
Proof. unfold de_u16_as. ts. Qed.
#[export] Instance t_required_capabilities : truthful de_required_capabilities.
Proof. unfold de_required_capabilities. ts. Qed.
#[export] Instance t_proposal_type : truthful de_proposal_type.
Proof. unfold de_proposal_type. ts. Qed.
#[export] Instance t_signature_key_pair : truthful de_signature_key_pair.
Proof. unfold de_signature_key_pair. ts. Qed.
#[export] Instance t_hpke_key_pair : truthful de_hpke_key_pair.
Proof. unfold de_hpke_key_pair. ts. Qed.
#[export] Instance t_lifetime : truthful de_lifetime.
Proof. unfold de_lifetime. ts. Qed.
#[export] Instance t_leaf_node_source : truthful de_leaf_node_source.
Proof. unfold de_leaf_node_source. apply t_u8. intros v L. destruct v as [|[[p|p|]|[p|p|]|]]; first [named|left; ts]. Qed.
#[export] Instance t_capabilities : truthful de_capabilities.
Proof. unfold de_capabilities. ts. Qed.
#[export] Instance t_leaf_payload : truthful de_leaf_payload.
Proof. unfold de_leaf_payload. ts. Qed.
#[export] Instance t_leaf_node : truthful de_leaf_node.
Proof. unfold de_leaf_node. ts. Qed.
#[export] Instance t_unmerged_leaf : truthful de_unmerged_leaf.
Proof. apply t_need; [lia|]. intros bs e H. unfold get_u32, get_be in H. destruct (Nat.ltb (length bs) 4); discriminate. Qed.
#[export] Instance t_parent_node : truthful de_parent_node.
Proof. unfold de_parent_node. ts. Qed.
#[export] Instance t_hpke_ciphertext : truthful de_hpke_ciphertext.
Proof. unfold de_hpke_ciphertext. ts. Qed.
#[export] Instance t_update_path_node : truthful de_update_path_node.
Proof. unfold de_update_path_node. ts. Qed.
#[export] Instance t_update_path : truthful de_update_path.
Proof. unfold de_update_path. ts. Qed.
#[export] Instance t_node : truthful de_node.
Proof. unfold de_node. ts. destruct a; ts. Qed.
#[export] Instance t_key_package_tbs : truthful de_key_package_tbs.
Proof. unfold de_key_package_tbs. ts. Qed.
#[export] Instance t_key_package : truthful de_key_package.
Proof. unfold de_key_package. ts. Qed.
#[export] Instance t_resumption : truthful de_resumption.
Proof. unfold de_resumption. ts. Qed.
#[export] Instance t_psk : truthful de_psk.
Proof. unfold de_psk. ts. destruct a; ts. Qed.
#[export] Instance t_psk_id : truthful de_psk_id.
Proof. unfold de_psk_id. ts. Qed.
#[export] Instance t_psk_label : truthful de_psk_label.
Proof. unfold de_psk_label. ts. Qed.
#[export] Instance t_add_proposal : truthful de_add_proposal.
Proof. unfold de_add_proposal. ts. Qed.
#[export] Instance t_update_proposal : truthful de_update_proposal.
Proof. unfold de_update_proposal. ts. Qed.
#[export] Instance t_remove_proposal : truthful de_remove_proposal.
Proof. unfold de_remove_proposal. ts. Qed.
#[export] Instance t_psk_proposal : truthful de_psk_proposal.
Proof. unfold de_psk_proposal. ts. Qed.
#[export] Instance t_external_init_proposal : truthful de_external_init_proposal.
Proof. unfold de_external_init_proposal. ts. Qed.
#[export] Instance t_gce_proposal : truthful de_gce_proposal.
Proof. unfold de_gce_proposal. ts. Qed.
#[export] Instance t_reinit_proposal : truthful de_reinit_proposal.
Proof. unfold de_reinit_proposal. ts. Qed.
#[export] Instance t_proposal : truthful de_proposal.
Proof.
  unfold de_proposal. apply t_u16. intros v L. destruct v as [|[[[p|p|]|[p|p|]|]|[[p|p|]|[p|p|]|]|]]; cbn [proposal_type_of_u16]; first [named|left; ts].
Qed.
#[export] Instance t_proposal_or_ref : truthful de_proposal_or_ref.
Proof. unfold de_proposal_or_ref. apply t_u8. intros v L. destruct v as [|[[p|p|]|[p|p|]|]]; first [named|left; ts]. Qed.
#[export] Instance t_commit : truthful de_commit.
Proof. unfold de_commit. ts. Qed.
#[export] Instance t_content : truthful de_content.
Proof. unfold de_content. ts. destruct a; ts. Qed.
#[export] Instance t_framed_content : truthful de_framed_content.
Proof. unfold de_framed_content. ts. Qed.
#[export] Instance t_auth_data ct : truthful (de_auth_data ct).
Proof. unfold de_auth_data. ts. destruct ct; ts. Qed.
#[export] Instance t_auth_content : truthful de_auth_content.
Proof. unfold de_auth_content. ts. Qed.
#[export] Instance t_sender_data : truthful de_sender_data.
Proof. unfold de_sender_data. ts. Qed.
#[export] Instance t_public_message : truthful de_public_message.
Proof. unfold de_public_message. ts. destruct (fc_sender a); ts. Qed.
#[export] Instance t_private_message : truthful de_private_message.
Proof. unfold de_private_message. ts. Qed.
#[export] Instance t_private_content_aad : truthful de_private_content_aad.
Proof. unfold de_private_content_aad. ts. Qed.
#[export] Instance t_group_secrets : truthful de_group_secrets.
Proof. unfold de_group_secrets. ts. Qed.
#[export] Instance t_egs : truthful de_egs.
Proof. unfold de_egs. ts. Qed.
#[export] Instance t_welcome : truthful de_welcome.
Proof. unfold de_welcome. ts. Qed.

Lemma pad_no_err k : forall l e, pad_blank k l <> Err e.
Proof. induction k as [|k IH]; intros l e; cbn [pad_blank]; destruct (is_power_of_two _); try discriminate. apply IH. Qed.
#[export] Instance t_ratchet_tree : truthful de_ratchet_tree.
Proof.
  unfold de_ratchet_tree. apply (t_then (de_vector (de_option de_node))); [apply _|]. intros [l r] e. destruct (pad_blank (length l + 1) l) eqn:E; try discriminate. destruct (pad_no_err _ _ _ E).
Qed.
Lemma t_padding : truthful check_padding.
Proof.
  intros bs. induction bs as [|b r IH]; intros e H; [discriminate|]. cbn [check_padding] in H. destruct (N.eqb_spec (b2n b) 0) as [Z|NZ].
  - destruct (IH e H) as (p & x & q & -> & F & G). exists (b :: p), x, q. split; [reflexivity|]. split; [apply (fault_app e [b]), F|]. intros q' L. cbn [app check_padding]. rewrite Z. apply G, L.
  - injection H as <-. exists [], [b], r. split; [reflexivity|]. split.
    + exists (b2n b). split; [apply b2n_lt|]. split; [rewrite <- be_uint8, <- (be_unbe [b]) at 1; reflexivity|]. intros [E|[]]. congruence.
    + intros q _. cbn [app check_padding]. apply N.eqb_neq in NZ. rewrite NZ. reflexivity.
Qed.
#[export] Instance t_private_content ct : truthful (de_private_content ct).
Proof.
  assert (K : forall c : content, truthful (fun bs => let* (a, bs) := de_auth_data ct bs in let* _ := check_padding bs in Ok (MkPrivateContent c a))).
  { intros c. eapply t_bind; [apply _|apply _|]. intros a _. cbv beta iota. apply (t_then check_padding); [exact t_padding|discriminate]. }
  assert (R : forall A (de : bytes -> res (A * bytes)) (f : A -> content) wf ser, codec wf ser de -> truthful de ->
    truthful (fun bs => let* (c, bs) := (let* (d, bs) := de bs in Ok (f d, bs)) in let* (a, bs) := de_auth_data ct bs in let* _ := check_padding bs in Ok (MkPrivateContent c a))).
  { intros A de f wf ser C T. apply (t_ext (fun bs => let* (d, bs) := de bs in let* (a, bs) := de_auth_data ct bs in let* _ := check_padding bs in Ok (MkPrivateContent (f d) a))).
    - intros bs. destruct (de bs) as [[]| | |]; reflexivity.
    - eapply t_bind; [exact C|exact T|]. intros d _. apply K. }
  unfold de_private_content. destruct ct; eapply R; apply _.
Qed.

(** Group contexts: the version is looked at after what follows it. *)
Definition truthful_or {A} (Q : bytes -> error -> Prop) (de : bytes -> res A) : Prop := forall bs e, de bs = Err e -> true_of de bs e \/ Q bs e.
Lemma or_same {A} Q (f g : bytes -> res A) : truthful g -> (forall bs e, g bs = Err e -> f bs = Err e) -> (forall bs e, f bs = Err e -> g bs = Err e \/ Q bs e) -> truthful_or Q f.
Proof.
  intros T I O bs e H. destruct (O bs e H) as [G|G]; [left|right; exact G]. destruct (T bs e G) as (p & x & q & -> & F & S). exists p, x, q. repeat split; auto.
Qed.
Lemma or_bind {A B} (wf : A -> Prop) ser (Q : A -> bytes -> error -> Prop) (de : bytes -> res (A * bytes)) (k : A * bytes -> res B) :
  codec wf ser de -> truthful de -> (forall a, wf a -> truthful_or (Q a) (fun bs => k (a, bs))) ->
  truthful_or (fun bs e => exists a p rest, wf a /\ ser a = Ok p /\ bs = p ++ rest /\ Q a rest e) (fun bs => bind (de bs) k).
Proof.
  intros C T K bs e H. destruct (de bs) as [[a r]|e0| |] eqn:D; cbn [bind] in H; try discriminate.
  - destruct (codec_can C bs a r D) as (W & p & S & ->). destruct (K a W r e H) as [(p1 & x & q & -> & F & G)|O].
    + left. exists (p ++ p1), x, q. split; [rewrite app_assoc; reflexivity|]. split; [apply fault_app, F|]. intros q' L. rewrite <- app_assoc, (codec_rt C a p _ W S). cbn [bind]. auto.
    + right. exists a, p, r. auto.
  - left. injection H as ->. destruct (T bs e D) as (p1 & x & q & -> & F & G). exists p1, x, q. repeat split; auto. intros q' L. rewrite G by exact L. reflexivity.
Qed.
Lemma or_first {A B} (wf : A -> Prop) ser Q (de : bytes -> res (A * bytes)) (k : A * bytes -> res B) :
  codec wf ser de -> truthful_or Q de -> (forall a, wf a -> truthful (fun bs => k (a, bs))) -> truthful_or Q (fun bs => bind (de bs) k).
Proof.
  intros C T K bs e H. destruct (de bs) as [[a r]|e0| |] eqn:D; cbn [bind] in H; try discriminate.
  - left. destruct (codec_can C bs a r D) as (W & p & S & ->). destruct (K a W r e H) as (p1 & x & q & -> & F & G).
    exists (p ++ p1), x, q. split; [rewrite app_assoc; reflexivity|]. split; [apply fault_app, F|]. intros q' L. rewrite <- app_assoc, (codec_rt C a p _ W S). cbn [bind]. auto.
  - injection H as ->. destruct (T bs e D) as [(p1 & x & q & -> & F & G)|O]; [|right; exact O]. left. exists p1, x, q. repeat split; auto. intros q' L. rewrite G by exact L. reflexivity.
Qed.
Lemma or_true {A} Q (de : bytes -> res A) : truthful de -> truthful_or Q de. Proof. intros T bs e H. left. auto. Qed.
Lemma or_weaken {A} (Q Q' : bytes -> error -> Prop) (de : bytes -> res A) : (forall bs e, Q bs e -> Q' bs e) -> truthful_or Q de -> truthful_or Q' de.
Proof. intros W T bs e H. destruct (T bs e H); auto. Qed.
Lemma or_group_context : truthful_or (of_version []) de_group_context.
Proof.
  apply (or_same _ _ (fun bs => let* _ := need 4 bs in let* (v, bs) := get_u16 bs in let* (c, bs) := get_u16 bs in let* (g, bs) := de_opaque bs in let* (e, bs) := read_u64 bs in
    let* (t, bs) := de_opaque bs in let* (h, bs) := de_opaque bs in if negb (is_mls10 (version_of_u16 v)) then Panic
    else let* (x, bs) := de_extensions bs in Ok (MkGroupContext (version_of_u16 v) (cipher_suite_of_u16 c) g e t h x, bs))).
  - ts. destruct (negb _); [apply t_panic|ts].
  - intros bs e. unfold de_group_context. destruct (need 4 bs) as [[]| | |]; cbn [bind]; try discriminate; [|auto]. destruct (get_u16 bs) as [[v r0]| | |]; cbn [bind]; try discriminate; [|auto].
    destruct (get_u16 r0) as [[c r1]| | |]; cbn [bind]; try discriminate; [|auto]. destruct (de_opaque r1) as [[g r2]| | |]; cbn [bind]; try discriminate; [|auto].
    destruct (read_u64 r2) as [[ep r3]| | |]; cbn [bind]; try discriminate; [|auto]. destruct (de_opaque r3) as [[t r4]| | |]; cbn [bind]; try discriminate; [|auto].
    destruct (de_opaque r4) as [[h r5]| | |]; cbn [bind]; try discriminate; [|auto]. destruct (negb _); [discriminate|auto].
  - intros bs e. unfold de_group_context. destruct (need 4 bs) as [[]| | |]; cbn [bind]; try discriminate; [|auto]. destruct (get_u16 bs) as [[v r0]| | |] eqn:V; cbn [bind]; try discriminate; [|auto].
    destruct (get_u16 r0) as [[c r1]| | |]; cbn [bind]; try discriminate; [|auto]. destruct (de_opaque r1) as [[g r2]| | |]; cbn [bind]; try discriminate; [|auto].
    destruct (read_u64 r2) as [[ep r3]| | |]; cbn [bind]; try discriminate; [|auto]. destruct (de_opaque r3) as [[t r4]| | |]; cbn [bind]; try discriminate; [|auto].
    destruct (de_opaque r4) as [[h r5]| | |]; cbn [bind]; try discriminate; [|auto]. destruct (is_mls10 (version_of_u16 v)) eqn:M; cbn [negb]; [auto|]. intros H. injection H as <-. right.
    apply get_u16_ok in V as (-> & U). exists v, r0. split; [exact U|]. rewrite be_uint16. unfold version_of_u16 in *. destruct v as [|[p|p|]]; try discriminate; (split; [discriminate|]; split; reflexivity).
Qed.
Lemma or_group_info : truthful_or (of_version []) de_group_info.
Proof. unfold de_group_info. eapply or_first; [apply codec_group_context|exact or_group_context|]. intros a _. ts. Qed.

(** The version of the context, in the content to be signed or tagged. *)
Lemma or_framed_content_tbs : truthful_or (fun bs e => exists p, of_version p bs e) de_framed_content_tbs.
Proof.
  unfold de_framed_content_tbs. eapply or_weaken; cycle 1.
  - eapply or_bind; [apply codec_u16|apply _|]. intros v _. eapply or_bind; [apply codec_wire_format|apply _|]. intros w _. eapply or_bind; [apply codec_framed_content|apply _|]. intros c _. cbv beta iota.
    assert (G : truthful_or (of_version []) (fun bs => let* (g, bs) := de_group_context bs in Ok (MkTBS (version_of_u16 v) w c (Some g), bs))).
    { eapply or_first; [apply codec_group_context|exact or_group_context|]. intros a _. apply t_ok. }
    instantiate (1 := fun _ => of_version []). destruct (fc_sender c); [exact G|apply or_true, t_ok|apply or_true, t_ok|exact G].
  - cbv beta. intros bs e (v & p & r & _ & _ & -> & w & p1 & r1 & _ & _ & -> & c & p2 & r2 & _ & _ & -> & x & post & B & N & -> & ->). exists (p ++ p1 ++ p2), x, post.
    split; [exact B|]. split; [exact N|]. split; [reflexivity|]. cbn [app]. rewrite <- !app_assoc. reflexivity.
Qed.
Lemma or_auth_content_tbm : truthful_or (fun bs e => exists p, of_version p bs e) de_auth_content_tbm.
Proof. unfold de_auth_content_tbm. eapply or_first; [apply codec_framed_content_tbs|exact or_framed_content_tbs|]. intros a _. ts. Qed.

(** Messages. *)
Lemma or_need {A} k Q (f : bytes -> res A) : (k <= 16)%nat -> truthful_or Q f -> truthful_or Q (fun bs => bind (need k bs) (fun _ => f bs)).
Proof.
  intros K T bs e H. destruct (Nat.lt_ge_cases (length bs) k) as [L|L].
  - left. rewrite need_short in H by exact L. injection H as <-. destruct (too_short bs k L K) as (pre & x & -> & S). exists pre, x, [].
    split; [rewrite app_nil_r; reflexivity|]. split; [split; [left; exact S|left; reflexivity]|]. intros [|] E; [|discriminate]. rewrite app_nil_r, need_short by exact L. reflexivity.
  - rewrite need_ok in H by exact L. cbn [bind] in H. destruct (T bs e H) as [(pre & x & q & -> & F & G)|O]; [|right; exact O]. left. exists pre, x, q. repeat split; auto.
    intros q' E. rewrite need_ok; [apply G, E|]. rewrite !app_length in *. lia.
Qed.
Lemma or_wire_message : truthful_or (of_version (uint16 4)) de_wire_message.
Proof.
  unfold de_wire_message. apply or_need; [lia|]. eapply or_weaken; cycle 1.
  - eapply or_bind; [apply codec_wire_format|apply _|]. intros w _. cbv beta iota. instantiate (1 := fun w bs e => w = WFGroupInfo /\ of_version [] bs e).
    destruct w; try solve [apply or_true; ts]. eapply or_weaken; [intros bs e H; split; [reflexivity|exact H]|]. eapply or_first; [apply codec_group_info|exact or_group_info|]. intros a _. apply t_ok.
  - cbv beta. intros bs e (w & p & r & _ & S & -> & -> & v & post & B & N & -> & ->). exists v, post. split; [exact B|]. split; [exact N|]. split; [reflexivity|]. cbn [app]. f_equal.
    apply Ok_inj in S. rewrite <- S. apply be_uint16.
Qed.
Lemma or_mls_message : truthful_or (of_version (uint16 1 ++ uint16 4)) de_mls_message.
Proof.
  intros bs e H. unfold de_mls_message in H. destruct (read_u16 bs) as [[v r]|e0| |] eqn:D; cbn [bind] in H; try discriminate.
  - destruct (codec_can codec_u16 bs v r D) as (W & p & S & ->). apply Ok_inj in S. rewrite be_uint16 in S. subst p. destruct (N.eqb_spec v 1) as [->|NE].
    + cbn [version_of_u16 is_mls10 negb] in H.
      assert (T : truthful_or (of_version (uint16 4)) (fun bs => let* (m, bs) := de_wire_message bs in Ok (MkMLSMessage (version_of_u16 1) m, bs))).
      { eapply or_first; [apply codec_wire_message|exact or_wire_message|]. intros a _. apply t_ok. }
      destruct (T r e H) as [(p1 & x & q & -> & F & G)|(x & post & B & N & -> & ->)].
      * left. exists (uint16 1 ++ p1), x, q. split; [rewrite app_assoc; reflexivity|]. split; [apply fault_app, F|]. intros q' L. unfold de_mls_message. rewrite <- app_assoc.
        rewrite (codec_rt codec_u16 1 (uint16 1) _ W) by reflexivity. cbn [bind version_of_u16 is_mls10 negb]. apply G, L.
      * right. exists x, post. split; [exact B|]. split; [exact N|]. split; [reflexivity|]. rewrite <- !app_assoc. reflexivity.
    + left. assert (M : forall q, de_mls_message (uint16 v ++ q) = Err (InvalidProtocolVersion v)).
      { intros q. unfold de_mls_message. rewrite (codec_rt codec_u16 v (uint16 v) _ W) by (rewrite <- be_uint16; reflexivity). cbn [bind]. unfold version_of_u16. destruct v as [|[]]; cbn; congruence. }
      assert (e = InvalidProtocolVersion v) as -> by (unfold version_of_u16 in H; destruct v as [|[]]; cbn in H; congruence).
      exists [], (uint16 v), r. split; [reflexivity|]. split; [split; [exact W|]; split; [reflexivity|]; intros [E|[]]; congruence|]. intros q _. apply M.
  - left. injection H as ->. destruct (t_read16 bs e D) as (p1 & x & q & -> & F & G). exists p1, x, q. repeat split; auto. intros q' L. unfold de_mls_message. rewrite G by exact L. reflexivity.
Qed.
Lemma or_confirmed_input : truthful_or (fun bs e => e = ConfirmedTranscriptHashInputContainContentCommitOnly /\
  exists w c rest, bs = rfc_wire_format w ++ rfc_framed_content c ++ rest /\ forall m, fc_content c <> CCommit m) de_confirmed_input.
Proof.
  unfold de_confirmed_input. eapply or_weaken; cycle 1.
  - eapply or_bind; [apply codec_wire_format|apply _|]. intros w _. eapply or_bind; [apply codec_framed_content|apply _|]. intros c _. cbv beta iota.
    instantiate (1 := fun c bs e => e = ConfirmedTranscriptHashInputContainContentCommitOnly /\ forall m, fc_content c <> CCommit m).
    destruct (fc_content c) eqn:Ec; [intros bs e H; right; change (Err ConfirmedTranscriptHashInputContainContentCommitOnly = @Err (confirmed_input * bytes) e) in H; injection H as <-; split; [reflexivity|intros m; congruence]..|]. apply or_true. ts.
  - cbv beta. intros bs e (w & p & r & _ & S & -> & c & p1 & r1 & _ & S1 & -> & -> & C). split; [reflexivity|]. exists w, c, r1. split; [|exact C].
    apply l_wire_format in S. apply l_framed in S1. subst. reflexivity.
Qed.
Lemma exact_truthful {A} (de : bytes -> res (A * bytes)) : truthful de -> truthful (de_exact de).
Proof. intros T. apply (t_then de); [exact T|]. intros [] e. discriminate. Qed.
Lemma c118_errors : truthful de_signature_key_pair /\ truthful de_hpke_key_pair /\ truthful de_credential /\ truthful de_signature_scheme /\ truthful de_content_type /\
  truthful de_sender_type /\ truthful de_sender /\ truthful de_wire_format /\ truthful de_extension /\ truthful de_extensions /\
  truthful de_external_senders /\ truthful de_required_capabilities /\ truthful de_proposal_type /\ truthful de_lifetime /\ truthful de_leaf_node_source /\
  truthful de_capabilities /\ truthful de_leaf_node /\ truthful de_parent_node /\ truthful de_hpke_ciphertext /\ truthful de_update_path_node /\
  truthful de_update_path /\ truthful de_node /\ truthful de_ratchet_tree /\ truthful de_key_package /\ truthful de_resumption /\
  truthful de_psk /\ truthful de_psk_id /\ truthful de_psk_label /\ truthful de_add_proposal /\ truthful de_update_proposal /\
  truthful de_remove_proposal /\ truthful de_psk_proposal /\ truthful de_reinit_proposal /\ truthful de_external_init_proposal /\ truthful de_gce_proposal /\
  truthful de_proposal /\ truthful de_proposal_or_ref /\ truthful de_commit /\ truthful de_content /\ truthful de_framed_content /\
  truthful de_auth_content /\ truthful de_sender_data /\ truthful de_public_message /\ truthful de_private_message /\ truthful de_private_content_aad /\
  truthful de_group_secrets /\ truthful de_egs /\ truthful de_welcome /\
  (forall ct, truthful (de_auth_data ct)) /\ (forall ct, truthful (de_private_content ct)) /\
  truthful de_varint /\ truthful de_opaque /\ truthful de_optflag.
Proof. repeat match goal with |- _ /\ _ => split end; first [solve [apply _] | intros ct; apply _]. Qed.
