(** The executable algorithms of Primitives.v meet what theorems ask of a provider's libraries: sizes, HKDF, AEADs. *)
From Verif Require Import Base Provider SpecProvider SpecSecrets ProviderFacts TreePaths SpecCalm Primitives.
From Coq Require Import ZArith ZifyBool ZifyNat ZifyN Lia.
Import Coq.Strings.Byte.
Local Open Scope N_scope.

(** ** Bytes *)

Lemma byte_of_N n : Byte.to_N (byte_of n) = n mod 256.
Proof.
  unfold byte_of. destruct (Byte.of_N (n mod 256)) eqn:E.
  - apply Byte.to_of_N. exact E.
  - apply Byte.of_N_None_iff in E. pose proof (N.mod_lt n 256). lia.
Qed.
Lemma byte_lt b : Byte.to_N b < 256.
Proof. pose proof (Byte.to_N_bounded b). lia. Qed.
Lemma byte_of_to b : byte_of (Byte.to_N b) = b.
Proof. unfold byte_of. rewrite N.mod_small by apply byte_lt. rewrite Byte.of_to_N. reflexivity. Qed.
Lemma lxor_small a b : a < 256 -> b < 256 -> N.lxor a b mod 256 = N.lxor a b.
Proof.
  intros A B. change 256 with (2 ^ 8) in *. rewrite <- N.land_ones. apply N.bits_inj. intros i.
  rewrite N.land_spec, N.lxor_spec.
  assert (H : forall x, x < 2 ^ 8 -> N.testbit x i = N.testbit x i && N.testbit (N.ones 8) i).
  { intros x X. rewrite <- N.land_spec, N.land_ones, N.mod_small by exact X. reflexivity. }
  rewrite (H a A), (H b B). destruct (N.testbit a i), (N.testbit b i), (N.testbit (N.ones 8) i); reflexivity.
Qed.
Lemma bxor_twice a b : byte_of (N.lxor (Byte.to_N (byte_of (N.lxor (Byte.to_N a) (Byte.to_N b)))) (Byte.to_N b)) = a.
Proof.
  rewrite byte_of_N, lxor_small by apply byte_lt. rewrite N.lxor_assoc, N.lxor_nilpotent, N.lxor_0_r. apply byte_of_to.
Qed.
Lemma map2_length {A B C} (f : A -> B -> C) xs ys : length (map2 f xs ys) = Nat.min (length xs) (length ys).
Proof. unfold map2. rewrite map_length. apply combine_length. Qed.
Lemma xor_length xs ys : length (xor_bytes xs ys) = Nat.min (length xs) (length ys).
Proof. apply map2_length. Qed.
Lemma xor_twice : forall xs ys, (length xs <= length ys)%nat -> xor_bytes (xor_bytes xs ys) ys = xs.
Proof.
  induction xs as [|x xs IH]; intros [|y ys] L; cbn in L; try reflexivity; try lia.
  change (byte_of (N.lxor (Byte.to_N (byte_of (N.lxor (Byte.to_N x) (Byte.to_N y)))) (Byte.to_N y)) :: xor_bytes (xor_bytes xs ys) ys = x :: xs).
  rewrite bxor_twice, IH by lia. reflexivity.
Qed.
Lemma n_le_length k : forall n, length (n_le k n) = k.
Proof. induction k; intros n; cbn; [reflexivity|]. rewrite IHk. reflexivity. Qed.
Lemma n_be_length k n : length (n_be k n) = k.
Proof. unfold n_be. rewrite rev_length. apply n_le_length. Qed.
Lemma concat_map_length {A} (f : A -> bytes) k : (forall x, length (f x) = k) -> forall xs, length (concat (map f xs)) = (length xs * k)%nat.
Proof. intros H. induction xs; cbn; [reflexivity|]. rewrite app_length, H, IHxs. reflexivity. Qed.
Lemma chunks_aux_length k : (0 < k)%nat -> forall q f bs, length bs = (q * k)%nat -> (q <= f)%nat -> length (chunks_aux f k bs) = q.
Proof.
  intros K. induction q; intros f bs L F.
  - destruct bs; [destruct f; reflexivity|]. cbn in L. lia.
  - destruct f as [|f]; [lia|]. destruct bs as [|b bs]; [cbn in L; lia|].
    cbn [chunks_aux]. cbn [length]. f_equal. apply IHq; [|lia].
    rewrite skipn_length, L. lia.
Qed.
Lemma chunks_length k q bs : (0 < k)%nat -> length bs = (q * k)%nat -> length (chunks k bs) = q.
Proof. intros K L. apply chunks_aux_length; auto. rewrite L. nia. Qed.

(** ** Hashes *)

Definition eight (h : sha2) : Prop := length (start h) = 8%nat /\ (out_bytes h <= 8 * w_bytes h)%nat.
Lemma round_length h st kw : length st = 8%nat -> length (round h st kw) = 8%nat.
Proof. intros L. do 9 (destruct st as [|? st]; cbn in L; try discriminate L). reflexivity. Qed.
Lemma rounds_length h : forall kws st, length st = 8%nat -> length (fold_left (round h) kws st) = 8%nat.
Proof. induction kws; intros st L; cbn; [exact L|]. apply IHkws, round_length, L. Qed.
Lemma compress_length h st b : length st = 8%nat -> length (compress h st b) = 8%nat.
Proof. intros L. unfold compress. rewrite map2_length, rounds_length by exact L. rewrite L. reflexivity. Qed.
Lemma compresses_length h : forall bs st, length st = 8%nat -> length (fold_left (compress h) bs st) = 8%nat.
Proof. induction bs; intros st L; cbn; [exact L|]. apply IHbs, compress_length, L. Qed.
Lemma sha_length h m : eight h -> length (sha h m) = out_bytes h.
Proof.
  intros [S O]. unfold sha. rewrite firstn_length, (concat_map_length _ (w_bytes h)) by apply n_be_length.
  rewrite compresses_length by exact S. lia.
Qed.
Lemma hmac_length h k m : eight h -> length (hmac h k m) = out_bytes h.
Proof. intros E. unfold hmac. apply sha_length, E. Qed.
Lemma blocks_length h prk info : eight h -> forall n prev i, length (hkdf_blocks h prk info prev i n) = (n * out_bytes h)%nat.
Proof. intros E. induction n; intros prev i; cbn [hkdf_blocks]; [reflexivity|]. rewrite app_length, hmac_length, IHn by exact E. reflexivity. Qed.
Lemma expand_length h prk info n b : eight h -> (0 < out_bytes h)%nat -> hkdf_expand h prk info n = Some b -> N.of_nat (length b) = n.
Proof.
  intros E O. unfold hkdf_expand. destruct (_ <? _); [discriminate|]. intros H. injection H as <-.
  rewrite firstn_length, blocks_length by exact E. set (z := N.of_nat (out_bytes h)).
  assert (Z : 0 < z) by lia. assert (D : n <= (n + z - 1) / z * z).
  { pose proof (N.div_mod (n + z - 1) z). pose proof (N.mod_lt (n + z - 1) z). nia. }
  nia.
Qed.
Lemma all_eight h : eight (sha_params h) /\ out_bytes (sha_params h) = digest_bytes h.
Proof. destruct h; repeat split; cbn; lia. Qed.
Lemma real_sized : sized_prims real_prims.
Proof.
  split; [|split].
  - intros h x. destruct (all_eight h) as [E D]. rewrite <- D. apply sha_length, E.
  - intros h k x. destruct (all_eight h) as [E D]. rewrite <- D. apply hmac_length, E.
  - intros h s i n b H. destruct (all_eight h) as [E D]. eapply expand_length; [exact E| |exact H]. rewrite D. destruct h; cbn; lia.
Qed.
Lemma real_hkdf : hkdf_prims real_prims.
Proof.
  split.
  - intros h s L. destruct (all_eight h) as [E D]. cbn [real_prims pr_prk]. rewrite D. apply Nat.leb_le, L.
  - intros h s i n L. destruct (all_eight h) as [E D]. cbn [real_prims pr_expand]. unfold hkdf_expand. rewrite D.
    destruct (255 * N.of_nat (digest_bytes h) <? n) eqn:T; [apply N.ltb_lt in T; lia|]. eexists. reflexivity.
Qed.

(** ** AEADs *)

(** Both are a stream cipher and a 16-byte tag. *)
Section Stream.
Variables (k : nat) (E : N -> bytes).
Hypothesis K : (0 < k)%nat.
Hypothesis KE : forall c, length (E c) = k.
Fixpoint stream (ctr : N) (bs : list bytes) : bytes :=
  match bs with [] => [] | b :: bs => xor_bytes b (E ctr) ++ stream (ctr + 1) bs end%list.
Lemma stream_length : forall f m c, (length m < f)%nat -> length (stream c (chunks_aux f k m)) = length m.
Proof.
  induction f; intros m c L; [lia|]. destruct m as [|x m]; [reflexivity|].
  cbn [chunks_aux stream]. rewrite app_length, xor_length, KE, IHf; rewrite ?firstn_length, ?skipn_length; cbn [length] in *; lia.
Qed.
Lemma stream_twice : forall f f' m c, (length m < f)%nat -> (length m < f')%nat ->
  stream c (chunks_aux f' k (stream c (chunks_aux f k m))) = m.
Proof.
  induction f; intros f' m c L L'; [lia|]. destruct m as [|x m].
  - cbn. destruct f'; reflexivity.
  - set (m0 := x :: m) in *. destruct f' as [|f']; [lia|].
    assert (X : chunks_aux (S f) k m0 = firstn k m0 :: chunks_aux f k (skipn k m0)) by reflexivity.
    rewrite X. cbn [stream]. set (a := xor_bytes (firstn k m0) (E c)). set (r := stream (c + 1) (chunks_aux f k (skipn k m0))).
    assert (LA : length a = Nat.min k (length m0)) by (unfold a; rewrite xor_length, firstn_length, KE; lia).
    assert (M0 : (1 <= length m0)%nat) by (cbn; lia).
    assert (LR : length r = (length m0 - k)%nat) by (unfold r; rewrite stream_length; rewrite skipn_length; lia).
    assert (Y : chunks_aux (S f') k (a ++ r) = firstn k (a ++ r) :: chunks_aux f' k (skipn k (a ++ r))).
    { destruct (a ++ r)%list eqn:Q; [|reflexivity]. apply (f_equal (@length byte)) in Q. rewrite app_length in Q. cbn in Q. lia. }
    rewrite Y. cbn [stream].
    assert (F : firstn k (a ++ r) = a /\ skipn k (a ++ r) = r).
    { destruct (Nat.le_gt_cases k (length m0)).
      - assert (length a = k) by lia. rewrite firstn_app, skipn_app. replace (k - length a)%nat with 0%nat by lia.
        rewrite firstn_all2, skipn_all2 by lia. cbn [firstn skipn]. rewrite app_nil_r. split; reflexivity.
      - assert (r = []) by (apply length_zero_iff_nil; lia). rewrite H0. rewrite app_nil_r, firstn_all2, skipn_all2 by lia. split; reflexivity. }
    destruct F as [-> ->]. unfold a at 1. rewrite xor_twice by (rewrite firstn_length, KE; lia).
    unfold r. rewrite IHf by (rewrite skipn_length; lia). apply firstn_skipn.
Qed.
End Stream.

Lemma bytes_eqb_same b : bytes_eqb b b = true.
Proof. apply bytes_eqb_eq. reflexivity. Qed.
Lemma cut_tag (c t : bytes) : length t = 16%nat -> firstn (length (c ++ t) - 16) (c ++ t) = c /\ skipn (length (c ++ t) - 16) (c ++ t) = t /\ (16 <=? length (c ++ t))%nat = true.
Proof.
  intros T. rewrite app_length, T. replace (length c + 16 - 16)%nat with (length c) by lia.
  rewrite firstn_app, skipn_app, Nat.sub_diag, firstn_all, skipn_all. cbn [firstn skipn]. rewrite app_nil_r. repeat split. apply Nat.leb_le. lia.
Qed.

(** AES-128-GCM. *)
Lemma key_words_lengths : forall n r a b c d, length a = 4%nat -> length b = 4%nat -> length c = 4%nat -> length d = 4%nat ->
  Forall (fun k => length k = 16%nat) (key_words n r a b c d).
Proof.
  induction n; intros r a b c d A B C D; cbn [key_words].
  - constructor; [|constructor]. rewrite !app_length. lia.
  - constructor; [rewrite !app_length; lia|].
    do 5 (destruct d as [|? d]; cbn in D; try discriminate D).
    apply IHn; rewrite ?xor_length, ?A, ?B, ?C; reflexivity.
Qed.
Lemma aes_keys_lengths key : length key = 16%nat -> Forall (fun k => length k = 16%nat) (aes_keys key) /\ aes_keys key <> [].
Proof.
  intros L. do 17 (destruct key as [|? key]; cbn in L; try discriminate L).
  cbv [aes_keys chunks chunks_aux length firstn skipn]. split; [apply key_words_lengths; reflexivity|discriminate].
Qed.
Lemma mixed_length s : length (concat (map mix_column (chunks 4 (shift_rows s)))) = 16%nat.
Proof. reflexivity. Qed.
Lemma aes_rounds_length : forall keys s, Forall (fun k => length k = 16%nat) keys -> length s = 16%nat -> length (aes_rounds keys s) = 16%nat.
Proof.
  induction keys as [|k keys IH]; intros s F L; [exact L|]. inversion F; subst. destruct keys as [|k' keys].
  - cbn [aes_rounds]. rewrite xor_length, H1. reflexivity.
  - change (length (aes_rounds (k' :: keys) (xor_bytes (concat (map mix_column (chunks 4 (shift_rows (map sbox s))))) k)) = 16%nat).
    apply IH; [assumption|]. rewrite xor_length, mixed_length, H1. reflexivity.
Qed.
Lemma aes_length key b : length key = 16%nat -> length b = 16%nat -> length (aes_encrypt (aes_keys key) b) = 16%nat.
Proof.
  intros L B. destruct (aes_keys_lengths key L) as [F _]. unfold aes_encrypt. destruct (aes_keys key) as [|k ks]; [exact B|].
  inversion F; subst. apply aes_rounds_length; [assumption|]. rewrite xor_length, B, H1. reflexivity.
Qed.
Lemma gctr_stream keys nonce m : gctr keys nonce m = stream (fun c => aes_encrypt keys (nonce ++ n_be 4 c)) 2 (chunks 16 m).
Proof.
  unfold gctr. set (bs := chunks 16 m). clearbody bs. generalize 2. induction bs as [|b bs IH]; intros c; [reflexivity|].
  exact (f_equal (app (xor_bytes b (aes_encrypt keys (nonce ++ n_be 4 c)))) (IH (c + 1))).
Qed.
Lemma gcm_round key nonce pt aad c : gcm_seal key nonce pt aad = Ok c -> gcm_open key nonce c aad = Ok pt /\ length c = (length pt + 16)%nat.
Proof.
  unfold gcm_seal. destruct (gcm_usable key nonce) eqn:U; [|discriminate]. intros H. apply Ok_inj in H. subst c.
  unfold gcm_usable in U. apply andb_prop in U as [KL NL]. apply Nat.eqb_eq in KL, NL.
  assert (B : forall ctr, length (aes_encrypt (aes_keys key) (nonce ++ n_be 4 ctr)) = 16%nat)
    by (intros ctr; apply aes_length; [exact KL|]; rewrite app_length, n_be_length; lia).
  set (ct := gctr (aes_keys key) nonce pt). set (t := gcm_tag (aes_keys key) nonce aad ct).
  assert (T : length t = 16%nat) by (unfold t, gcm_tag; rewrite xor_length, n_be_length, B; reflexivity).
  destruct (cut_tag ct t T) as (F & S & G).
  assert (LC : length ct = length pt).
  { unfold ct. rewrite gctr_stream. unfold chunks. apply stream_length with (k := 16%nat); [lia|exact B|lia]. }
  split; [|rewrite app_length; lia].
  unfold gcm_open, gcm_usable. rewrite KL, NL, G, F, S. cbn [Nat.eqb andb]. fold t. rewrite bytes_eqb_same.
  f_equal. rewrite gctr_stream. unfold ct at 1. rewrite gctr_stream. unfold chunks. apply stream_twice with (k := 16%nat); [lia|exact B|lia|].
  fold (chunks 16 pt). rewrite <- gctr_stream. fold ct. lia.
Qed.

(** ChaCha20-Poly1305. *)
Lemma double_round_length s : length s = 16%nat -> length (double_round s) = 16%nat.
Proof.
  intros L. do 17 (destruct s as [|? s]; cbn in L; try discriminate L). unfold double_round.
  repeat match goal with |- context [quarter ?q] => destruct (quarter q) as [[[? ?] ?] ?] end. reflexivity.
Qed.
Lemma iter_round n s : length s = 16%nat -> length (Nat.iter n double_round s) = 16%nat.
Proof. intros L. induction n; [exact L|]. cbn. apply double_round_length, IHn. Qed.
Lemma chacha_block_length key nonce c : length key = 32%nat -> length nonce = 12%nat -> length (chacha_block key nonce c) = 64%nat.
Proof.
  intros K N. unfold chacha_block. set (s := (_ ++ _)%list).
  assert (L : length s = 16%nat).
  { unfold s. rewrite !app_length. cbn [length]. rewrite !map_length, (chunks_length 4 8), (chunks_length 4 3) by lia. reflexivity. }
  rewrite (concat_map_length _ 4) by apply n_le_length. rewrite map2_length, iter_round by exact L. rewrite L. reflexivity.
Qed.
Lemma chacha_stream key nonce m : chacha key nonce m = stream (chacha_block key nonce) 1 (chunks 64 m).
Proof.
  unfold chacha. set (bs := chunks 64 m). clearbody bs. generalize 1 at 2 3. induction bs as [|b bs IH]; intros c; [reflexivity|].
  exact (f_equal (app (xor_bytes b (chacha_block key nonce c))) (IH (c + 1))).
Qed.
Lemma chacha_round key nonce pt aad c : chacha_seal key nonce pt aad = Ok c -> chacha_open key nonce c aad = Ok pt /\ length c = (length pt + 16)%nat.
Proof.
  unfold chacha_seal. destruct (chacha_usable key nonce) eqn:U; [|discriminate]. intros H. apply Ok_inj in H. subst c.
  pose proof U as U0. unfold chacha_usable in U. apply andb_prop in U as [KL NL]. apply Nat.eqb_eq in KL, NL.
  assert (B : forall ctr, length (chacha_block key nonce ctr) = 64%nat) by (intros ctr; apply chacha_block_length; assumption).
  set (ct := chacha key nonce pt). set (t := chacha_tag key nonce aad ct).
  assert (T : length t = 16%nat) by apply n_le_length.
  destruct (cut_tag ct t T) as (F & S & G).
  assert (LC : length ct = length pt).
  { unfold ct. rewrite chacha_stream. unfold chunks. apply stream_length with (k := 64%nat); [lia|exact B|lia]. }
  split; [|rewrite app_length; lia].
  unfold chacha_open. rewrite U0, G, F, S. cbn [andb]. fold t. rewrite bytes_eqb_same.
  f_equal. rewrite chacha_stream. unfold ct at 1. rewrite chacha_stream. unfold chunks. apply stream_twice with (k := 64%nat); [lia|exact B|lia|].
  fold (chunks 64 pt). rewrite <- chacha_stream. fold ct. lia.
Qed.
Lemma real_aead : aead_prims_ok real_prims.
Proof.
  intros a k n pt ad c S. cbn [real_prims pr_seal pr_open] in *.
  assert (R : aead_open a k n c ad = Ok pt /\ length c = (length pt + 16)%nat).
  { destruct a; cbn [aead_seal aead_open] in *; [apply gcm_round, S|discriminate S|apply chacha_round, S]. }
  destruct R as [R L]. rewrite R. cbn [bind]. eexists. split; [reflexivity|]. rewrite skipn_length. lia.
Qed.

(** ** No panics *)
Lemma returns_bind {A B} (m : res A) (f : A -> res B) : returns m -> (forall a, returns (f a)) -> returns (bind m f).
Proof. intros [[a ->]|[e ->]] F; [apply F|right; exists e; reflexivity]. Qed.
Lemma returns_ok {A} (a : A) : returns (Ok a). Proof. left. exists a. reflexivity. Qed.
Lemma returns_err {A} e : returns (@Err A e). Proof. right. exists e. reflexivity. Qed.
Lemma returns_if {A} (b : bool) (m n : res A) : returns m -> returns n -> returns (if b then m else n).
Proof. destruct b; auto. Qed.
Lemma aead_seal_returns a k n pt ad : returns (aead_seal a k n pt ad).
Proof. destruct a; cbn [aead_seal]; [unfold gcm_seal|apply returns_err|unfold chacha_seal]; apply returns_if; apply returns_ok || apply returns_err. Qed.
Lemma aead_open_returns a k n ct ad : returns (aead_open a k n ct ad).
Proof. destruct a; cbn [aead_open]; [unfold gcm_open|apply returns_err|unfold chacha_open]; repeat apply returns_if; apply returns_ok || apply returns_err. Qed.
Lemma hpke_seal_returns a pk info e pt : returns (hpke_seal a pk info e pt).
Proof. unfold hpke_seal. destruct (hpke_keys _ _ _). apply returns_bind; [apply aead_seal_returns|]. intros. apply returns_ok. Qed.
Lemma hpke_open_returns a sk info kem ct : returns (hpke_open a sk info kem ct).
Proof. unfold hpke_open. destruct (hpke_keys _ _ _). apply aead_open_returns. Qed.
Lemma real_steady : steady_prims real_prims.
Proof.
  split; cbn [real_prims pr_seal pr_open pr_verify pr_base_seal pr_base_open]; intros.
  - apply aead_seal_returns.
  - apply returns_bind; [apply aead_open_returns|]. intros. apply returns_ok.
  - destruct s; try apply returns_err. apply returns_if; [apply returns_ok|apply returns_err].
  - destruct cs; try apply returns_err; apply hpke_seal_returns.
  - destruct cs; try apply returns_err; apply hpke_open_returns.
Qed.
