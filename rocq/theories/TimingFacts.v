(** Proofs about how long a tag is compared (SpecTiming.v). *)
From Verif Require Import SpecTiming Crypto Messages Base.
From Coq Require Import Strings.Byte List NArith Lia Bool FinFun.
Import ListNotations.
Local Open Scope N_scope.

Lemma eqb_same b : Byte.eqb b b = true.
Proof. destruct b; reflexivity. Qed.
Lemma eqb_iff x y : Byte.eqb x y = true <-> x = y.
Proof. split; [apply byte_dec_bl|intros ->; apply eqb_same]. Qed.
Lemma upto_app p a b : compare_upto (p ++ a) (p ++ b) = (fst (compare_upto a b), N.of_nat (length p) + snd (compare_upto a b)).
Proof.
  induction p as [|x p IH]; cbn [app compare_upto length]; [destruct (compare_upto a b); reflexivity|].
  rewrite eqb_same, IH. f_equal. lia.
Qed.
Lemma upto_fst a : forall b, fst (compare_upto a b) = true <-> a = b.
Proof.
  induction a as [|x a IH]; intros [|y b]; cbn; try (split; intros; congruence).
  destruct (Byte.eqb x y) eqn:E.
  - apply eqb_iff in E. subst y. destruct (compare_upto a b) as [v n] eqn:C. cbn [fst]. specialize (IH b). rewrite C in IH. cbn [fst] in IH.
    rewrite IH. split; intros H; [subst; reflexivity|injection H; auto].
  - cbn. split; [discriminate|]. intros H. injection H as -> ->. rewrite eqb_same in E. discriminate.
Qed.
Lemma counted_fst a b : fst (compare_counted a b) = true <-> a = b.
Proof.
  unfold compare_counted. destruct (Nat.eqb_spec (length a) (length b)) as [E|E]; [apply upto_fst|]. cbn. split; [discriminate|]. intros ->. contradiction.
Qed.
Lemma counted_bytes a b : fst (compare_counted a b) = bytes_eqb a b.
Proof.
  unfold bytes_eqb. destruct (list_eq_dec Byte.byte_eq_dec a b) as [E|E]; [apply counted_fst; exact E|].
  destruct (fst (compare_counted a b)) eqn:F; [|reflexivity]. apply counted_fst in F. contradiction.
Qed.

(** The same verdict. *)
Lemma c113_same P cs key msg tag : verify_mac P cs key msg tag =
  match timed_verify_mac P cs key msg tag with Ok (true, _) => Ok tt | Ok (false, _) => Err VerifyConfirmationTagFailed | Err e => Err e | Panic => Panic | Hang => Hang end.
Proof.
  unfold verify_mac, timed_verify_mac. destruct (sign_mac P cs key msg) as [m|e| |]; cbn [bind]; [|reflexivity..].
  pose proof (counted_bytes tag m) as E. destruct (compare_counted tag m) as [v n]. cbn [fst] in E. subst v. destruct (bytes_eqb tag m); reflexivity.
Qed.

(** How long: up to the first difference. *)
Lemma c113_time p a b x y : length a = length b -> x <> y -> compare_counted (p ++ x :: a) (p ++ y :: b) = (false, N.of_nat (length p) + 1).
Proof.
  intros L N. unfold compare_counted. rewrite !app_length. cbn [length]. rewrite L, Nat.eqb_refl, upto_app. cbn [compare_upto].
  destruct (Byte.eqb x y) eqn:E; [apply eqb_iff in E; contradiction|]. reflexivity.
Qed.

(** Finding a tag. *)
Lemma all_candidates b : In b candidates.
Proof. unfold candidates. apply in_map_iff. exists (N.to_nat (Byte.to_N b)). rewrite N2Nat.id, Byte.of_to_N. split; [reflexivity|]. apply in_seq. pose proof (Byte.to_N_bounded b). lia. Qed.
Lemma few_candidates : length candidates = 256%nat.
Proof. unfold candidates. rewrite map_length, seq_length. reflexivity. Qed.
Section Find.
  Variable t : bytes.
  Let ask (c : bytes) := compare_counted c t.
  Lemma ask_right known b rest after : t = (known ++ b :: rest)%list -> length rest = after ->
    (let (v, n) := ask (known ++ b :: repeat x00 after) in v || (N.of_nat (length known) + 1 <? n)) = true.
  Proof.
    intros E L. unfold ask, compare_counted. rewrite E, !app_length. cbn [length]. rewrite repeat_length, L, Nat.eqb_refl, upto_app. cbn [compare_upto]. rewrite eqb_same.
    destruct (compare_upto (repeat x00 after) rest) as [v n] eqn:C. cbn [fst snd]. destruct v; [reflexivity|]. cbn [orb]. apply N.ltb_lt.
    destruct rest as [|y rest]; [cbn in L; subst after; discriminate|]. destruct after as [|after]; [discriminate|]. cbn [repeat compare_upto] in C.
    destruct (Byte.eqb x00 y); [destruct (compare_upto (repeat x00 after) rest)|]; apply (f_equal snd) in C; cbn [snd] in C; lia.
  Qed.
  Lemma ask_wrong known b y rest after : t = (known ++ y :: rest)%list -> length rest = after -> b <> y ->
    (let (v, n) := ask (known ++ b :: repeat x00 after) in v || (N.of_nat (length known) + 1 <? n)) = false.
  Proof.
    intros E L N. unfold ask. rewrite E, c113_time; [|rewrite repeat_length; auto|exact N]. cbn [orb]. apply N.ltb_irrefl.
  Qed.
  Lemma next_right known b rest after : t = (known ++ b :: rest)%list -> length rest = after -> forall bs asked, In b bs ->
    exists asked', next_byte ask known after bs asked = Some (b, asked') /\ asked' <= asked + N.of_nat (length bs).
  Proof.
    intros E L. induction bs as [|c bs IH]; intros asked I; [destruct I|]. cbn [next_byte].
    destruct (Byte.byte_eq_dec c b) as [->|N].
    - pose proof (ask_right known b rest after E L) as R. destruct (ask (known ++ b :: repeat x00 after)) as [v n]. rewrite R. exists (asked + 1). split; [reflexivity|]. cbn [length]. lia.
    - pose proof (ask_wrong known c b rest after E L N) as R. destruct (ask (known ++ c :: repeat x00 after)) as [v n]. rewrite R.
      destruct I as [I|I]; [congruence|]. destruct (IH (asked + 1) I) as (a & H & B). exists a. split; [exact H|]. cbn [length]. lia.
  Qed.
  Lemma find_right n : forall known rest asked, t = (known ++ rest)%list -> length rest = n ->
    exists asked', find_tag ask known n asked = Some (t, asked') /\ asked' <= asked + 256 * N.of_nat n.
  Proof.
    induction n as [|n IH]; intros known rest asked E L; cbn [find_tag].
    - destruct rest; [|discriminate]. rewrite app_nil_r in E. subst known. exists asked. split; [reflexivity|lia].
    - destruct rest as [|b rest]; [discriminate|]. injection L as L.
      destruct (next_right known b rest n E L candidates asked (all_candidates b)) as (a & H & B). rewrite H. rewrite few_candidates in B.
      destruct (IH (known ++ [b])%list rest a) as (a' & H' & B'); [rewrite <- app_assoc; exact E|exact L|]. exists a'. split; [exact H'|]. lia.
  Qed.
End Find.

Lemma c113_found P cs key msg m : sign_mac P cs key msg = Ok m ->
  exists asked, find_tag (fun tag => match timed_verify_mac P cs key msg tag with Ok r => r | _ => (false, 0) end) [] (length m) 0 = Some (m, asked) /\
    asked <= 256 * N.of_nat (length m) /\ verify_mac P cs key msg m = Ok tt.
Proof.
  intros S. destruct (find_right m (length m) [] m 0 eq_refl eq_refl) as (a & H & B). exists a. unfold timed_verify_mac. rewrite S. cbn [bind].
  split; [exact H|]. split; [lia|]. rewrite c113_same. unfold timed_verify_mac. rewrite S. cbn [bind].
  pose proof (proj2 (counted_fst m m) eq_refl) as E. destruct (compare_counted m m) as [v n]. cbn [fst] in E. rewrite E. reflexivity.
Qed.

(** Verdicts only. *)
Fixpoint all_tags (n : nat) : list bytes := match n with O => [[]] | S n => flat_map (fun b => map (cons b) (all_tags n)) candidates end.
Lemma map_nodup {A B} (f : A -> B) l : NoDup l -> (forall i j, In i l -> In j l -> f i = f j -> i = j) -> NoDup (map f l).
Proof.
  induction 1 as [|x l N _ IH]; intros F; cbn; constructor.
  - intros I. apply in_map_iff in I as (y & E & I). apply F in E; [subst y; contradiction|right; exact I|left; reflexivity].
  - apply IH. intros i j I J. apply F; right; assumption.
Qed.
Lemma candidates_nodup : NoDup candidates.
Proof.
  unfold candidates. apply map_nodup; [apply seq_NoDup|]. intros i j I J E. apply in_seq in I, J.
  destruct (Byte.of_N (N.of_nat i)) as [x|] eqn:X; [|apply Byte.of_N_None_iff in X; lia].
  destruct (Byte.of_N (N.of_nat j)) as [y|] eqn:Y; [|apply Byte.of_N_None_iff in Y; lia].
  subst y. apply Byte.to_of_N in X, Y. rewrite X in Y. lia.
Qed.
Lemma tags_length n : N.of_nat (length (all_tags n)) = 256 ^ N.of_nat n.
Proof.
  induction n as [|n IH]; [reflexivity|]. cbn [all_tags]. rewrite Nat2N.inj_succ, N.pow_succ_r', <- IH.
  assert (G : forall l, N.of_nat (length (flat_map (fun b => map (cons b) (all_tags n)) l)) = N.of_nat (length l) * N.of_nat (length (all_tags n))).
  { induction l as [|b l IHl]; [reflexivity|]. cbn [flat_map]. rewrite app_length, map_length, Nat2N.inj_add, IHl. cbn [length]. lia. }
  rewrite G, few_candidates. reflexivity.
Qed.
Lemma tags_are n : forall x, In x (all_tags n) -> length x = n.
Proof.
  induction n as [|n IH]; intros x H; [destruct H as [<-|[]]; reflexivity|]. cbn [all_tags] in H. apply in_flat_map in H as (b & _ & H). apply in_map_iff in H as (y & <- & H).
  cbn [length]. rewrite (IH y H). reflexivity.
Qed.
Lemma tags_nodup n : NoDup (all_tags n).
Proof.
  induction n as [|n IH]; [constructor; [intros []|constructor]|]. cbn [all_tags]. pose proof candidates_nodup as N. induction N as [|b l NI N IHl]; [constructor|]. cbn [flat_map].
  assert (D : forall (l1 l2 : list bytes), NoDup l1 -> NoDup l2 -> (forall x, In x l1 -> ~ In x l2) -> NoDup (l1 ++ l2)).
  { induction l1 as [|x l1 IH1]; intros l2 N1 N2 X; [exact N2|]. inversion N1 as [|? ? NX N1']; subst. cbn. constructor.
    - rewrite in_app_iff. intros [A|A]; [contradiction|]. exact (X x (or_introl eq_refl) A).
    - apply IH1; [exact N1'|exact N2|]. intros y A. apply X. right. exact A. }
  apply D; [apply FinFun.Injective_map_NoDup; [intros x y E; injection E; auto|exact IH]|exact IHl|].
  intros x I J. apply in_map_iff in I as (y & <- & _). apply in_flat_map in J as (c & C & J). apply in_map_iff in J as (z & E & _). injection E as -> _. contradiction.
Qed.
Lemma plan_fails n (plan : list bytes) : N.of_nat (length plan) < 256 ^ N.of_nat n -> exists tag, length tag = n /\ ~ In tag plan.
Proof.
  intros L. destruct (Exists_dec (fun tag => ~ In tag plan) (all_tags n)) as [E|E].
  - intros x. destruct (in_dec (list_eq_dec Byte.byte_eq_dec) x plan) as [I|I]; [right|left; exact I]. intros N. contradiction.
  - apply Exists_exists in E as (x & I & N). exists x. split; [exact (tags_are n x I)|exact N].
  - exfalso. assert (I : incl (all_tags n) plan).
    { intros x I. destruct (in_dec (list_eq_dec Byte.byte_eq_dec) x plan) as [J|J]; [exact J|]. destruct E. apply Exists_exists. exists x. auto. }
    pose proof (NoDup_incl_length (tags_nodup n) I) as B. pose proof (tags_length n). lia.
Qed.
Lemma no_hit next tag q : forall k, ~ In tag (map (fun i => next (repeat false i)) (seq k q)) -> ~ hit_within next tag (repeat false k) q.
Proof.
  induction q as [|q IH]; intros k N; cbn [hit_within]; [auto|]. cbn [seq map] in N. unfold bytes_eqb.
  destruct (list_eq_dec Byte.byte_eq_dec (next (repeat false k)) tag) as [E|E]; [intros _; apply N; left; exact E|].
  replace (repeat false k ++ [false])%list with (repeat false (S k)) by exact (repeat_cons k false). apply IH. intros I. apply N. right. exact I.
Qed.
Lemma c113_verdicts n next q : N.of_nat q < 256 ^ N.of_nat n -> exists tag, length tag = n /\ ~ hit_within next tag [] q.
Proof.
  intros L. destruct (plan_fails n (map (fun i => next (repeat false i)) (seq 0 q))) as (tag & T & N); [rewrite map_length, seq_length; exact L|].
  exists tag. split; [exact T|]. exact (no_hit next tag q 0 N).
Qed.
Lemma c113_membership P cs c a key ctx i raw m : fc_sender c = SMember i -> se_auth_content_tbm (public_tbm (MkPublic c a None) ctx) = Ok raw -> sign_mac P cs key raw = Ok m ->
  exists asked, find_tag (fun tag => match timed_verify_mac P cs key raw tag with Ok r => r | _ => (false, 0) end) [] (length m) 0 = Some (m, asked) /\
    asked <= 256 * N.of_nat (length m) /\ verify_membership_tag P cs (MkPublic c a (Some m)) key ctx = Ok tt.
Proof.
  intros S R M. destruct (c113_found P cs key raw m M) as (asked & F & B & V). exists asked. split; [exact F|]. split; [exact B|].
  unfold verify_membership_tag. cbn [pm_content pm_tag]. rewrite S.
  change (public_tbm (MkPublic c a (Some m)) ctx) with (public_tbm (MkPublic c a None) ctx). rewrite R. exact V.
Qed.
