(** Proofs about what an invitation gives away. *)
From Verif Require Import CodecLib SecretFacts KeyFacts ForwardFacts LockedFacts WelcomeFacts ExProvider SpecInvite.
From Coq Require Import ZifyBool ZifyNat ZifyN.
Local Open Scope N_scope.

Lemma welcome_call k e b : welcome_value k e b -> exists c, welcome_made k e c /\ call k c = Ok b /\
  exists s l n, c = CExpand s (kdf_label l [] n) n /\ In l [str "welcome"; str "key"; str "nonce"] /\ n < 65536.
Proof.
  assert (M : forall a, a mod 65536 < 65536) by (intros; apply N.mod_lt; discriminate).
  intros [(me & A & B)|(key & nonce & (ws & W & N & K) & [-> | ->])].
  - exists (CExpand me (kdf_label (str "welcome") [] (nh k)) (nh k)). split; [right; left; exists me; auto|]. split; [exact B|]. do 3 eexists. split; [reflexivity|]. split; [cbn; auto|apply M].
  - eexists. split; [right; right; exists ws; split; [exact W|left; reflexivity]|]. split; [exact K|]. do 3 eexists. split; [reflexivity|]. split; [cbn; auto|apply M].
  - eexists. split; [right; right; exists ws; split; [exact W|right; reflexivity]|]. split; [exact N|]. do 3 eexists. split; [reflexivity|]. split; [cbn; auto|apply M].
Qed.

Lemma c101_only k S D e b : welcome_value k e b -> knows k S D b ->
  S b \/ (exists ws, welcome_secret k (er_joiner e) (er_psk e) ws /\ S ws) \/ (exists me, member_secret k e me /\ S me) \/
  (knows k S D (er_joiner e) /\ knows k S D (psk_or_zero k (er_psk e))) \/ clash k D (welcome_made k e).
Proof.
  assert (ONE : forall me, member_secret k e me -> knows k S D me -> S me \/ (knows k S D (er_joiner e) /\ knows k S D (psk_or_zero k (er_psk e))) \/ clash k D (welcome_made k e)).
  { intros me A N. destruct (step_back k S D (welcome_made k e) (CExtract (er_joiner e) (psk_or_zero k (er_psk e))) me N (or_introl eq_refl) A) as [L|[X|N1]]; [auto|auto|].
    right. left. split; apply N1; [left|right]; reflexivity. }
  assert (TWO : forall ws, welcome_secret k (er_joiner e) (er_psk e) ws -> knows k S D ws -> S ws \/ (exists me, member_secret k e me /\ S me) \/
     (knows k S D (er_joiner e) /\ knows k S D (psk_or_zero k (er_psk e))) \/ clash k D (welcome_made k e)).
  { intros ws (me & A & B) N. destruct (step_back k S D (welcome_made k e) (CExpand me (kdf_label (str "welcome") [] (nh k)) (nh k)) ws N) as [L|[X|N1]]; [right; left; exists me; auto|exact B|auto|auto|].
    destruct (ONE me A (N1 me eq_refl)) as [X|[X|X]]; [right; left; exists me; auto|auto|auto]. }
  intros [W|(key & nonce & (ws & W & NN & NK) & Q)] N.
  - destruct (TWO b W N) as [X|[X|[X|X]]]; auto 7.
  - assert (Z : S b \/ clash k D (welcome_made k e) \/ knows k S D ws).
    { destruct Q as [-> | ->].
      - destruct (step_back k S D (welcome_made k e) (CExpand ws (kdf_label (str "key") [] (a_key_size k mod 65536)) (a_key_size k mod 65536)) key N) as [L|[X|N1]];
          [right; right; exists ws; auto|exact NK|auto|auto|]. right. right. apply N1. reflexivity.
      - destruct (step_back k S D (welcome_made k e) (CExpand ws (kdf_label (str "nonce") [] (a_nonce_size k mod 65536)) (a_nonce_size k mod 65536)) nonce N) as [L|[X|N1]];
          [right; right; exists ws; auto|exact NN|auto|auto|]. right. right. apply N1. reflexivity. }
    destruct Z as [X|[X|X]]; [auto|auto 7|]. destruct (TWO ws W X) as [Y|[Y|[Y|Y]]]; [|auto 7..]. right. left. exists ws. auto.
Qed.

Lemma c101_invited P cs k S D e : p_hpke P cs = Ok k -> runs P cs e -> knows k S D (er_joiner e) -> knows k S D (psk_or_zero k (er_psk e)) ->
  (forall b, welcome_value k e b -> exists D', knows k S D' b) /\
  forall lab x, In lab schedule_labels -> derive_secret P cs (er_epoch e) lab = Ok x -> exists D', knows k S D' x.
Proof.
  intros K R NJ NP. assert (M : forall me, member_secret k e me -> can k S D me).
  { intros me A. apply (can_call k S D (CExtract (er_joiner e) (psk_or_zero k (er_psk e))) me A). intros x [-> | ->]; apply can_knows; assumption. }
  assert (W : forall ws, welcome_secret k (er_joiner e) (er_psk e) ws -> can k S D ws).
  { intros ws (me & A & B). apply (can_call k S D (CExpand me (kdf_label (str "welcome") [] (nh k)) (nh k)) ws B). intros x ->. apply M, A. }
  split.
  - intros b H. assert (Z : can k S D b); [|destruct Z as (D' & _ & Z); exists D'; exact Z]. destruct H as [H|(key & nonce & (ws & V & NN & NK) & [-> | ->])]; [apply W, H|..].
    + apply (can_call k S D (CExpand ws (kdf_label (str "key") [] (a_key_size k mod 65536)) (a_key_size k mod 65536)) key NK). intros x ->. apply W, V.
    + apply (can_call k S D (CExpand ws (kdf_label (str "nonce") [] (a_nonce_size k mod 65536)) (a_nonce_size k mod 65536)) nonce NN). intros x ->. apply W, V.
  - intros lab x I E. destruct (epoch_steps P cs k e K R) as (ex & me & raw & A & B & G & C1 & C2 & _).
    assert (Z : can k S D x); [|destruct Z as (D' & _ & Z); exists D'; exact Z].
    rewrite (derive_expand P cs k) in E by (exact K || apply schedule_fits, I). apply (can_call _ _ _ _ _ E). intros y ->. apply (can_call _ _ _ _ _ C2). intros y ->. apply M, B.
Qed.

(** A welcome value is not the result of another call, unless there is a clash. *)
Lemma welcome_apart k D e (made : kdf_call -> Prop) b c : (forall c, welcome_made k e c -> made c) -> welcome_value k e b -> made c -> call k c = Ok b ->
  (exists s i, c = CExtract s i) \/ (exists s l raw n, c = CExpand s (kdf_label l raw n) n /\ ~ In l [str "welcome"; str "key"; str "nonce"] /\ fits30 (mls_label l) /\ fits30 raw /\ n < 65536) ->
  clash k D made.
Proof.
  intros M W H E F. destruct (welcome_call k e b W) as (c' & M' & E' & s' & l' & n' & Q & I' & L'). exists c, c', b. split; [auto|]. split; [right; apply M, M'|]. split; [|auto].
  intros ->. destruct F as [(s & i & F)|(s & l & raw & n & F & NI & F1 & F2 & F3)]; [rewrite F in Q; discriminate|]. rewrite F in Q. apply call_inj in Q as (_ & Q & _).
  apply kdf_label_inj in Q as (-> & _); try assumption; [contradiction| |reflexivity]. destruct I' as [<-|[<-|[<-|[]]]]; reflexivity.
Qed.
Lemma schedule_apart l : In l schedule_labels -> ~ In l [str "welcome"; str "key"; str "nonce"].
Proof. intros H J. cbn in H, J. repeat (destruct H as [<-|H]; [repeat (destruct J as [J|J]; [discriminate|]); exact J|]). exact H. Qed.

Lemma c101_sideways P cs k (S : bytes -> Prop) D e lab x : p_hpke P cs = Ok k -> runs P cs e -> In lab schedule_labels -> derive_secret P cs (er_epoch e) lab = Ok x ->
  let W := fun b => S b \/ welcome_value k e b in
  knows k W D x -> S x \/ late_leak k S e \/ (early_leak k S e /\ knows k W D (psk_or_zero k (er_psk e))) \/
  (knows k W D (er_before e) /\ knows k W D (er_commit e) /\ knows k W D (psk_or_zero k (er_psk e))) \/
  clash k D (fun c => epoch_made k e c \/ welcome_made k e c).
Proof.
  intros K R I E W N. set (made := fun c => epoch_made k e c \/ welcome_made k e c).
  assert (NH : nh k < 65536) by (apply N.mod_lt; discriminate).
  assert (MW : forall c, welcome_made k e c -> made c) by (intros c H; right; exact H).
  destruct (epoch_steps P cs k e K R) as (ex & me & raw & A & B & G & C1 & C2 & _).
  assert (FR : fits30 raw). { destruct R as (Q & J & _). rewrite <- Q in K. apply (joiner_iff P _ k _ _ _ K) in J as (ex' & raw' & _ & J2 & F & _). rewrite G in J2. injection J2 as ->. exact F. }
  assert (EM : forall c, c = CExtract (er_before e) (er_commit e) \/ c = CExpand ex (kdf_label (str "joiner") raw (nh k)) (nh k) \/
     c = CExtract (er_joiner e) (psk_or_zero k (er_psk e)) \/ c = CExpand me (kdf_label (str "epoch") raw (nh k)) (nh k) \/ (exists l, In l schedule_labels /\ c = CExpand (er_epoch e) (kdf_label l [] (nh k)) (nh k)) -> made c).
  { intros c H. left. exists ex, me, raw. split; [exact A|]. split; [exact B|]. split; [exact G|]. tauto. }
  assert (CM : clash k D (epoch_made k e) -> clash k D made) by (apply clash_mono; intros c H; left; exact H).
  destruct (know_derived P cs k W D e lab x K R I E N) as [X|[[X|X]|N1]]; [auto 6|auto| |].
  - do 4 right. rewrite (derive_expand P cs k) in E by (exact K || apply schedule_fits, I).
    eapply (welcome_apart k D e made x _ MW X); [|exact E|]; [apply EM; do 4 right; eauto|]. right. do 4 eexists. split; [reflexivity|].
    split; [apply schedule_apart, I|]. split; [apply schedule_fits, I|]. split; [reflexivity|exact NH].
  - destruct (know_epoch P cs k W D e K R N1) as [X|[[[X|X]|(m & Em & [X|X])]|[[[[X|X]|(m & Em & [X|X])] Y]|Y]]].
    + auto 6.
    + right. left. left. exact X.
    + do 4 right. eapply (welcome_apart k D e made _ _ MW X); [|exact C2|]; [apply EM; tauto|]. right. do 4 eexists. split; [reflexivity|]. split; [intros H; cbn in H; repeat (destruct H as [H|H]; [discriminate|]); exact H|]. split; [reflexivity|auto].
    + right. left. right. exists m. auto.
    + do 4 right. eapply (welcome_apart k D e made _ (CExtract _ _) MW X); [|exact Em|]; [apply EM; tauto|]. left. eauto.
    + right. right. left. split; [left; exact X|exact Y].
    + do 4 right. eapply (welcome_apart k D e made _ _ MW X); [|exact C1|]; [apply EM; tauto|]. right. do 4 eexists. split; [reflexivity|]. split; [intros H; cbn in H; repeat (destruct H as [H|H]; [discriminate|]); exact H|]. split; [reflexivity|auto].
    + right. right. left. split; [right; exists m; auto|exact Y].
    + do 4 right. eapply (welcome_apart k D e made _ (CExtract _ _) MW X); [|exact Em|]; [apply EM; tauto|]. left. eauto.
    + auto 6.
Qed.

Lemma c101_without_psk P cs k (S : bytes -> Prop) D e lab x : p_hpke P cs = Ok k -> runs P cs e -> In lab schedule_labels -> derive_secret P cs (er_epoch e) lab = Ok x ->
  ~ S x -> ~ late_leak k S e -> ~ knows k (fun b => S b \/ welcome_value k e b) D (psk_or_zero k (er_psk e)) ->
  knows k (fun b => S b \/ welcome_value k e b) D x -> clash k D (fun c => epoch_made k e c \/ welcome_made k e c).
Proof. intros K R I E NX NL NP N. destruct (c101_sideways P cs k S D e lab x K R I E N) as [X|[X|[[_ X]|[(_ & _ & X)|X]]]]; [contradiction..|exact X]. Qed.

Lemma c101_opens P w k e gi : p_hpke P (w_suite w) = Ok k ->
  (decrypt_group_info P w (er_joiner e) (er_psk e) = Ok gi <->
   exists key nonce raw rest, welcome_keys k (er_joiner e) (er_psk e) key nonce /\ welcome_value k e key /\ welcome_value k e nonce /\
     a_open k key nonce (w_group_info w) [] = Ok raw /\ de_group_info raw = Ok (gi, rest)).
Proof.
  intros K. rewrite (c56_info_iff P w k _ _ gi K). split.
  - intros (key & nonce & raw & rest & W & O). exists key, nonce, raw, rest. split; [exact W|]. split; [right; eauto|]. split; [right; eauto|exact O].
  - intros (key & nonce & raw & rest & W & _ & _ & O). exists key, nonce, raw, rest. split; [exact W|exact O].
Qed.

Definition ex_wsecret : bytes := ok_or [] (extract_welcome_secret ideal Suite2 (er_joiner ex_epoch2) (er_psk ex_epoch2)).
Definition ex_uninvited (b : bytes) : Prop := In b [er_joiner ex_epoch2; er_init ex_epoch1; str "commit two"; zero_bytes 4].
Lemma c101_example : runs ideal Suite2 ex_epoch2 /\ welcome_value ideal_hpke ex_epoch2 ex_wsecret /\
  derive_secret ideal Suite2 (er_epoch ex_epoch2) label_encryption = Ok (ex_enc ex_epoch2) /\
  (forall D, ~ knows ideal_hpke ex_uninvited D ex_wsecret) /\
  (forall D, ~ knows ideal_hpke (fun b => ex_uninvited b \/ welcome_value ideal_hpke ex_epoch2 b) D (ex_enc ex_epoch2)) /\
  (exists D, knows ideal_hpke (fun b => b = er_joiner ex_epoch2 \/ b = str "psk") D ex_wsecret) /\
  exists D, knows ideal_hpke (fun b => b = er_joiner ex_epoch2 \/ b = str "psk") D (ex_enc ex_epoch2).
Proof.
  assert (R : runs ideal Suite2 ex_epoch2) by (apply (lifetime_runs _ _ _ _ (proj2 ex_lifetime)); right; left; reflexivity).
  assert (W : welcome_value ideal_hpke ex_epoch2 ex_wsecret). { left. eexists. split; [reflexivity|]. vm_compute. reflexivity. }
  assert (EN : In label_encryption schedule_labels) by (right; right; left; reflexivity).
  assert (E2 : derive_secret ideal Suite2 (er_epoch ex_epoch2) label_encryption = Ok (ex_enc ex_epoch2)) by (vm_compute; reflexivity).
  assert (OUT : forall L k, bytes_in k L = false -> ~ In k L) by (intros L k; unfold bytes_in; destruct (in_dec _ k L); [discriminate|auto]).
  assert (NK : forall (S : bytes -> Prop) D b, ~ S b -> (forall c, call ideal_hpke c <> Ok b) -> ~ knows ideal_hpke S D b) by (intros S D b A B K; inversion K; subst; [contradiction|eapply B; eassumption]).
  assert (NP : forall c, call ideal_hpke c <> Ok (psk_or_zero ideal_hpke (er_psk ex_epoch2))) by (intros []; discriminate).
  assert (UP : ~ ex_uninvited (psk_or_zero ideal_hpke (er_psk ex_epoch2))) by (apply OUT; vm_compute; reflexivity).
  split; [exact R|]. split; [exact W|]. split; [exact E2|]. split; [|split; [|split]].
  - intros D N. destruct (c101_only ideal_hpke ex_uninvited D ex_epoch2 ex_wsecret W N) as [X|[(ws & (me & A & B) & X)|[(me & A & X)|[[_ X]|X]]]].
    + revert X. apply OUT. vm_compute. reflexivity.
    + vm_compute in A. apply Ok_inj in A. subst me. vm_compute in B. apply Ok_inj in B. subst ws. revert X. apply OUT. vm_compute. reflexivity.
    + vm_compute in A. apply Ok_inj in A. subst me. revert X. apply OUT. vm_compute. reflexivity.
    + revert X. apply NK; [exact UP|exact NP].
    + revert X. apply ideal_no_clash, ideal_injective.
  - intros D N. eapply (ideal_no_clash ideal_hpke D); [exact ideal_injective|]. eapply (c101_without_psk ideal Suite2 ideal_hpke ex_uninvited D ex_epoch2 label_encryption _ eq_refl R EN E2); [..|exact N].
    + apply OUT. vm_compute. reflexivity.
    + intros [X|(me & A & X)]; [revert X; apply OUT; vm_compute; reflexivity|]. vm_compute in A. apply Ok_inj in A. subst me. revert X. apply OUT. vm_compute. reflexivity.
    + apply NK; [|exact NP]. intros [X|X]; [exact (UP X)|]. apply welcome_call in X as (c & _ & X & _). exact (NP c X).
  - destruct (c101_invited ideal Suite2 ideal_hpke (fun b => b = er_joiner ex_epoch2 \/ b = str "psk") [] ex_epoch2 eq_refl R) as [A _]; [apply kn_given; auto..|]. apply A, W.
  - destruct (c101_invited ideal Suite2 ideal_hpke (fun b => b = er_joiner ex_epoch2 \/ b = str "psk") [] ex_epoch2 eq_refl R) as [_ A]; [apply kn_given; auto..|]. exact (A _ _ EN E2).
Qed.
