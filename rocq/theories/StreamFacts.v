(** Proofs about messages that arrive in parts. *)
From Verif Require Import CodecLib WireCodecs TreeCodec CodecPanics LayoutFacts SpecStream.
Local Open Scope N_scope.

Definition in_window (o : option bytes) (n : nat) : bool :=
  match o with None => false | Some b => (length b + 8 <=? n)%nat && (n <? length b + 16)%nat end.
Definition outcome {X} (o : option bytes) (n : nat) : res X := if in_window o n then Panic else Err BufferTooSmall.
(** Decoding part of an encoding. *)
Definition cutting {X} (o : option bytes) (r : res bytes) (de : bytes -> res X) : Prop :=
  forall p q x, r = Ok p -> p = q ++ x -> x <> [] -> de q = outcome o (length q).
Definition shorts {A} (wf : A -> Prop) (ser : A -> res bytes) (de : bytes -> res (A * bytes)) : Prop := forall a, wf a -> cutting None (ser a) de.
Existing Class shorts.

Lemma window_small o n : (n < 8)%nat -> in_window o n = false.
Proof. destruct o as [b|]; cbn; [|reflexivity]. intros. destruct (Nat.leb_spec (length b + 8) n); [lia|reflexivity]. Qed.
Lemma app_split {A} (p1 p2 q x : list A) : p1 ++ p2 = q ++ x -> x <> [] ->
  (exists x1, p1 = q ++ x1 /\ x1 <> []) \/ (exists q2, q = p1 ++ q2 /\ p2 = q2 ++ x).
Proof.
  revert q. induction p1 as [|b p1 IH]; intros q E N.
  - right. exists q. auto.
  - destruct q as [|c q].
    + left. exists (b :: p1). split; [reflexivity|discriminate].
    + cbn in E. injection E as -> E. destruct (IH q E N) as [(x1 & -> & N1)|(q2 & -> & ->)]; [left|right]; eexists; (split; [reflexivity|auto]).
Qed.

Lemma cut_seq {A X} (wf : A -> Prop) ser de (a : A) (o : option bytes) h r2 (f : A * bytes -> res X) :
  codec wf ser de -> shorts wf ser de -> wf a -> says (ser a) h -> cutting o r2 (fun q => f (a, q)) ->
  cutting (after h o) (ser a +++ r2) (fun q => bind (de q) f).
Proof.
  intros C S W L H p q x E P N. apply seqw_ok in E as (p1 & p2 & E1 & E2 & ->). pose proof (L _ E1) as <-. apply app_split in P as [(x1 & P & N1)|(q2 & -> & P)]; [| |exact N].
  - rewrite (S a W p1 q x1 E1 P N1). unfold outcome at 1. cbn [in_window bind]. unfold outcome.
    assert (F : in_window (after p1 o) (length q) = false); [|rewrite F; reflexivity].
    destruct o as [b|]; [|reflexivity]. cbn [in_window after option_map]. rewrite P, !app_length. destruct (Nat.leb_spec (length q + length x1 + length b + 8) (length q)); [lia|reflexivity].
  - rewrite (codec_rt C a p1 q2 W E1). cbn [bind]. rewrite (H p2 q2 x E2 P N). unfold outcome.
    assert (F : in_window o (length q2) = in_window (after p1 o) (length (p1 ++ q2))); [|rewrite F; reflexivity].
    destruct o as [b|]; [|reflexivity]. cbn [in_window after option_map]. rewrite !app_length. apply Bool.eq_iff_eq_true; rewrite !Bool.andb_true_iff, !Nat.leb_le, !Nat.ltb_lt; lia.
Qed.
Lemma cut_seq0 {A X} (wf : A -> Prop) ser de (a : A) r2 (f : A * bytes -> res X) :
  codec wf ser de -> shorts wf ser de -> wf a -> cutting None r2 (fun q => f (a, q)) -> cutting None (ser a +++ r2) (fun q => bind (de q) f).
Proof.
  intros C S W H p q x E P N. apply seqw_ok in E as (p1 & p2 & E1 & E2 & ->). apply app_split in P as [(x1 & P & N1)|(q2 & -> & P)]; [| |exact N].
  - rewrite (S a W p1 q x1 E1 P N1). reflexivity.
  - rewrite (codec_rt C a p1 q2 W E1). cbn [bind]. rewrite (H p2 q2 x E2 P N). reflexivity.
Qed.
(** The leaf comes first. *)
Definition bounded (o : option bytes) (r : res bytes) : Prop := forall p b, r = Ok p -> o = Some b -> (length b + 16 <= length p)%nat.
Lemma cut_first {A X} (wf : A -> Prop) ser de (a : A) o r2 (f : A * bytes -> res X) :
  codec wf ser de -> cutting o (ser a) de -> bounded o (ser a) -> wf a -> cutting None r2 (fun q => f (a, q)) -> cutting o (ser a +++ r2) (fun q => bind (de q) f).
Proof.
  intros C S B W H p q x E P N. apply seqw_ok in E as (p1 & p2 & E1 & E2 & ->). apply app_split in P as [(x1 & P & N1)|(q2 & -> & P)]; [| |exact N].
  - rewrite (S p1 q x1 E1 P N1). unfold outcome. destruct (in_window o (length q)); reflexivity.
  - rewrite (codec_rt C a p1 q2 W E1). cbn [bind]. rewrite (H p2 q2 x E2 P N). unfold outcome. cbn [in_window].
    assert (F : in_window o (length (p1 ++ q2)) = false); [|rewrite F; reflexivity].
    destruct o as [b|]; [|reflexivity]. cbn [in_window after option_map]. rewrite app_length. specialize (B p1 b E1 eq_refl). destruct (Nat.ltb_spec (length p1 + length q2) (length b + 16)); [lia|apply Bool.andb_false_r].
Qed.
Lemma cut_last {A X} o r (de : bytes -> res A) (f : A -> res X) : cutting o r de -> cutting o r (fun q => bind (de q) f).
Proof. intros S p q x E P N. rewrite (S p q x E P N). unfold outcome. destruct (in_window o (length q)); reflexivity. Qed.
Lemma cut_need {X} o r k (f : bytes -> res X) : (k <= 8)%nat -> cutting o r f -> cutting o r (fun q => bind (need k q) (fun _ => f q)).
Proof.
  intros L S p q x E P N. destruct (Nat.lt_ge_cases (length q) k) as [M|M].
  - rewrite need_short by exact M. unfold outcome. rewrite window_small by lia. reflexivity.
  - rewrite need_ok by exact M. cbn [bind]. eapply S; eassumption.
Qed.
Lemma cut_none {X} (f : bytes -> res X) o : cutting o (Ok []) f.
Proof. intros p q x E P N. injection E as <-. symmetry in P. apply app_eq_nil in P as [_ P]. contradiction. Qed.
Lemma bounded_seq o r r2 : bounded o r -> bounded o (r +++ r2).
Proof. intros B p b E O. apply seqw_ok in E as (p1 & p2 & E1 & E2 & ->). specialize (B p1 b E1 O). rewrite app_length. lia. Qed.
Lemma bounded_after o r r2 h : says r h -> bounded o r2 -> bounded (after h o) (r +++ r2).
Proof. intros L B p b E O. apply seqw_ok in E as (p1 & p2 & E1 & E2 & ->). pose proof (L _ E1) as <-. destruct o as [b'|]; [|discriminate]. injection O as <-. specialize (B p2 b' E2 eq_refl). rewrite !app_length. lia. Qed.

(** Integers, strings and vectors. *)
Lemma cut_be k n {X} (f : N * bytes -> res X) : cutting None (Ok (be k n)) (fun q => bind (let* _ := need k q in get_be k q) f).
Proof. intros p q x E P N. injection E as <-. assert (L : (length q < k)%nat) by (apply (f_equal (@length byte)) in P; rewrite be_length, app_length in P; destruct x; [contradiction|cbn in P; lia]). rewrite need_short by exact L. reflexivity. Qed.
Lemma short_be k n : cutting None (Ok (be k n)) (fun q => let* _ := need k q in get_be k q).
Proof. intros p q x E P N. injection E as <-. assert (L : (length q < k)%nat) by (apply (f_equal (@length byte)) in P; rewrite be_length, app_length in P; destruct x; [contradiction|cbn in P; lia]). rewrite need_short by exact L. reflexivity. Qed.
#[export] Instance short_u8 wf : shorts wf put_u8 read_u8. Proof. intros a _. apply short_be. Qed.
#[export] Instance short_u16 wf : shorts wf put_u16 read_u16. Proof. intros a _. apply short_be. Qed.
#[export] Instance short_u32 wf : shorts wf put_u32 read_u32. Proof. intros a _. apply short_be. Qed.
#[export] Instance short_u64 wf : shorts wf put_u64 read_u64. Proof. intros a _. apply short_be. Qed.

Lemma varint_tail_short k : forall v r, (length r < k)%nat -> varint_tail k v r = Err BufferTooSmall.
Proof.
  induction k as [|k IH]; intros v r L; [lia|]. cbn [varint_tail]. destruct r as [|b r]; [reflexivity|]. rewrite read_u8_cons. cbn [bind]. apply IH. cbn in L. lia.
Qed.
Lemma tail_length k v bs n : varint_tail k v bs = Ok (n, []) -> length bs = k.
Proof. intros H. apply varint_tail_ok in H as (xs & <- & -> & _). rewrite app_nil_r. reflexivity. Qed.
#[export] Instance short_varint : shorts (fun n => n < 1073741824) se_varint de_varint.
Proof.
  intros n W p q x E P N. destruct q as [|b r]; [reflexivity|]. pose proof (codec_rt codec_varint n p [] W E) as R. rewrite app_nil_r, P in R. cbn [app] in R. rewrite de_varint_cons in *.
  assert (X : (1 <= length x)%nat) by (destruct x; [contradiction|cbn; lia]).
  destruct (b2n b <? 64); [|destruct (b2n b <? 128); [|destruct (b2n b <? 192); [|discriminate]]].
  - injection R as _ R. apply app_eq_nil in R as [_ R]. contradiction.
  - apply bind_ok in R as ([v r'] & T & R). destruct (v <? 64); [discriminate|]. injection R as _ ->. apply tail_length in T. rewrite app_length in T. rewrite varint_tail_short by lia. reflexivity.
  - apply bind_ok in R as ([v r'] & T & R). destruct (v <? 16384); [discriminate|]. injection R as _ ->. apply tail_length in T. rewrite app_length in T. rewrite varint_tail_short by lia. reflexivity.
Qed.
Lemma cut_opaque {X} v (f : N -> bytes -> res X) : cutting None (se_opaque v) (fun q => let* (n, q) := de_varint q in if N.of_nat (length q) <? n then Err BufferTooSmall else f n q).
Proof.
  intros p q x E P N. apply se_opaque_ok in E as (S & h & Hh & ->). apply app_split in P as [(x1 & P & N1)|(q2 & -> & P)]; [| |exact N].
  - rewrite (short_varint _ S h q x1 Hh P N1). reflexivity.
  - rewrite (codec_rt codec_varint _ _ _ S Hh). cbn [bind]. rewrite P, app_length. assert (X' : (1 <= length x)%nat) by (destruct x; [contradiction|cbn; lia]).
    destruct (N.ltb_spec (N.of_nat (length q2)) (N.of_nat (length q2 + length x))); [reflexivity|lia].
Qed.
#[export] Instance short_opaque wf : shorts wf se_opaque de_opaque.
Proof. intros v _. apply (cut_opaque v (fun n q => copy_to_bytes n q)). Qed.
#[export] Instance short_vector {A} wf (ser : A -> res bytes) de : shorts wf (se_vector ser) (de_vector de).
Proof.
  intros l _ p q x E P N. unfold se_vector in E. apply bind_ok in E as (raw & _ & E).
  exact (cut_opaque raw (fun n q => let* (v, rest) := copy_to_bytes n q in let* l := vec_loop de (length v) v in Ok (l, rest)) p q x E P N).
Qed.
#[export] Instance short_optflag wf : shorts wf se_optflag de_optflag.
Proof. intros b _. apply cut_last. apply (short_u8 any _ I). Qed.
#[export] Instance short_option {A} wf (ser : A -> res bytes) de : shorts wf ser de -> shorts (opt_P wf) (se_option ser) (de_option de).
Proof.
  intros S [a|] W; unfold se_option, de_option.
  - eapply cut_seq0; [apply codec_optflag|apply (short_optflag (fun _ => True))|exact I|]. cbv beta iota. apply cut_last. apply S, W.
  - apply cut_last. apply (short_optflag any _ I).
Qed.

Lemma cut_two_u16 {X} o v c r2 (f : N -> N -> bytes -> res X) : is_u16 v -> is_u16 c -> cutting o r2 (f v c) ->
  cutting (after (be 2 v ++ be 2 c) o) (put_u16 v +++ put_u16 c +++ r2) (fun q => let* _ := need 4 q in let* (a, q) := get_u16 q in let* (b, q) := get_u16 q in f a b q).
Proof.
  intros V C S p q x E P N. apply seqw_ok in E as (p1 & p' & E1 & E & ->). apply seqw_ok in E as (p2 & p3 & E2 & E3 & ->). apply Ok_inj in E1. apply Ok_inj in E2. subst p1 p2.
  destruct (Nat.lt_ge_cases (length q) 4) as [L|L].
  - rewrite need_short by exact L. unfold outcome. rewrite window_small by lia. reflexivity.
  - rewrite need_ok by exact L. cbn [bind]. rewrite app_assoc in P. apply app_split in P as [(x1 & P & N1)|(q2 & -> & P)]; [| |exact N].
    + exfalso. apply (f_equal (@length byte)) in P. rewrite !app_length, !be_length in P. destruct x1; [contradiction|cbn in P; lia].
    + rewrite <- app_assoc, get_u16_app by exact V. cbn [bind]. rewrite get_u16_app by exact C. cbn [bind]. rewrite (S p3 q2 x E3 P N). unfold outcome.
      assert (F : in_window o (length q2) = in_window (after (be 2 v ++ be 2 c) o) (length (be 2 v ++ be 2 c ++ q2))); [|rewrite F; reflexivity].
      destruct o as [b|]; [|reflexivity]. cbn [in_window after option_map]. rewrite !app_length, !be_length. apply Bool.eq_iff_eq_true; rewrite !Bool.andb_true_iff, !Nat.leb_le, !Nat.ltb_lt; lia.
Qed.
Lemma two_u16_none {X} v c r2 (f : N -> N -> bytes -> res X) : is_u16 v -> is_u16 c -> cutting None r2 (f v c) ->
  cutting None (put_u16 v +++ put_u16 c +++ r2) (fun q => let* _ := need 4 q in let* (a, q) := get_u16 q in let* (b, q) := get_u16 q in f a b q).
Proof. apply (cut_two_u16 None). Qed.

Lemma u16_version v : from_u16 version_of_u16 v -> is_u16 (u16_of_version v).
Proof. intros (n & L & ->). unfold version_of_u16. destruct n as [|[]]; cbn; try exact L; reflexivity. Qed.
Lemma u16_suite v : from_u16 cipher_suite_of_u16 v -> is_u16 (u16_of_cipher_suite v).
Proof. intros (n & L & ->). unfold cipher_suite_of_u16. destruct n as [|[[[]|[]|]|[[]|[]|]|]]; cbn; try exact L; reflexivity. Qed.
Lemma cut_end {A} (wf : A -> Prop) ser de a : codec wf ser de -> shorts wf ser de -> wf a -> cutting None (ser a) de.
Proof. intros _ S. apply S. Qed.
Ltac ok_wf := first [exact I | assumption | eassumption | (apply u16_version; assumption) | (apply u16_suite; assumption) | solve [auto] | reflexivity | (unfold is_u16; reflexivity) | idtac].
Ltac cut1 := cbv beta iota; first
  [ apply cut_none
  | apply two_u16_none; [ok_wf|ok_wf|]
  | apply cut_need; [lia|]
  | eapply cut_seq0; [solve [apply _]|solve [apply _]|solve [ok_wf]|]
  | apply cut_last; eapply cut_end; [solve [apply _]|solve [apply _]|solve [ok_wf]] ].
Ltac cuts := repeat cut1.

#[export] Instance short_content_type wf : shorts wf se_content_type de_content_type.
Proof. intros a _. unfold se_content_type, de_content_type. apply cut_last. apply (short_u8 any _ I). Qed.
#[export] Instance short_sender_type wf : shorts wf se_sender_type de_sender_type.
Proof. intros a _. unfold se_sender_type, de_sender_type. apply cut_last. apply (short_u8 any _ I). Qed.
#[export] Instance short_psk_type wf : shorts wf se_psk_type de_psk_type.
Proof. intros a _. unfold se_psk_type, de_psk_type. apply cut_last. apply (short_u8 any _ I). Qed.
#[export] Instance short_psk_usage wf : shorts wf se_psk_usage de_psk_usage.
Proof. intros a _. unfold se_psk_usage, de_psk_usage. apply cut_last. apply (short_u8 any _ I). Qed.
#[export] Instance short_wire_format wf : shorts wf se_wire_format de_wire_format.
Proof. intros a _. unfold se_wire_format, de_wire_format. apply cut_last. apply (short_u16 any _ I). Qed.
#[export] Instance short_credential wf : shorts wf se_credential de_credential.
Proof.
  intros c _. unfold se_credential, de_credential. destruct c as [i|l]; cbn [credential_type_of u16_of_credential_type]; aliases.
  - eapply cut_seq0; [apply codec_u16|apply (short_u16 is_u16)|reflexivity|]. cbn [credential_type_of_u16]. cuts.
  - eapply cut_seq0; [apply codec_u16|apply (short_u16 is_u16)|reflexivity|]. cbn [credential_type_of_u16]. cuts.
Qed.

#[export] Instance short_capabilities : shorts wf_capabilities se_capabilities de_capabilities.
Proof. intros c (A & B & C & D & E). unfold se_capabilities, de_capabilities. cuts. Qed.
#[export] Instance short_extensions : shorts wf_extensions se_extensions de_extensions.
Proof. intros l _. apply (short_vector any _ _ l I). Qed.
#[export] Instance short_sender : shorts wf_sender se_sender de_sender.
Proof.
  intros s W. unfold se_sender, de_sender. destruct s; cbn [sender_type_of]; cuts; exact W.
Qed.
#[export] Instance short_resumption : shorts wf_resumption se_resumption de_resumption.
Proof. intros r W. unfold se_resumption, de_resumption. cuts. Qed.
#[export] Instance short_psk : shorts wf_psk se_psk de_psk.
Proof. intros [i|r] W; unfold se_psk, de_psk; cbn [psk_type_of]; cuts. Qed.
#[export] Instance short_psk_id : shorts wf_psk_id se_psk_id de_psk_id.
Proof. intros [p n] W; unfold se_psk_id, de_psk_id; cbn [pi_psk pi_nonce]; cuts. Qed.
#[export] Instance short_group_context : shorts wf_group_context se_group_context de_group_context.
Proof.
  intros g (V & S & E & X). unfold se_group_context, de_group_context. rewrite V. cuts.
Qed.

Lemma lifetime_cut l : cutting (Some []) (se_lifetime l) de_lifetime.
Proof.
  intros p q x E P N. apply seqw_ok in E as (p1 & p2 & E1 & E2 & ->). apply Ok_inj in E1. apply Ok_inj in E2. subst p1 p2.
  apply (f_equal (@length byte)) in P. rewrite !app_length, !be_length in P. assert (X : (1 <= length x)%nat) by (destruct x; [contradiction|cbn; lia]).
  unfold outcome, in_window. cbn [length]. destruct (Nat.leb_spec (0 + 8) (length q)) as [L|L].
  - destruct (Nat.ltb_spec (length q) (0 + 16)); [|lia]. cbn [andb]. apply lifetime_panics. lia.
  - cbn [andb]. unfold de_lifetime. rewrite need_short by lia. reflexivity.
Qed.
Lemma lifetime_bounded l : bounded (Some []) (se_lifetime l).
Proof. intros p b E O. injection O as <-. apply seqw_ok in E as (p1 & p2 & E1 & E2 & ->). apply Ok_inj in E1. apply Ok_inj in E2. subst p1 p2. rewrite app_length, !be_length. cbn. lia. Qed.
Definition before_in_source (s : leaf_node_source) : option bytes := match s with LSKeyPackage _ => Some (uint8 1) | _ => None end.
Lemma source_cut s : cutting (before_in_source s) (se_leaf_node_source s) de_leaf_node_source.
Proof.
  destruct s as [l| |h]; unfold se_leaf_node_source, de_leaf_node_source; cbn [before_in_source].
  - change (Some (uint8 1)) with (after (uint8 1) (Some [])). eapply cut_seq; [apply codec_u8|apply short_u8|reflexivity|apply says_u8|]. cbv beta iota. apply cut_last, lifetime_cut.
  - apply cut_last. apply (short_u8 any _ I).
  - eapply cut_seq0; [apply codec_u8|apply (short_u8 is_u8)|reflexivity|]. cuts.
Qed.
Lemma source_bounded s : bounded (before_in_source s) (se_leaf_node_source s).
Proof.
  destruct s as [l| |h]; try (intros p b _ O; discriminate). unfold se_leaf_node_source. cbn [before_in_source]. change (Some (uint8 1)) with (after (uint8 1) (Some [])). apply bounded_after; [apply says_u8|apply lifetime_bounded].
Qed.
Definition before_in_payload (p : leaf_node_payload) : option bytes :=
  after (opaqueV (lp_encryption_key p)) (after (opaqueV (lp_signature_key p)) (after (rfc_credential (lp_credential p)) (after (rfc_capabilities (lp_capabilities p)) (before_in_source (lp_source p))))).
Lemma payload_cut p : wf_leaf_payload p -> cutting (before_in_payload p) (se_leaf_payload p) de_leaf_payload.
Proof.
  intros (C & S & X). unfold se_leaf_payload, de_leaf_payload, before_in_payload. aliases.
  eapply cut_seq; [apply codec_opaque|apply _|exact I|apply says_opaque|]. cbv beta iota.
  eapply cut_seq; [apply codec_opaque|apply _|exact I|apply says_opaque|]. cbv beta iota.
  eapply cut_seq; [apply codec_credential|apply _|exact I|apply l_credential|]. cbv beta iota.
  eapply cut_seq; [apply codec_capabilities|apply _|exact C|apply l_capabilities|]. cbv beta iota.
  eapply cut_first; [apply codec_leaf_node_source|apply source_cut|apply source_bounded|exact S|]. cuts.
Qed.
Lemma payload_bounded p : bounded (before_in_payload p) (se_leaf_payload p).
Proof.
  unfold se_leaf_payload, before_in_payload. repeat (apply bounded_after; [first [apply says_opaque|apply l_credential|apply l_capabilities]|]). apply bounded_seq, source_bounded.
Qed.
Lemma before_leaf_eq l : before_in_leaf l = before_in_payload (ln_payload l).
Proof. unfold before_in_leaf, before_in_payload. destruct (lp_source (ln_payload l)); reflexivity. Qed.
Lemma leaf_cut l : wf_leaf_node l -> cutting (before_in_leaf l) (se_leaf_node l) de_leaf_node.
Proof.
  intros W. rewrite before_leaf_eq. unfold se_leaf_node, de_leaf_node. eapply cut_first; [apply codec_leaf_payload|apply payload_cut, W|apply payload_bounded|exact W|]. cuts.
Qed.
Lemma leaf_bounded l : bounded (before_in_leaf l) (se_leaf_node l).
Proof. rewrite before_leaf_eq. apply bounded_seq, payload_bounded. Qed.

Lemma after_app h k o : after (h ++ k) o = after h (after k o).
Proof. destruct o; cbn; [rewrite <- app_assoc|]; reflexivity. Qed.
Lemma be_uint16 v : be 2 v = uint16 v.
Proof. exact (says_u16 v _ eq_refl). Qed.
Lemma kp_cut k : wf_key_package k -> cutting (before_in_key_package k) (se_key_package k) de_key_package.
Proof.
  intros (V & S & L & X). unfold before_in_key_package, se_key_package, de_key_package. rewrite !after_app.
  eapply cut_first; [apply codec_key_package_tbs| | |exact (conj V (conj S (conj L X)))|cuts].
  - unfold se_key_package_tbs, de_key_package_tbs. aliases. rewrite <- after_app. unfold rfc_version, rfc_suite.
    assert (Q : uint16 match kp_version (kp_payload k) with MLS10 => 1 | VersionUnsupported n => n end ++ uint16 match kp_suite (kp_payload k) with Suite1 => 1 | Suite2 => 2 | Suite3 => 3 | Suite4 => 4 | Suite5 => 5 | Suite6 => 6 | Suite7 => 7 | SuiteUnknown n => n end = be 2 (u16_of_version (kp_version (kp_payload k))) ++ be 2 (u16_of_cipher_suite (kp_suite (kp_payload k)))) by (rewrite !be_uint16; reflexivity).
    rewrite Q. apply cut_two_u16; [apply u16_version, V|apply u16_suite, S|].
    eapply cut_seq; [apply codec_opaque|apply _|exact I|apply says_opaque|]. cbv beta iota.
    eapply cut_first; [apply codec_leaf_node|apply leaf_cut, L|apply leaf_bounded|exact L|]. cuts.
  - unfold se_key_package_tbs. apply bounded_after; [apply l_version'|]. apply bounded_after; [apply l_suite'|]. apply bounded_after; [apply says_opaque|]. apply bounded_seq, leaf_bounded.
Qed.
Lemma kp_bounded k : bounded (before_in_key_package k) (se_key_package k).
Proof.
  unfold before_in_key_package, se_key_package, se_key_package_tbs. rewrite !after_app. apply bounded_seq. apply bounded_after; [apply l_version'|]. apply bounded_after; [apply l_suite'|]. apply bounded_after; [apply says_opaque|]. apply bounded_seq, leaf_bounded.
Qed.
Lemma proposal_cut p : wf_proposal p -> cutting (before_in_proposal p) (se_proposal p) de_proposal.
Proof.
  intros W. destruct p as [p|p|p|p|p|p|p]; cbn [before_in_proposal]; unfold se_proposal, de_proposal; cbn [u16_of_proposal_type].
  - eapply cut_seq; [apply codec_u16|apply (short_u16 is_u16)|reflexivity|apply says_u16|]. cbn [proposal_type_of_u16]. apply cut_last. unfold se_add_proposal, de_add_proposal. apply cut_last, kp_cut, W.
  - eapply cut_seq; [apply codec_u16|apply (short_u16 is_u16)|reflexivity|apply says_u16|]. cbn [proposal_type_of_u16]. apply cut_last. unfold se_update_proposal, de_update_proposal. apply cut_last, leaf_cut, W.
  - eapply cut_seq0; [apply codec_u16|apply (short_u16 is_u16)|reflexivity|]. cbn [proposal_type_of_u16]. apply cut_last. unfold se_remove_proposal, de_remove_proposal. cuts.
  - eapply cut_seq0; [apply codec_u16|apply (short_u16 is_u16)|reflexivity|]. cbn [proposal_type_of_u16]. apply cut_last. unfold se_psk_proposal, de_psk_proposal. cuts.
  - eapply cut_seq0; [apply codec_u16|apply (short_u16 is_u16)|reflexivity|]. cbn [proposal_type_of_u16]. apply cut_last. destruct W as (V & S & X). unfold se_reinit_proposal, de_reinit_proposal. cuts.
  - eapply cut_seq0; [apply codec_u16|apply (short_u16 is_u16)|reflexivity|]. cbn [proposal_type_of_u16]. apply cut_last. unfold se_external_init_proposal, de_external_init_proposal. cuts.
  - eapply cut_seq0; [apply codec_u16|apply (short_u16 is_u16)|reflexivity|]. cbn [proposal_type_of_u16]. apply cut_last. unfold se_gce_proposal, de_gce_proposal. cuts.
Qed.
Lemma proposal_bounded p : bounded (before_in_proposal p) (se_proposal p).
Proof.
  destruct p as [p|p|p|p|p|p|p]; try (intros ? b _ O; discriminate); cbn [before_in_proposal]; unfold se_proposal; cbn [u16_of_proposal_type]; (apply bounded_after; [apply says_u16|]); [apply kp_bounded|apply leaf_bounded].
Qed.
Lemma commit_cut c : wf_commit c -> cutting (before_in_commit c) (se_commit c) de_commit.
Proof.
  intros (Wl & Wp). unfold before_in_commit, se_commit, de_commit. destruct (cm_path c) as [u|].
  - rewrite after_app. eapply cut_seq; [eapply codec_vector; apply _|apply _|exact Wl|apply says_vector; apply l_por|]. cbv beta iota. apply cut_last.
    unfold se_option, de_option. eapply cut_seq; [apply codec_optflag|apply (short_optflag (fun _ => True))|exact I|apply says_u8|]. cbv beta iota. apply cut_last. unfold se_update_path, de_update_path.
    eapply cut_first; [apply codec_leaf_node|apply leaf_cut, Wp|apply leaf_bounded|exact Wp|]. cuts.
  - eapply cut_seq0; [eapply codec_vector; apply _|apply _|exact Wl|]. cbv beta iota. apply cut_last. unfold se_option, de_option. apply cut_last. apply (short_optflag any _ I).
Qed.
Lemma commit_bounded c : bounded (before_in_commit c) (se_commit c).
Proof.
  unfold before_in_commit, se_commit. destruct (cm_path c) as [u|]; [|intros ? b _ O; discriminate]. rewrite after_app. apply bounded_after; [apply says_vector; apply l_por|]. unfold se_option. apply bounded_after; [apply says_u8|]. apply bounded_seq, leaf_bounded.
Qed.
Lemma content_cut c : wf_content c -> cutting (before_in_content c) (se_content c) de_content.
Proof.
  intros W. destruct c as [d|p|m]; unfold se_content, de_content; cbn [before_in_content content_type_of se_content_body]; apply cut_need; try lia.
  - cuts.
  - eapply cut_seq; [apply codec_content_type|apply _|exact I|exact (l_content_type CTProposal)|]. cbv beta iota. apply cut_last, proposal_cut, W.
  - eapply cut_seq; [apply codec_content_type|apply _|exact I|exact (l_content_type CTCommit)|]. cbv beta iota. apply cut_last, commit_cut, W.
Qed.
Lemma content_bounded c : bounded (before_in_content c) (se_content c).
Proof.
  destruct c as [d|p|m]; [intros ? b _ O; discriminate| |]; unfold se_content; cbn [before_in_content content_type_of se_content_body].
  - apply bounded_after; [exact (l_content_type CTProposal)|apply proposal_bounded].
  - apply bounded_after; [exact (l_content_type CTCommit)|apply commit_bounded].
Qed.
Lemma framed_cut f : wf_framed_content f -> cutting (before_in_framed f) (se_framed_content f) de_framed_content.
Proof.
  intros (E & S & C). unfold before_in_framed, se_framed_content, de_framed_content. rewrite !after_app.
  eapply cut_seq; [apply codec_opaque|apply _|exact I|apply says_opaque|]. cbv beta iota.
  eapply cut_seq; [apply codec_u64|apply short_u64|exact E|apply says_u64|]. cbv beta iota.
  eapply cut_seq; [apply codec_sender|apply _|exact S|apply l_sender|]. cbv beta iota.
  eapply cut_seq; [apply codec_opaque|apply _|exact I|apply says_opaque|]. cbv beta iota. apply cut_last, content_cut, C.
Qed.
Lemma framed_bounded f : bounded (before_in_framed f) (se_framed_content f).
Proof.
  unfold before_in_framed, se_framed_content. rewrite !after_app. apply bounded_after; [apply says_opaque|]. apply bounded_after; [apply says_u64|]. apply bounded_after; [apply l_sender|]. apply bounded_after; [apply says_opaque|]. apply content_bounded.
Qed.
#[export] Instance short_auth_data ct : shorts (wf_auth_data ct) (se_auth_data ct) (de_auth_data ct).
Proof.
  intros a W. unfold se_auth_data, de_auth_data. destruct ct; cuts.
Qed.
Lemma public_cut m : wf_public_message m -> cutting (before_in_framed (pm_content m)) (se_public_message m) de_public_message.
Proof.
  intros (F & A & T). unfold se_public_message, de_public_message. eapply cut_first; [apply codec_framed_content|apply framed_cut, F|apply framed_bounded|exact F|]. cbv beta iota.
  destruct (fc_sender (pm_content m)); try (eapply cut_seq0; [apply codec_auth_data|apply _|exact A|]; apply cut_none).
  destruct (pm_tag m); [|contradiction]. cuts.
Qed.
#[export] Instance short_private_message : shorts wf_private_message se_private_message de_private_message.
Proof. intros m W. unfold se_private_message, de_private_message. cuts. Qed.
#[export] Instance short_welcome : shorts wf_welcome se_welcome de_welcome.
Proof. intros w W. unfold se_welcome, de_welcome. cuts. Qed.
#[export] Instance short_group_info : shorts wf_group_info se_group_info de_group_info.
Proof. intros g (C & E & S). rewrite se_group_info_eq. unfold de_group_info. cuts. Qed.
Lemma message_cut m : wf_mls_message m -> cutting (before_lifetime m) (se_mls_message m) de_mls_message.
Proof.
  intros [V W]. unfold before_lifetime, se_mls_message, de_mls_message, se_wire_message, de_wire_message. rewrite V.
  destruct (mm_wire m) as [p|p|w|g|k]; cbn [wire_format_of]; rewrite ?after_app.
  - eapply cut_seq; [apply codec_u16|apply (short_u16 is_u16)|reflexivity|apply l_version'|]. cbv beta iota. change (negb (is_mls10 (version_of_u16 (u16_of_version MLS10)))) with false. cbv iota. apply cut_last. apply cut_need; [lia|].
    eapply cut_seq; [apply codec_wire_format|apply _|exact I|exact (l_wire_format WFPublicMessage)|]. cbv beta iota. apply cut_last, public_cut, W.
  - cuts. change (negb (is_mls10 (version_of_u16 (u16_of_version MLS10)))) with false. cbv iota. apply cut_last. cuts.
  - cuts. change (negb (is_mls10 (version_of_u16 (u16_of_version MLS10)))) with false. cbv iota. apply cut_last. cuts.
  - cuts. change (negb (is_mls10 (version_of_u16 (u16_of_version MLS10)))) with false. cbv iota. apply cut_last. cuts.
  - eapply cut_seq; [apply codec_u16|apply (short_u16 is_u16)|reflexivity|apply l_version'|]. cbv beta iota. change (negb (is_mls10 (version_of_u16 (u16_of_version MLS10)))) with false. cbv iota. apply cut_last. apply cut_need; [lia|].
    eapply cut_seq; [apply codec_wire_format|apply _|exact I|exact (l_wire_format WFKeyPackage)|]. cbv beta iota. apply cut_last, kp_cut, W.
Qed.

(** Where the lifetime is. *)
Definition placed (o : option bytes) (r : res bytes) : Prop := forall p b, r = Ok p -> o = Some b -> exists l x, p = b ++ rfc_lifetime l ++ x.
Lemma placed_seq o r r2 : placed o r -> placed o (r +++ r2).
Proof. intros B p b E O. apply seqw_ok in E as (p1 & p2 & E1 & E2 & ->). destruct (B p1 b E1 O) as (l & x & ->). exists l, (x ++ p2)%list. rewrite <- !app_assoc. reflexivity. Qed.
Lemma placed_after o r r2 h : says r h -> placed o r2 -> placed (after h o) (r +++ r2).
Proof. intros L B p b E O. apply seqw_ok in E as (p1 & p2 & E1 & E2 & ->). pose proof (L _ E1) as <-. destruct o as [b'|]; [|discriminate]. injection O as <-. destruct (B p2 b' E2 eq_refl) as (l & x & ->). exists l, x. rewrite <- !app_assoc. reflexivity. Qed.
Lemma placed_none r : placed None r. Proof. intros p b _ O. discriminate. Qed.
Lemma leaf_placed l : placed (before_in_leaf l) (se_leaf_node l).
Proof.
  rewrite before_leaf_eq. unfold se_leaf_node, se_leaf_payload, before_in_payload. apply placed_seq. repeat (apply placed_after; [first [apply says_opaque|apply l_credential|apply l_capabilities]|]). apply placed_seq.
  destruct (lp_source (ln_payload l)) as [t| |]; try apply placed_none. unfold se_leaf_node_source. cbn [before_in_source]. change (Some (uint8 1)) with (after (uint8 1) (Some [])). apply placed_after; [apply says_u8|].
  intros p b E O. injection O as <-. exists t, []. rewrite app_nil_r. apply l_lifetime, E.
Qed.
Lemma kp_placed k : placed (before_in_key_package k) (se_key_package k).
Proof.
  unfold before_in_key_package, se_key_package, se_key_package_tbs. rewrite !after_app. apply placed_seq. apply placed_after; [apply l_version'|]. apply placed_after; [apply l_suite'|]. apply placed_after; [apply says_opaque|]. apply placed_seq, leaf_placed.
Qed.
Lemma content_placed c : placed (before_in_content c) (se_content c).
Proof.
  destruct c as [d|p|m]; [apply placed_none| |]; unfold se_content; cbn [before_in_content content_type_of se_content_body].
  - apply placed_after; [exact (l_content_type CTProposal)|]. destruct p; try apply placed_none; cbn [before_in_proposal]; unfold se_proposal; cbn [u16_of_proposal_type]; (apply placed_after; [apply says_u16|]); [apply kp_placed|apply leaf_placed].
  - apply placed_after; [exact (l_content_type CTCommit)|]. unfold before_in_commit, se_commit. destruct (cm_path m); [|apply placed_none]. rewrite after_app. apply placed_after; [apply says_vector; apply l_por|]. unfold se_option. apply placed_after; [apply says_u8|]. apply placed_seq, leaf_placed.
Qed.
Lemma message_placed m : placed (before_lifetime m) (se_mls_message m).
Proof.
  unfold before_lifetime, se_mls_message, se_wire_message. destruct (mm_wire m) as [p|p|w|g|k]; try apply placed_none; rewrite after_app; (apply placed_after; [apply l_version'|]); cbn [wire_format_of].
  - apply placed_after; [exact (l_wire_format WFPublicMessage)|]. apply placed_seq. unfold before_in_framed, se_framed_content. rewrite !after_app. apply placed_after; [apply says_opaque|]. apply placed_after; [apply says_u64|]. apply placed_after; [apply l_sender|]. apply placed_after; [apply says_opaque|]. apply content_placed.
  - apply placed_after; [exact (l_wire_format WFKeyPackage)|]. apply kp_placed.
Qed.

(** The theorems. *)
Lemma window_iff o n : in_window o n = true <-> cut_in_lifetime o n.
Proof.
  unfold in_window, cut_in_lifetime. destruct o as [b|].
  - rewrite Bool.andb_true_iff, Nat.leb_le, Nat.ltb_lt. split; [intros H; exists b; auto|]. intros (b' & E & H). injection E as <-. exact H.
  - split; [discriminate|]. intros (b & E & _). discriminate.
Qed.
Lemma c105_cut m p q : wf_mls_message m -> se_mls_message m = Ok p -> cut_of p q ->
  (cut_in_lifetime (before_lifetime m) (length q) -> de_mls_message q = Panic) /\
  (~ cut_in_lifetime (before_lifetime m) (length q) -> de_mls_message q = Err BufferTooSmall).
Proof.
  intros W E (x & P & N). rewrite (message_cut m W p q x E P N). unfold outcome. rewrite <- window_iff. destruct (in_window _ _); split; intros H; try reflexivity; [exfalso; auto|discriminate].
Qed.
Lemma c105_place m p b : se_mls_message m = Ok p -> before_lifetime m = Some b -> exists l rest, p = b ++ rfc_lifetime l ++ rest.
Proof. apply message_placed. Qed.
Lemma c105_stream ms ps rest : Forall2 (fun m p => wf_mls_message m /\ se_mls_message m = Ok p) ms ps -> reads de_mls_message (concat ps ++ rest) ms rest.
Proof.
  intros H. induction H as [|m p ms ps [W E] _ IH]; cbn [concat]; [constructor|]. rewrite <- app_assoc. econstructor; [apply (codec_rt codec_mls_message); eassumption|exact IH].
Qed.
Lemma c105_no_more ms ps m p q l r : Forall2 (fun m p => wf_mls_message m /\ se_mls_message m = Ok p) ms ps ->
  wf_mls_message m -> se_mls_message m = Ok p -> cut_of p q -> reads de_mls_message (concat ps ++ q) l r -> exists later, ms = l ++ later.
Proof.
  intros H W E C. revert l. induction H as [|m1 p1 ms ps [W1 E1] _ IH]; intros l R; cbn [concat] in R.
  - inversion R; subst; [exists []; reflexivity|]. exfalso. destruct C as (x & P & N). eapply (codec_no_truncation codec_mls_message m p q x W E P N). cbn [app] in H. exact H.
  - rewrite <- app_assoc in R. inversion R as [|? a r' l' ? D R']; subst; [exists (m1 :: ms); reflexivity|].
    rewrite (codec_rt codec_mls_message m1 p1 _ W1 E1) in D. injection D as <- <-. destruct (IH l' R') as (later & ->). exists later. reflexivity.
Qed.
