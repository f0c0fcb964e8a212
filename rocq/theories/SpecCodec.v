(** What the codec properties say, independently of how the codecs are written. [wf] selects the values
    that exist as Rust values (WireWF.v). *)
From Verif Require Export WireWF TreeCodec.
Local Open Scope N_scope.

(** Decoding what was encoded, followed by anything, returns the value and the rest. *)
Definition roundtrip {A} (wf : A -> Prop) (ser : A -> res bytes) (de : bytes -> res (A * bytes)) : Prop :=
  forall a p rest, wf a -> ser a = Ok p -> de (p ++ rest) = Ok (a, rest).

(** Whatever is accepted is the encoding of the value returned. *)
Definition canonical {A} (wf : A -> Prop) (ser : A -> res bytes) (de : bytes -> res (A * bytes)) : Prop :=
  forall bs a rest, de bs = Ok (a, rest) -> wf a /\ exists p, ser a = Ok p /\ bs = p ++ rest.

(** Different values never share an encoding, and no encoding is a proper prefix of another one. *)
Definition prefix_free {A} (wf : A -> Prop) (ser : A -> res bytes) : Prop :=
  forall a b p q x, wf a -> wf b -> ser a = Ok p -> ser b = Ok q -> q = p ++ x -> a = b /\ x = [].

(** A truncated encoding is never accepted. *)
Definition no_truncation {A} (wf : A -> Prop) (ser : A -> res bytes) (de : bytes -> res (A * bytes)) : Prop :=
  forall a p q x, wf a -> ser a = Ok p -> p = q ++ x -> x <> [] -> forall b rest, de q <> Ok (b, rest).

(** Decoding returns, whatever the bytes. *)
Definition never_hangs {A} (de : bytes -> res A) : Prop := forall bs, de bs <> Hang.
Definition never_panics {A} (de : bytes -> res A) : Prop := forall bs, de bs <> Panic.

(** Encoding succeeds exactly when everything fits, and otherwise reports a size error. *)
Definition fails_only_on_size {A} (fits : A -> Prop) (ser : A -> res bytes) : Prop :=
  forall a, (fits a <-> exists p, ser a = Ok p) /\
            (~ fits a <-> (ser a = Err VarintExceeds30Bits \/ ser a = Err OpaqueSizeExceedsMaximumValueOfU32)).

Lemma codec_prefix_free' {A} {wf : A -> Prop} {ser de} : codec wf ser de -> prefix_free wf ser.
Proof.
  intros C a b p q x Wa Wb Ha Hb E. rewrite <- (app_nil_r q) in E. symmetry in E.
  destruct (codec_prefix_free C a b p q x [] Wa Wb Ha Hb E) as [-> ->]. auto.
Qed.
Lemma codec_no_trunc {A} {wf : A -> Prop} {ser de} : codec wf ser de -> no_truncation wf ser de.
Proof. intros C a p q x. apply (codec_no_truncation C). Qed.
Lemma desafe_hangs {A} {de : bytes -> res (A * bytes)} : desafe false de -> never_hangs de.
Proof. intros S bs E. specialize (S bs). rewrite E in S. exact S. Qed.
Lemma desafe_panics {A} {de : bytes -> res (A * bytes)} : desafe true de -> never_panics de.
Proof. intros S bs E. specialize (S bs). rewrite E in S. discriminate S. Qed.
Lemma sized_spec P (r : res bytes) : sized P r ->
  (P <-> exists p, r = Ok p) /\
  (~ P <-> (r = Err VarintExceeds30Bits \/ r = Err OpaqueSizeExceedsMaximumValueOfU32)).
Proof.
  unfold sized, size_error. intros [[HP [p E]]|[HP [e [E K]]]]; rewrite E.
  - split; split; intros H; eauto; [contradiction|destruct H; discriminate].
  - split; split; intros H; try contradiction; auto.
    + destruct H; discriminate.
    + destruct K as [K|K]; rewrite K; auto.
Qed.
Lemma sizing_spec {A} {fits : A -> Prop} {ser} : sizing fits ser -> fails_only_on_size fits ser.
Proof. intros S a. apply sized_spec, S. Qed.
