(** C105: messages that arrive one after the other, and in parts. *)
From Verif Require Import CodecFacts Examples StreamFacts SpecStream.
Local Open Scope N_scope.

(** * C105: A stream of messages is read message by message; of a message that has not arrived in full, the reader is told that bytes are missing *)
(** Encodings one after the other are read as exactly these messages, whatever follows. *)
Theorem C105_stream : forall ms ps rest,
  Forall2 (fun m p => wf_mls_message m /\ se_mls_message m = Ok p) ms ps -> reads de_mls_message (concat ps ++ rest) ms rest.
Proof. exact c105_stream. Qed.
Print Assumptions C105_stream.
(** If the last one is cut off, no more than the others is read. *)
Theorem C105_no_more : forall ms ps m p q l r,
  Forall2 (fun m p => wf_mls_message m /\ se_mls_message m = Ok p) ms ps -> wf_mls_message m -> se_mls_message m = Ok p -> cut_of p q ->
  reads de_mls_message (concat ps ++ q) l r -> exists later, ms = l ++ later.
Proof. exact c105_no_more. Qed.
Print Assumptions C105_no_more.
(** The reader is told that bytes are missing (BufferTooSmall), except if the cut is in the second half of the lifetime of a leaf that is not in
    a vector: then it panics. *)
Theorem C105_cut_exact : forall m p q, wf_mls_message m -> se_mls_message m = Ok p -> cut_of p q ->
  (cut_in_lifetime (before_lifetime m) (length q) -> de_mls_message q = Panic) /\
  (~ cut_in_lifetime (before_lifetime m) (length q) -> de_mls_message q = Err BufferTooSmall).
Proof. exact c105_cut. Qed.
Print Assumptions C105_cut_exact.
(** That is where the lifetime is. *)
Theorem C105_place : forall m p b, se_mls_message m = Ok p -> before_lifetime m = Some b -> exists l rest, p = b ++ rfc_lifetime l ++ rest.
Proof. exact c105_place. Qed.
Print Assumptions C105_place.
(** So the claim is false: a key package of which a part has arrived makes its receiver panic. *)
Theorem C105_refuted : exists m p q, wf_mls_message m /\ se_mls_message m = Ok p /\ cut_of p q /\ de_mls_message q = Panic.
Proof.
  exists (MkMLSMessage MLS10 (WMKeyPackage (ex_kp x41))), (ok_or [] (se_mls_message (MkMLSMessage MLS10 (WMKeyPackage (ex_kp x41))))), (firstn 57 (ok_or [] (se_mls_message (MkMLSMessage MLS10 (WMKeyPackage (ex_kp x41)))))).
  split; [split; [reflexivity|exact (ex_kp_wf x41)]|]. split; [vm_compute; reflexivity|]. split; [|vm_compute; reflexivity].
  exists (skipn 57 (ok_or [] (se_mls_message (MkMLSMessage MLS10 (WMKeyPackage (ex_kp x41)))))). split; [rewrite firstn_skipn; reflexivity|vm_compute; discriminate].
Qed.
Print Assumptions C105_refuted.

(** Two messages and a part of a third. *)
Definition ex_kp_message : mls_message := MkMLSMessage MLS10 (WMKeyPackage (ex_kp x41)).
Example C105_example : let p := ok_or [] (se_mls_message ex_message) in let k := ok_or [] (se_mls_message ex_kp_message) in
  Forall2 (fun m p => wf_mls_message m /\ se_mls_message m = Ok p) [ex_message; ex_kp_message] [p; k] /\ cut_of p (firstn 100 p) /\
  ~ cut_in_lifetime (before_lifetime ex_message) 100 /\ (exists n, n < 73 /\ cut_in_lifetime (before_lifetime ex_kp_message) (N.to_nat n)).
Proof.
  cbv zeta. split; [constructor; [split; [exact ex_message_wf|vm_compute; reflexivity]|]; constructor; [split; [split; [reflexivity|exact (ex_kp_wf x41)]|vm_compute; reflexivity]|constructor]|]. split.
  - exists (skipn 100 (ok_or [] (se_mls_message ex_message))). split; [rewrite firstn_skipn; reflexivity|vm_compute; discriminate].
  - split.
    + intros (b & E & _). vm_compute in E. discriminate.
    + exists 57. split; [reflexivity|]. eexists. split; [vm_compute; reflexivity|]. cbn. lia.
Qed.
