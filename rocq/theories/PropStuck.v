(** C129: the key schedule never gets stuck. *)
From Verif Require Import SpecSecrets SpecForward SpecMessages SpecTraffic SpecSendable SpecStuck SpecProvider ProviderFacts PrimFacts Primitives StuckFacts SendableFacts BundledSend WireWF MessageFacts Examples.
Local Open Scope N_scope.

(* ------------------------------------------------------------------------------------------- *)
(** * C129 *)

(** From any init secret, any sequence of commits leads through a sequence of epochs with all their secrets, if the group contexts
    can be encoded ... *)
Theorem C129_life : forall P cs k, schedules P cs k -> forall init l, l <> [] ->
  Forall (fun x => gc_suite (fst (fst x)) = cs /\ compact (se_group_context (fst (fst x)))) l ->
  exists r, lifetime_of P cs init r /\ map inputs r = l /\ Forall (complete P cs k) r.
Proof. exact c129_life. Qed.
Print Assumptions C129_life.
(** ... and only then. *)
Theorem C129_only : forall P cs k, schedules P cs k -> forall init r, lifetime_of P cs init r ->
  Forall (fun e => compact (se_group_context (er_context e)) /\ complete P cs k e) r.
Proof. exact c129_only. Qed.
Print Assumptions C129_only.

(** One by one: the joiner secret and the epoch secret exist exactly if the context can be encoded, *)
Theorem C129_joiner : forall P cs k, schedules P cs k -> forall g init commit, gc_suite g = cs ->
  ((exists s, extract_joiner_secret P g init commit = Ok s) <-> compact (se_group_context g)).
Proof. exact c129_joiner. Qed.
Print Assumptions C129_joiner.
Theorem C129_epoch : forall P cs k, schedules P cs k -> forall g joiner psk, gc_suite g = cs ->
  ((exists s, extract_epoch_secret P g joiner psk = Ok s) <-> compact (se_group_context g)).
Proof. exact c129_epoch. Qed.
Print Assumptions C129_epoch.
(** the welcome secret always, *)
Theorem C129_welcome : forall P cs k, schedules P cs k -> forall joiner psk,
  exists s, extract_welcome_secret P cs joiner psk = Ok s /\ usable k s.
Proof. exact c129_welcome. Qed.
Print Assumptions C129_welcome.
(** the PSK secret exactly if there are as many keys as identities, which can be encoded, *)
Theorem C129_psk : forall P cs k, schedules P cs k -> forall ids psks,
  (exists s, extract_psk_secret P cs ids psks = Ok s) <-> length ids = length psks /\ Forall psk_short ids.
Proof. exact c129_psk. Qed.
Print Assumptions C129_psk.
(** and the transcript hashes exactly if the commit, and the tag, can be encoded. *)
Theorem C129_transcript : forall P cs h c i t, p_hash P cs = Ok h ->
  ((exists b, confirmed_hash P cs c i = Ok b) <-> exists raw, se_confirmed_input c = Ok raw) /\ ((exists b, next_interim_hash P cs i t = Ok b) <-> fits30 t).
Proof. exact c129_transcript. Qed.
Print Assumptions C129_transcript.

(** In every such epoch there is the tree of message secrets, for up to 2^31 leaves, and every leaf is heard, in every generation (C128). *)
Theorem C129_speak : forall P cs k ctx sk pk d e, seals P cs k -> signs P cs sk -> aead_ok P cs -> key_pair_ok P cs sk pk -> d <= 31 -> complete P cs k e ->
  exists encryption sds st, derive_secret P cs (er_epoch e) label_encryption = Ok encryption /\ derive_secret P cs (er_epoch e) label_sender_data = Ok sds /\
    new_secret_tree P cs (2 ^ d) encryption = Ok st /\
    forall leaf gen guard c, leaf < 2 ^ d -> gen < 4294967296 -> length guard = 4%nat -> wf_framed_content c -> fc_sender c = SMember leaf -> signable WFPrivateMessage c ctx 131080 ->
      exists b a, send P cs ctx sk st sds leaf gen guard c = Ok b /\ receive P cs ctx pk st sds b = Ok a /\ ac_content a = c.
Proof. exact c129_speak. Qed.
Print Assumptions C129_speak.

(** The bundled providers meet the condition, over libraries that are as HKDF is specified. *)
Theorem C129_bundled : forall p P cs k, sized_prims p -> hkdf_prims p -> bundled p P -> p_hpke P cs = Ok k -> schedules P cs k.
Proof. exact c129_bundled. Qed.
Print Assumptions C129_bundled.

(** Two epochs of a group, the second with a pre-shared key; and HKDF-SHA256 itself. *)
Definition ex_epoch (n : N) : group_context := MkGroupContext MLS10 Suite1 (str "group") n [x0a] [x0b; x0c] [].
Example C129_example : schedules modest Suite1 modest_hpke /\ seals modest Suite1 modest_hpke /\
  Forall (fun x => gc_suite (fst (fst x)) = Suite1 /\ compact (se_group_context (fst (fst x)))) [(ex_epoch 0, str "commit", []); (ex_epoch 1, str "commit2", str "psk")] /\
  exists k, schedules real_provider Suite3 k.
Proof.
  split; [exact modest_schedules|]. split; [exact modest_seals|]. split.
  - assert (A : compact (se_group_context (ex_epoch 0))) by (eexists; split; [vm_compute; reflexivity|vm_compute; reflexivity]).
    assert (B : compact (se_group_context (ex_epoch 1))) by (eexists; split; [vm_compute; reflexivity|vm_compute; reflexivity]).
    apply Forall_cons; [split; [reflexivity|exact A]|]. apply Forall_cons; [split; [reflexivity|exact B]|]. apply Forall_nil.
  - eexists. apply (c129_bundled real_prims); [exact real_sized|exact real_hkdf|left; reflexivity|reflexivity].
Qed.
