(** C104: no two keys, nonces or secrets that are for different things are the same. *)
From Verif Require Import SpecUse ForwardFacts UseFacts.
Local Open Scope N_scope.

(** If two values of two epochs, of the same group or of different ones, are the same bytes then the epochs are the same and so are the
    uses, or two different calls of the KDF made in these epochs had the same result. *)
Theorem C104_one_use : forall P cs k s s' u u' b, p_hpke P cs = Ok k -> session_of P cs s -> session_of P cs s' -> use_value P cs s u b -> use_value P cs s' u' b ->
  (same_epoch k (ss_run s) (ss_run s') /\ same_use k u u') \/ clash k [] (fun c => session_made k s u c \/ session_made k s' u' c).
Proof. exact c104_one_use. Qed.
Print Assumptions C104_one_use.

(** So groups with different identifiers have no value in common, and neither have epochs with different numbers. *)
Theorem C104_elsewhere : forall P cs k s s' u u' b, p_hpke P cs = Ok k -> session_of P cs s -> session_of P cs s' ->
  gc_group_id (er_context (ss_run s)) <> gc_group_id (er_context (ss_run s')) \/ gc_epoch (er_context (ss_run s)) <> gc_epoch (er_context (ss_run s')) ->
  use_value P cs s u b -> use_value P cs s' u' b -> clash k [] (fun c => session_made k s u c \/ session_made k s' u' c).
Proof. exact c104_elsewhere. Qed.
Print Assumptions C104_elsewhere.

(** With a KDF in which no two calls have the same result. *)
Theorem C104_ideal : forall P cs k s s' u u' b, p_hpke P cs = Ok k -> (forall c c' x, call k c = Ok x -> call k c' = Ok x -> c = c') ->
  session_of P cs s -> session_of P cs s' -> use_value P cs s u b -> use_value P cs s' u' b -> same_epoch k (ss_run s) (ss_run s') /\ same_use k u u'.
Proof. exact c104_ideal. Qed.
Print Assumptions C104_ideal.

(** Two epochs of a group: message keys of leaf 1 in both and of its next generation, the key of the welcome, that of the sender data for a
    ciphertext that begins like a generation, and an exporter secret. *)
Example C104_example : exists a b c d e f, let s := ex_session ex_epoch1 in let s' := ex_session ex_epoch2 in
  session_of ideal Suite2 s /\ session_of ideal Suite2 s' /\
  use_value ideal Suite2 s (UItem (IKey 1 RApplication 0)) a /\ use_value ideal Suite2 s' (UItem (IKey 1 RApplication 0)) b /\ use_value ideal Suite2 s' (UItem (IKey 1 RApplication 1)) c /\
  use_value ideal Suite2 s UWelcomeKey d /\ use_value ideal Suite2 s (USenderKey [x00; x00; x00; x01]) e /\ use_value ideal Suite2 s (USecret (str "exporter")) f /\
  NoDup [a; b; c; d; e; f].
Proof. exact c104_example. Qed.
