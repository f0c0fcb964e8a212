(** What it takes to go from epoch to epoch. *)
From Verif Require Import SpecSecrets SpecForward.
Local Open Scope N_scope.

(** The KDF works: it expands usable secrets to usable secrets and extracts usable secrets from anything. *)
Record schedules (P : provider) (cs : cipher_suite) (k : hpke_alg) : Prop := {
  sc_kdf : working_kdf P cs k;
  sc_extract : forall s salt, exists b, k_extract k s salt = Ok b /\ usable k b
}.
(** There is an encoding, of less than 2^30 bytes. *)
Definition compact (r : res bytes) : Prop := exists raw, r = Ok raw /\ fits30 raw.
(** What a commit brings into the key schedule: the new context, the commit secret and the PSK secret. *)
Definition inputs (e : epoch_run) : group_context * bytes * bytes := (er_context e, er_commit e, er_psk e).
(** An epoch with all its secrets: those of the chain, the nine derived from the epoch secret and the one welcomes are sealed with. *)
Definition complete (P : provider) (cs : cipher_suite) (k : hpke_alg) (e : epoch_run) : Prop :=
  usable k (er_joiner e) /\ usable k (er_epoch e) /\ usable k (er_init e) /\
  (forall l, In l schedule_labels -> exists s, derive_secret P cs (er_epoch e) l = Ok s /\ usable k s) /\
  exists w, extract_welcome_secret P cs (er_joiner e) (er_psk e) = Ok w /\ usable k w.
(** The identity of a pre-shared key has an encoding, with room for its position and the number of keys. *)
Definition psk_short (id : psk_id) : Prop := exists raw, se_psk_id id = Ok raw /\ N.of_nat (length raw) + 4 < 1073741824.
