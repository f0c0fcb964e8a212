(** Keys of members over the life of a tree. *)
From Verif Require Export SpecRatchet.
Local Open Scope N_scope.

Definition signature_key (l : leaf_node) : bytes := lp_signature_key (ln_payload l).
Definition encryption_key (l : leaf_node) : bytes := lp_encryption_key (ln_payload l).

(** No two members share a signature key or an encryption key. *)
Definition distinct_keys (t : tree) : Prop := forall i j l m, leaf_at t i = Some l -> leaf_at t j = Some m ->
  signature_key l = signature_key m \/ encryption_key l = encryption_key m -> i = j.

(** Leaf node [l] was accepted for a place in [t] by [leaf_verify], called with the keys that [keys] reports. The keys of
    the member [old] that [l] takes the place of, if any, may have been left out. *)
Definition accepted (P : provider) (t : tree) (old : option leaf_node) (l : leaf_node) : Prop :=
  exists ss es o, keys t = Ok (ss, es) /\ leaf_verify P l o = Ok tt /\
    (forall k, In k ss -> In k (lo_signature_keys o) \/ exists m, old = Some m /\ signature_key m = k) /\
    (forall k, In k es -> In k (lo_encryption_keys o) \/ exists m, old = Some m /\ encryption_key m = k).

(** One operation by somebody who has every new leaf node checked first. *)
Inductive checked_step (P : provider) (cs : cipher_suite) : tree -> tree -> Prop :=
| cs_add t l t' : accepted P t None l -> has_room t -> tree_add t l = Ok t' -> checked_step P cs t t'
| cs_update t i l t' : accepted P t (leaf_at t i) l -> tree_update t i l = Ok t' -> checked_step P cs t t'
| cs_remove t i t' : tree_remove t i = Ok t' -> checked_step P cs t t'
| cs_merge t i u t' : accepted P t (leaf_at t i) (up_leaf u) -> merge_update_path P cs t i u = (t', Ok tt) -> checked_step P cs t t'.
Inductive checked_history (P : provider) (cs : cipher_suite) : tree -> tree -> Prop :=
| ch_nil t : checked_history P cs t t
| ch_cons t t1 t2 : checked_history P cs t t1 -> checked_step P cs t1 t2 -> checked_history P cs t t2.
