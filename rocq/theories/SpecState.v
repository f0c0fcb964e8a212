(** The state of a client in an epoch: what it may hold (RFC 9420, sections 9.2 and 16.6). *)
From Verif Require Export SpecForward.
Local Open Scope N_scope.

(** The calls made for the secrets of an epoch, its secret tree and its ratchets. *)
Definition message_made (k : hpke_alg) (d : N) (E epoch : bytes) (c : kdf_call) : Prop :=
  tree_made k d E c \/ exists lab, In lab schedule_labels /\ c = CExpand epoch (kdf_label lab [] (nh k)) (nh k).

(** What a client holds in the epoch [e], whose secret tree was [t]: the secrets derived from the epoch secret, without the encryption
    secret, which is deleted once the tree is made; and of the ratchets what is in [kept]. *)
Definition held (P : provider) (cs : cipher_suite) (t : secret_tree) (e : epoch_run) (kept : item -> Prop) (x : bytes) : Prop :=
  (exists lab, In lab schedule_labels /\ lab <> label_encryption /\ derive_secret P cs (er_epoch e) lab = Ok x) \/
  exists a, kept a /\ item_value P cs t a x.
