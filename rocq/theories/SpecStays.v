(** What must be checked of changes to a group so that others can still join it (RFC 9420, Sections 7.3 and 12.4.3.1). *)
From Verif Require Export SpecRatchet SpecMembers SpecHashes SpecJoin SpecPassive.
Local Open Scope N_scope.

Definition type_of (l : leaf_node) : credential_type := credential_type_of (lp_credential (ln_payload l)).
(** The credential types that a member says it supports. *)
Definition supports (l : leaf_node) (ct : credential_type) : Prop := In ct (cap_credentials (lp_capabilities (ln_payload l))).
(** The key of some node, be it a leaf or a parent. *)
Definition used_key (t : tree) (k : bytes) : Prop := exists x n, tget t x = Some n /\ node_key n = k.

(** The leaf [l] may go to the place [i] of [t], instead of the member there, if any, in the group [g] at the times [now]. *)
Record fit (P : provider) (cs : cipher_suite) (g : bytes) (now : N -> Z) (t : tree) (i : N) (l : leaf_node) : Prop := {
  ft_signed : leaf_signed P cs l g i;
  ft_lifetime : forall lt, lp_source (ln_payload l) = LSKeyPackage lt -> (0 < now i)%Z -> lifetime_accepted lt (now i);
  ft_extensions : forall e, In e (lp_extensions (ln_payload l)) -> In (ext_type e) (cap_extensions (lp_capabilities (ln_payload l)));
  (** Everybody supports everybody's credential, and the list names nothing twice. *)
  ft_own_credential : supports l (type_of l);
  ft_credentials : forall j m, j <> i -> leaf_at t j = Some m -> supports m (type_of l) /\ supports l (type_of m);
  ft_no_repetition : NoDup (cap_credentials (lp_capabilities (ln_payload l)));
  (** Its keys are its own. *)
  ft_signature_key : forall j m, j <> i -> leaf_at t j = Some m -> signature_key m <> signature_key l;
  ft_encryption_key : ~ used_key t (encryption_key l) }.

Inductive fit_step (P : provider) (cs : cipher_suite) (g : bytes) (now : N -> Z) : tree -> tree -> Prop :=
| ft_add t i l t' : has_room t -> tree_add t l = Ok t' -> blank_at t i -> leaf_at t' i = Some l ->
    fit P cs g now t i l -> (forall h, lp_source (ln_payload l) <> LSCommit h) -> fit_step P cs g now t t'
| ft_update t i l t' : tree_update t i l = Ok t' -> fit P cs g now t i l -> fit_step P cs g now t t'
| ft_remove t i t' : tree_remove t i = Ok t' -> t' <> [] -> fit_step P cs g now t t'
| ft_merge t i u t' h : merge_update_path P cs t i u = (t', Ok tt) -> root_tree_hash P cs t' = Ok h -> ~ coincidence P cs t' i ->
    fit P cs g now t i (up_leaf u) ->
    (** The keys of the path are new, and different. *)
    NoDup (encryption_key (up_leaf u) :: map upn_encryption_key (up_nodes u)) ->
    (forall n, In n (up_nodes u) -> ~ used_key t (upn_encryption_key n)) -> fit_step P cs g now t t'.
Inductive fit_history (P : provider) (cs : cipher_suite) (g : bytes) (now : N -> Z) : tree -> tree -> Prop :=
| fth_nil t : fit_history P cs g now t t
| fth_cons t t1 t2 : fit_history P cs g now t t1 -> fit_step P cs g now t1 t2 -> fit_history P cs g now t t2.

(** A newcomer who is given the tree [t] and the right tree hash accepts it. *)
Definition joinable (P : provider) (cs : cipher_suite) (g : bytes) (now : N -> Z) (t : tree) : Prop :=
  forall ctx, gc_suite ctx = cs -> gc_group_id ctx = g -> root_tree_hash P cs t = Ok (gc_tree_hash ctx) -> verify_integrity P t ctx now = Ok tt.
(** Nobody names a credential type twice. *)
Definition no_repetitions (t : tree) : Prop := forall i l, leaf_at t i = Some l -> NoDup (cap_credentials (lp_capabilities (ln_payload l))).
