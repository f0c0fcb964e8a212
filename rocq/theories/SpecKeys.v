(** What the key-package, key-store and join properties talk about. *)
From Verif Require Export WireWF SpecSecrets SpecMessages Group.
Local Open Scope N_scope.

(** The package's signature verifies, under the leaf's signature key, over the package content (RFC 9420, Section 10). *)
Definition package_signed (P : provider) (kp : key_package) : Prop :=
  exists raw m s, se_key_package_tbs (kp_payload kp) = Ok raw /\ fits30 raw /\ m = labelled (str "KeyPackageTBS") raw /\
    p_sig P (kp_suite (kp_payload kp)) = Ok s /\
    s_verify s (lp_signature_key (ln_payload (kp_leaf (kp_payload kp)))) m (kp_signature kp) = Ok tt.
(** The leaf's own signature verifies, as required for a leaf in a key package (Section 7.2). *)
Definition package_leaf_signed (P : provider) (kp : key_package) : Prop :=
  leaf_verify_signature P (kp_suite (kp_payload kp)) (kp_leaf (kp_payload kp)) TIKeyPackage = Ok true.
Definition is_package_leaf (l : leaf_node) : Prop := exists lt, lp_source (ln_payload l) = LSKeyPackage lt.

(** [x] is what is hashed to make the reference of [kp] (Section 5.2). *)
Definition ref_input (kp : key_package) (x : bytes) : Prop :=
  exists raw, se_key_package kp = Ok raw /\ fits30 raw /\ x = (vec (str "MLS 1.0 KeyPackage Reference") ++ vec raw)%list.

(** Signing with the public key does not make signatures that verify under it. *)
Definition public_key_cannot_sign (P : provider) (cs : cipher_suite) (pk : bytes) : Prop :=
  forall a m s, p_sig P cs = Ok a -> s_sign a pk m = Ok s -> s_verify a pk m s <> Ok tt.

(** ** Key store histories *)
Inductive ks_op : Type := OpStore (k v : bytes) | OpDelete (k : bytes).
Definition op_key (o : ks_op) : bytes := match o with OpStore k _ => k | OpDelete k => k end.
Definition ks_apply (s : key_store) (o : ks_op) : key_store := match o with OpStore k v => ks_store s k v | OpDelete k => ks_delete s k end.
Definition ks_run (ops : list ks_op) : key_store := fold_left ks_apply ops [].

(** Two stores that answer every lookup alike, but for the keys in [except]. *)
Definition same_but (except : list bytes) (s s' : key_store) : Prop :=
  (forall k, In k except -> ks_retrieve s' k = None) /\ forall k, ~ In k except -> ks_retrieve s' k = ks_retrieve s k.

(** ** Joining *)
(** [k] is the first entry of the welcome that the store knows. *)
Definition first_known (s : key_store) (w : welcome) (k : bytes) : Prop :=
  exists pre e post, w_secrets w = (pre ++ e :: post)%list /\ egs_new_member e = k /\ ks_retrieve s k <> None /\
    forall x, In x pre -> ks_retrieve s (egs_new_member x) = None.
Definition none_known (s : key_store) (w : welcome) : Prop := forall x, In x (w_secrets w) -> ks_retrieve s (egs_new_member x) = None.
(** Under [k] the store holds [kp]. *)
Definition holds (s : key_store) (k : bytes) (kp : key_package) : Prop := exists raw rest, ks_retrieve s k = Some raw /\ de_key_package raw = Ok (kp, rest).
(** The store holds a readable private key for the package's init key. *)
Definition has_init (s : key_store) (kp : key_package) : Prop :=
  exists raw sk rest, ks_retrieve s (kp_init_key (kp_payload kp)) = Some raw /\ de_secret_key raw = Ok (sk, rest).

(** The store keeps the packages a welcome can name under their references. *)
Definition well_keyed (P : provider) (s : key_store) (w : welcome) : Prop :=
  forall e kp, In e (w_secrets w) -> holds s (egs_new_member e) kp -> generate_ref P kp = Ok (egs_new_member e).

(** One join, running alone for [n] steps. *)
Fixpoint run_alone (P : provider) (n : nat) (s : key_store) (t : thread) : key_store * thread :=
  match n with O => (s, t) | S n => let (s, t) := thread_step P s t in run_alone P n s t end.

(** ** Several joins at the same time: a store and threads; a schedule is the list of threads that run next *)
Definition system : Type := key_store * list thread.
Definition set_nth {A} (l : list A) (i : nat) (x : A) : list A := (firstn i l ++ x :: skipn (S i) l)%list.
Definition sys_step (P : provider) (y : system) (i : nat) : system :=
  match nth_error (snd y) i with
  | Some t => let (s, t') := thread_step P (fst y) t in (s, set_nth (snd y) i t')
  | None => y
  end.
Definition sys_run (P : provider) (y : system) (schedule : list nat) : system := fold_left (sys_step P) schedule y.
Definition joins (ws : list welcome) : list thread := map (fun w => TSearch (w_secrets w)) ws.

(** The welcome [w] names the package [kp], with reference [ref], of the store [s]. *)
Definition names (P : provider) (s : key_store) (w : welcome) (kp : key_package) (ref : bytes) : Prop :=
  (exists e, In e (w_secrets w) /\ holds s (egs_new_member e) kp) /\ generate_ref P kp = Ok ref.

(** The HPKE pair ([sk], [pk]) works. *)
Definition hpke_pair_ok (P : provider) (cs : cipher_suite) (sk pk : bytes) : Prop :=
  forall info e p kem ct, p_base_seal P cs pk info e p = Ok (kem, ct) -> p_base_open P cs sk info kem ct = Ok p.
