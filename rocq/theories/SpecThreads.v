(** What the properties about interrupted and simultaneous builds and joins talk about. *)
From Verif Require Export SpecKeys Threads.
Local Open Scope N_scope.

(** One call that runs alone for [n] accesses to the store and is then cut off: the machine stops, the process is
    killed, or the call has ended. *)
Fixpoint cut (P : provider) (n : nat) (s : key_store) (t : task) : key_store * task :=
  match n with O => (s, t) | S n => let (s, t) := task_step P s t in cut P n s t end.

(** Any number of calls that share a store. The schedule says who runs next. A call that the schedule abandons was
    interrupted there. *)
Definition shared : Type := key_store * list task.
Definition shared_step (P : provider) (y : shared) (i : nat) : shared :=
  match nth_error (snd y) i with
  | Some t => let (s, t') := task_step P (fst y) t in (s, set_nth (snd y) i t')
  | None => y
  end.
Definition run (P : provider) (s : key_store) (js : list job) (schedule : list nat) : shared :=
  fold_left (shared_step P) schedule (s, map (start P) js).

(** The job [j] is a build that makes the package [kp] with the encryption key pair [ekp] and the private init key [init]. *)
Definition makes (P : provider) (j : job) (kp : key_package) (ekp : hpke_key_pair) (init : bytes) : Prop :=
  match j with
  | JJoin _ => False
  | JBuild f1 f2 b v cs cred skp =>
      key_package_new P f1 f2 v cs cred skp (or_default (b_lifetime b) (MkLifetime 0 0)) (or_default (b_extensions b) [])
        (or_default (b_capabilities b) (MkCapabilities [] [] [] [] [])) (or_default (b_leaf_extensions b) []) = Ok (kp, ekp, init)
  end.
(** The three entries of a package: itself under its reference, its encryption key pair, its private init key. *)
Definition package_entry (P : provider) (kp : key_package) (k v : bytes) : Prop := generate_ref P kp = Ok k /\ se_key_package kp = Ok v.
Definition pair_entry (ekp : hpke_key_pair) (k v : bytes) : Prop := k = hkp_public ekp /\ se_hpke_key_pair ekp = Ok v.
Definition init_entry (kp : key_package) (init k v : bytes) : Prop := k = kp_init_key (kp_payload kp) /\ se_secret_key init = Ok v.
(** The job stores [v] under [k]. *)
Definition puts (P : provider) (j : job) (k v : bytes) : Prop :=
  exists kp ekp init, makes P j kp ekp init /\ (package_entry P kp k v \/ pair_entry ekp k v \/ init_entry kp init k v).
(** [v] can be found under [k]: it was there at the start or one of the jobs stores it. *)
Definition available (P : provider) (s : key_store) (js : list job) (k v : bytes) : Prop :=
  ks_retrieve s k = Some v \/ exists j, In j js /\ puts P j k v.
(** One of the welcomes names the package [kp], with reference [ref]. *)
Definition named (P : provider) (s : key_store) (js : list job) (w : welcome) (kp : key_package) (ref : bytes) : Prop :=
  exists e raw rest, In e (w_secrets w) /\ available P s js (egs_new_member e) raw /\ de_key_package raw = Ok (kp, rest) /\ generate_ref P kp = Ok ref.
(** Some welcome names a package to which [k] belongs, as its reference or as its init key. *)
Definition claimed (P : provider) (s : key_store) (js : list job) (k : bytes) : Prop :=
  exists w kp ref, In (JJoin w) js /\ named P s js w kp ref /\ (k = ref \/ k = kp_init_key (kp_payload kp)).

(** Packages are found under their references. *)
Definition keyed (P : provider) (s : key_store) (js : list job) : Prop :=
  forall w e raw kp rest, In (JJoin w) js -> In e (w_secrets w) -> available P s js (egs_new_member e) raw ->
    de_key_package raw = Ok (kp, rest) -> generate_ref P kp = Ok (egs_new_member e).
(** The jobs store under keys that are new and all different. *)
Definition fresh (P : provider) (s : key_store) (js : list job) : Prop :=
  (forall j k v, In j js -> puts P j k v -> ks_retrieve s k = None) /\
  (forall i i' j j' k v v', nth_error js i = Some j -> nth_error js i' = Some j' -> puts P j k v -> puts P j' k v' -> i = i') /\
  (forall j kp ekp init ref, In j js -> makes P j kp ekp init -> generate_ref P kp = Ok ref ->
     NoDup [ref; hkp_public ekp; kp_init_key (kp_payload kp)]).

(** A package of the store that cannot be used: its private init key is missing. *)
Definition unusable (s : key_store) (k : bytes) : Prop := exists kp, holds s k kp /\ ks_retrieve s (kp_init_key (kp_payload kp)) = None.
