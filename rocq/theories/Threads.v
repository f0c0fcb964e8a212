(** Model of key package builds and joins that share one key store: rmls/src/key_package/builder.rs,
    rmls/src/group/creation.rs. Each takes one step for each access to the store (each takes the lock once:
    crypto/provider/key_store.rs:9-26). *)
From Verif Require Export Group.
Local Open Scope N_scope.

(** The states of a build between its accesses to the store: key_package/builder.rs:60-76. *)
Inductive build_thread : Type :=
| BPackage (kp : key_package) (ekp : hpke_key_pair) (init ref raw : bytes)  (** about to run builder.rs:60-63 *)
| BPair (kp : key_package) (k raw init : bytes)                             (** about to run builder.rs:65-68 *)
| BInit (kp : key_package) (raw : bytes)                                    (** about to run builder.rs:70-73 *)
| BDone (r : res key_package).
(** Continue a build with a value, or end it with a failure: the [?] of builder.rs:59-73. *)
Definition bnext {A} (m : res A) (k : A -> build_thread) : build_thread :=
  match m with Ok a => k a | Err e => BDone (Err e) | Panic => BDone Panic | Hang => BDone Hang end.
(** Models builder.rs:50-62: everything before the first access to the store. *)
Definition build_start (P : provider) (fill1 fill2 : N -> res bytes) (b : builder) (v : protocol_version) (cs : cipher_suite)
    (cred : credential) (skp : signature_key_pair) : build_thread :=
  bnext (key_package_new P fill1 fill2 v cs cred skp (or_default (b_lifetime b) (MkLifetime 0 0)) (or_default (b_extensions b) [])
           (or_default (b_capabilities b) (MkCapabilities [] [] [] [] [])) (or_default (b_leaf_extensions b) [])) (fun '(kp, ekp, init) =>
  bnext (generate_ref P kp) (fun ref => bnext (se_key_package kp) (fun raw => BPackage kp ekp init ref raw))).
(** One access to the store of builder.rs:60-76, and what follows up to the next one. *)
Definition build_step (s : key_store) (t : build_thread) : key_store * build_thread :=
  match t with
  | BPackage kp ekp init ref raw => (ks_store s ref raw, bnext (se_hpke_key_pair ekp) (fun rawe => BPair kp (hkp_public ekp) rawe init))
  | BPair kp k rawe init => (ks_store s k rawe, bnext (se_secret_key init) (fun rawi => BInit kp rawi))
  | BInit kp rawi => (ks_store s (kp_init_key (kp_payload kp)) rawi, BDone (Ok kp))
  | BDone r => (s, BDone r)
  end.

(** A call that is to run: [Group::from_welcome] (group/creation.rs:40-68) or [KeyPackageBuilder::build] (builder.rs:43-77). *)
Inductive job : Type :=
| JJoin (w : welcome)
| JBuild (fill1 fill2 : N -> res bytes) (b : builder) (v : protocol_version) (cs : cipher_suite) (cred : credential) (skp : signature_key_pair).
(** A call that runs: creation.rs:40-68 or builder.rs:43-77. *)
Inductive task : Type := Joining (t : thread) | Building (t : build_thread).
(** The call before its first access to the store: creation.rs:46, builder.rs:50-62. *)
Definition start (P : provider) (j : job) : task :=
  match j with
  | JJoin w => Joining (TSearch (w_secrets w))
  | JBuild f1 f2 b v cs cred skp => Building (build_start P f1 f2 b v cs cred skp)
  end.
(** One access to the store: creation.rs:46-65, builder.rs:60-73. *)
Definition task_step (P : provider) (s : key_store) (t : task) : key_store * task :=
  match t with
  | Joining t => let (s, t) := thread_step P s t in (s, Joining t)
  | Building t => let (s, t) := build_step s t in (s, Building t)
  end.
