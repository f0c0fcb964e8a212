(** Model of the shared random number generator and of the calls that draw from it: rmls/src/crypto/provider/rand.rs,
    rmls/src/group/creation.rs, rmls/src/framing/mod.rs, rmls/src/key_package/mod.rs. *)
From Verif Require Export Threads Messages.
Local Open Scope N_scope.

(** Models rand.rs:7-9 (RandChacha) and the generator in it, ChaCha20Rng of the crate rand_chacha: a stream of bytes that the seed
    determines, given out in words of four bytes, and the number of the next word. The block counter has 64 bits and a block 16
    words, so that the position is taken modulo 2^68. *)
Record generator : Type := MkGenerator { g_stream : N -> byte; g_next : N }.
(** Models rand.rs:11-17 (default): a generator that has given out nothing. *)
Definition new_generator (stream : N -> byte) : generator := MkGenerator stream 0.
(** The number of words in 2^64 blocks. *)
Definition g_period : N := 2 ^ 68.
(** [n] bytes of the stream, from byte [4 * w] on. *)
Fixpoint g_read (stream : N -> byte) (at_ : N) (n : nat) : bytes :=
  match n with O => [] | S n => stream (at_ mod (4 * g_period)) :: g_read stream (at_ + 1) n end.
(** Models rand.rs:20-28 (fill): one call takes the lock once and gets whole words; what is left of the last word is dropped. The
    lock is never poisoned (nothing that holds it panics), and try_fill_bytes does not fail. *)
Definition g_fill (g : generator) (n : N) : generator * bytes :=
  (MkGenerator (g_stream g) ((g_next g + (n + 3) / 4) mod g_period), g_read (g_stream g) (4 * g_next g) (N.to_nat n)).

(** The calls of the library that draw random bytes or use the key store: group/creation.rs:40-68 (from_welcome),
    key_package/builder.rs:43-77 (build), group/creation.rs:17-38 (Group::new), framing/mod.rs:853-865 (SenderData::new). *)
Inductive request : Type :=
| RJoin (w : welcome)
| RBuild (b : builder) (v : protocol_version) (cs : cipher_suite) (cred : credential) (skp : signature_key_pair)
| RGroup (v : protocol_version) (cs : cipher_suite) (cred : credential) (skp : signature_key_pair) (id : option bytes)
| RSender (leaf generation : N).
(** Such a call while it runs: waiting for [n] random bytes, at work on the key store, or finished. *)
Inductive work : Type :=
| Need (n : N) (k : bytes -> work)
| Work (t : task)
| GotGroup (r : res group)
| GotSender (s : sender_data).
(** Continue a build, or end it with a failure: the [?] of key_package/mod.rs:159-172 and leaf_node.rs:403. *)
Definition wbind {A} (m : res A) (k : A -> work) : work :=
  match m with Ok a => k a | Err e => Work (Building (BDone (Err e))) | Panic => Work (Building (BDone Panic)) | Hang => Work (Building (BDone Hang)) end.
(** Models key_package/mod.rs:159-172 and leaf_node.rs:403-404, the parts of a build that draw random bytes: the scheme is compared,
    the bytes for the init key are drawn and the init key is derived, then the bytes for the encryption key are drawn. What comes
    after that is [build_start] with these bytes. *)
Definition begin_build (P : provider) (b : builder) (v : protocol_version) (cs : cipher_suite) (cred : credential) (skp : signature_key_pair) : work :=
  wbind (p_sig P cs) (fun s =>
  if negb (scheme_eqb (s_scheme s) (skp_scheme skp)) then Work (Building (BDone (Err CipherSuiteNotMatchSignatureScheme))) else
  wbind (p_hash P cs) (fun h => Need (h_size h) (fun b1 =>
  wbind (p_hpke P cs) (fun k => wbind (k_derive_key_pair k b1) (fun _ =>
  Need (h_size h) (fun b2 =>
  Work (Building (build_start P (fun _ => Ok b1) (fun _ => Ok b2) b v cs cred skp)))))))).
(** The call before its first access to the generator or the store: creation.rs:24-30, framing/mod.rs:858, builder.rs:50, creation.rs:46. *)
Definition begin (P : provider) (q : request) : work :=
  match q with
  | RJoin w => Work (start P (JJoin w))
  | RBuild b v cs cred skp => begin_build P b v cs cred skp
  | RGroup v cs cred skp (Some i) => GotGroup (group_new (fun _ => Ok []) v cs cred skp (Some i))
  | RGroup v cs cred skp None => Need 16 (fun i => GotGroup (group_new (fun _ => Ok i) v cs cred skp None))
  | RSender leaf generation => Need 4 (fun g => GotSender (new_sender_data leaf generation g))
  end.
(** One access to the generator (rand.rs:20-28) or to the key store (key_store.rs:9-26), and what follows up to the next one. *)
Definition work_step (P : provider) (g : generator) (s : key_store) (t : work) : generator * key_store * work :=
  match t with
  | Need n k => let (g, b) := g_fill g n in (g, s, k b)
  | Work t => let (s, t) := task_step P s t in (g, s, Work t)
  | GotGroup r => (g, s, GotGroup r)
  | GotSender d => (g, s, GotSender d)
  end.
