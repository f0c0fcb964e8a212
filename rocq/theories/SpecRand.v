(** What the property about random bytes talks about: parts of the generator's stream, and calls that share the generator and the
    key store. *)
From Verif Require Export SpecThreads Rand.
Local Open Scope N_scope.

(** A part of the stream: where it starts and how many bytes it has. Its bytes. *)
Record part : Type := Part { pt_start : N; pt_length : N }.
Definition bytes_of (stream : N -> byte) (a : part) : bytes :=
  map (fun i => stream (pt_start a + N.of_nat i)) (seq 0 (N.to_nat (pt_length a))).
Definition apart (a b : part) : Prop := pt_start a + pt_length a <= pt_start b \/ pt_start b + pt_length b <= pt_start a.

(** Calls that share a provider. The schedule says which call makes the next access to the generator or the store. *)
Record world : Type := MkWorld { w_gen : generator; w_store : key_store; w_calls : list work }.
Definition world_step (P : provider) (y : world) (i : nat) : world :=
  match nth_error (w_calls y) i with
  | Some t => let '(g, s, t') := work_step P (w_gen y) (w_store y) t in MkWorld g s (set_nth (w_calls y) i t')
  | None => y
  end.
Definition world_run (P : provider) (stream : N -> byte) (s : key_store) (qs : list request) (schedule : list nat) : world :=
  fold_left (world_step P) schedule (MkWorld (new_generator stream) s (map (begin P) qs)).

(** The words of the generator that a call can use up. *)
Definition words_of (P : provider) (q : request) : N :=
  match q with
  | RJoin _ | RGroup _ _ _ _ (Some _) => 0
  | RBuild _ _ cs _ _ => match p_hash P cs with Ok h => 2 * ((h_size h + 3) / 4) | _ => 0 end
  | RGroup _ _ _ _ None => 4
  | RSender _ _ => 1
  end.
Definition words (P : provider) (qs : list request) : N := fold_right (fun q n => words_of P q + n) 0 qs.

(** How many bytes a call asks for each time. *)
Definition size_of (P : provider) (q : request) : N :=
  match q with RBuild _ _ cs _ _ => match p_hash P cs with Ok h => h_size h | _ => 0 end | RSender _ _ => 4 | _ => 16 end.
(** A build that ended without a package. *)
Definition failed (t : task) : Prop := exists r, t = Building (BDone r) /\ forall kp, r <> Ok kp.
(** The call as one that only uses the store (Threads.v), given the random bytes it got. Calls that do not use the store are put
    in as joins that are never run. *)
Definition job_of (q : request) (answers : list bytes) : job :=
  match q with
  | RJoin w => JJoin w
  | RBuild b v cs cred skp => JBuild (fun _ => Ok (nth 0 answers [])) (fun _ => Ok (nth 1 answers [])) b v cs cred skp
  | _ => JJoin (MkWelcome Suite1 [] [])
  end.
(** The first [limit] bytes of the stream have no two equal parts of [n] bytes that are apart. *)
Definition unrepeated (stream : N -> byte) (limit n : N) : Prop :=
  forall a b, pt_length a = n -> pt_length b = n -> pt_start a + n <= limit -> pt_start b + n <= limit -> apart a b -> bytes_of stream a <> bytes_of stream b.
(** What the calls [qs] have come to, if [answers i] are the random bytes that call [i] got: a group or sender data as the call makes
    them from these bytes; and the joins and builds, and the store, as after some schedule of joins and builds that have these bytes. *)
Definition jobs_of (qs : list request) (answers : nat -> list bytes) : list job :=
  map (fun '(i, q) => job_of q (answers i)) (combine (seq 0 (length qs)) qs).
Definition came_to (P : provider) (s : key_store) (qs : list request) (answers : nat -> list bytes) (y : world) : Prop :=
  exists schedule, let z := run P s (jobs_of qs answers) schedule in
    w_store y = fst z /\
    forall i q, nth_error qs i = Some q ->
      match nth_error (w_calls y) i with
      | Some (Need _ _) => True
      | Some (Work t) => nth_error (snd z) i = Some t /\ match q with RBuild _ _ _ _ _ => length (answers i) = 2%nat \/ failed t | _ => True end
      | Some (GotGroup r) => exists v cs cred skp id,
          q = RGroup v cs cred skp id /\ r = group_new (fun _ => Ok (nth 0 (answers i) [])) v cs cred skp id /\ (id = None -> length (answers i) = 1%nat)
      | Some (GotSender d) => exists l g, q = RSender l g /\ d = new_sender_data l g (nth 0 (answers i) []) /\ length (answers i) = 1%nat
      | None => False
      end.

(** The keys of the package [kp] were derived from the parts [a] (init key) and [b] (encryption key) of the stream. *)
Definition drawn_keys (P : provider) (stream : N -> byte) (kp : key_package) (a b : part) : Prop :=
  let cs := kp_suite (kp_payload kp) in
  exists h k init enc, p_hash P cs = Ok h /\ p_hpke P cs = Ok k /\ pt_length a = h_size h /\ pt_length b = h_size h /\
    k_derive_key_pair k (bytes_of stream a) = Ok init /\ kp_init_key (kp_payload kp) = hkp_public init /\
    k_derive_key_pair k (bytes_of stream b) = Ok enc /\ lp_encryption_key (ln_payload (kp_leaf (kp_payload kp))) = hkp_public enc.
(** The two public keys of a package. *)
Definition package_keys (kp : key_package) : list bytes := [kp_init_key (kp_payload kp); lp_encryption_key (ln_payload (kp_leaf (kp_payload kp)))].
(** Different parts of [n] bytes of the first [limit] bytes of the stream make different public keys. *)
Definition derives_apart (k : hpke_alg) (stream : N -> byte) (limit n : N) : Prop :=
  forall a b p q, pt_length a = n -> pt_length b = n -> pt_start a + n <= limit -> pt_start b + n <= limit ->
    k_derive_key_pair k (bytes_of stream a) = Ok p -> k_derive_key_pair k (bytes_of stream b) = Ok q -> hkp_public p = hkp_public q -> bytes_of stream a = bytes_of stream b.
