(** Property C89: calls that share a provider never get the same random bytes (SpecRand.v). *)
From Coq Require Import ZifyBool ZifyNat ZifyN.
From Verif Require Import KeyStoreFacts RandFacts.
Import Coq.Strings.Byte.
From Verif Require Import SpecRand SpecProvider ExKeys.
Local Open Scope N_scope.

(* ------------------------------------------------------------------------------------------- *)
(** * C89 *)

(** Whatever calls share a provider and in whatever order they get to its generator, the bytes they get are parts of the generator's
    stream, of the size each call asks for, and no two of these parts overlap; and everything the calls come to is made from them. *)
Theorem C89_parts : forall P stream s qs schedule, words P qs <= 2 ^ 68 -> exists own : nat -> list part,
  (forall i k a j l b, nth_error (own i) k = Some a -> nth_error (own j) l = Some b -> (i, k) <> (j, l) -> apart a b) /\
  (forall i q a, nth_error qs i = Some q -> In a (own i) -> pt_length a = size_of P q /\ pt_start a + pt_length a <= 4 * words P qs) /\
  came_to P s qs (fun i => map (bytes_of stream) (own i)) (world_run P stream s qs schedule).
Proof. exact c89_parts. Qed.
Print Assumptions C89_parts.

(** So two groups that are made without an identifier get identifiers of 16 bytes from two different parts... *)
Theorem C89_groups : forall P stream s qs schedule i j v cs cred skp v' cs' cred' skp' r r', words P qs <= 2 ^ 68 -> i <> j ->
  nth_error qs i = Some (RGroup v cs cred skp None) -> nth_error qs j = Some (RGroup v' cs' cred' skp' None) ->
  nth_error (w_calls (world_run P stream s qs schedule)) i = Some (GotGroup r) -> nth_error (w_calls (world_run P stream s qs schedule)) j = Some (GotGroup r') ->
  exists a b, apart a b /\ pt_length a = 16 /\ pt_length b = 16 /\ pt_start a + 16 <= 4 * words P qs /\ pt_start b + 16 <= 4 * words P qs /\
    r = Ok (MkGroup v cs cred (skp_public skp) (bytes_of stream a)) /\ r' = Ok (MkGroup v' cs' cred' (skp_public skp') (bytes_of stream b)).
Proof. exact c89_groups. Qed.
Print Assumptions C89_groups.

(** ... which differ if the stream does not repeat itself. *)
Theorem C89_groups_differ : forall P stream s qs schedule i j v cs cred skp v' cs' cred' skp' g g', words P qs <= 2 ^ 68 -> i <> j -> unrepeated stream (4 * words P qs) 16 ->
  nth_error qs i = Some (RGroup v cs cred skp None) -> nth_error qs j = Some (RGroup v' cs' cred' skp' None) ->
  nth_error (w_calls (world_run P stream s qs schedule)) i = Some (GotGroup (Ok g)) -> nth_error (w_calls (world_run P stream s qs schedule)) j = Some (GotGroup (Ok g')) ->
  g_group_id g <> g_group_id g'.
Proof. exact c89_groups_differ. Qed.
Print Assumptions C89_groups_differ.

(** The same for the four random bytes of sender data. *)
Theorem C89_guards : forall P stream s qs schedule i j l g l' g' d d', words P qs <= 2 ^ 68 -> i <> j ->
  nth_error qs i = Some (RSender l g) -> nth_error qs j = Some (RSender l' g') ->
  nth_error (w_calls (world_run P stream s qs schedule)) i = Some (GotSender d) -> nth_error (w_calls (world_run P stream s qs schedule)) j = Some (GotSender d') ->
  exists a b, apart a b /\ pt_length a = 4 /\ pt_length b = 4 /\ pt_start a + 4 <= 4 * words P qs /\ pt_start b + 4 <= 4 * words P qs /\
    d = MkSenderData l g (bytes_of stream a) /\ d' = MkSenderData l' g' (bytes_of stream b).
Proof. exact c89_guards. Qed.
Print Assumptions C89_guards.

(** The two key pairs of a key package and those of any other package are derived from four different parts... *)
Theorem C89_packages : forall P stream s qs schedule i j b v cs cred skp b' v' cs' cred' skp' kp kp', words P qs <= 2 ^ 68 -> i <> j ->
  nth_error qs i = Some (RBuild b v cs cred skp) -> nth_error qs j = Some (RBuild b' v' cs' cred' skp') ->
  nth_error (w_calls (world_run P stream s qs schedule)) i = Some (Work (Building (BDone (Ok kp)))) ->
  nth_error (w_calls (world_run P stream s qs schedule)) j = Some (Work (Building (BDone (Ok kp')))) ->
  exists a1 a2 b1 b2, ForallOrdPairs apart [a1; a2; b1; b2] /\ Forall (fun a => pt_start a + pt_length a <= 4 * words P qs) [a1; a2; b1; b2] /\
    drawn_keys P stream kp a1 a2 /\ drawn_keys P stream kp' b1 b2.
Proof. exact c89_packages. Qed.
Print Assumptions C89_packages.

(** ... and are four different public keys if the stream does not repeat itself and different bytes give different keys. *)
Theorem C89_keys : forall P stream s qs schedule i j b v cs cred skp b' v' cred' skp' kp kp' h k, words P qs <= 2 ^ 68 -> i <> j ->
  p_hash P cs = Ok h -> p_hpke P cs = Ok k -> unrepeated stream (4 * words P qs) (h_size h) -> derives_apart k stream (4 * words P qs) (h_size h) ->
  nth_error qs i = Some (RBuild b v cs cred skp) -> nth_error qs j = Some (RBuild b' v' cs cred' skp') ->
  nth_error (w_calls (world_run P stream s qs schedule)) i = Some (Work (Building (BDone (Ok kp)))) ->
  nth_error (w_calls (world_run P stream s qs schedule)) j = Some (Work (Building (BDone (Ok kp')))) ->
  NoDup (package_keys kp ++ package_keys kp').
Proof. exact c89_keys. Qed.
Print Assumptions C89_keys.

(** With the bundled providers the bound on the words is met by any 2^63 calls. *)
Theorem C89_bundled : forall p P qs, bundled p P -> N.of_nat (length qs) <= 2 ^ 63 -> words P qs <= 2 ^ 68.
Proof. exact c89_bundled. Qed.
Print Assumptions C89_bundled.

(** Not vacuous: two builds, two groups and two sender data that get to a counting generator in turns all end well, and this stream does
    not repeat itself as far as they read it. *)
Definition ex_stream (n : N) : byte := match of_N (n mod 256) with Some b => b | None => x00 end.
Definition ex_requests : list request :=
  let cred := CredBasic (str "bob") in
  [RBuild ex_builder MLS10 Suite1 cred ex_skp; RGroup MLS10 Suite1 cred ex_skp None; RSender 3 7;
   RBuild ex_builder MLS10 Suite1 cred ex_skp; RGroup MLS10 Suite1 cred ex_skp None; RSender 4 7].
Definition ex_turns : list nat := [0; 3; 1; 0; 2; 3; 4; 5; 0; 3; 3; 0; 0; 3]%nat.
Example ex_rand_bound : words toy ex_requests = 14 /\ 14 <= 2 ^ 68.
Proof. split; [vm_compute; reflexivity|lia]. Qed.
Example ex_rand_ends : match w_calls (world_run toy ex_stream [] ex_requests ex_turns) with
  | [Work (Building (BDone (Ok kp))); GotGroup (Ok g); GotSender d; Work (Building (BDone (Ok kp'))); GotGroup (Ok g'); GotSender d'] =>
      package_keys kp = [x01 :: bytes_of ex_stream (Part 0 4); x01 :: bytes_of ex_stream (Part 24 4)] /\
      package_keys kp' = [x01 :: bytes_of ex_stream (Part 4 4); x01 :: bytes_of ex_stream (Part 32 4)] /\
      g_group_id g = bytes_of ex_stream (Part 8 16) /\ g_group_id g' = bytes_of ex_stream (Part 36 16) /\
      sd_reuse_guard d = bytes_of ex_stream (Part 28 4) /\ sd_reuse_guard d' = bytes_of ex_stream (Part 52 4)
  | _ => False
  end.
Proof. vm_compute. repeat split; reflexivity. Qed.
Example ex_rand_unrepeated : forall n, 0 < n -> unrepeated ex_stream 56 n.
Proof.
  intros n N [a la] [b lb]. cbn [pt_length pt_start]. intros -> -> A B AP E. unfold apart in AP. cbn [pt_length pt_start] in AP. unfold bytes_of in E. cbn [pt_length pt_start] in E.
  destruct (N.to_nat n) as [|m] eqn:M; [lia|]. cbn [seq map] in E. injection E as E _. change (N.of_nat 0) with 0 in E. rewrite !N.add_0_r in E. unfold ex_stream in E.
  rewrite !N.mod_small in E by lia. destruct (of_N a) as [x|] eqn:X; [|apply of_N_None_iff in X; lia]. destruct (of_N b) as [y|] eqn:Y; [|apply of_N_None_iff in Y; lia]. subst y.
  apply to_of_N in X. apply to_of_N in Y. lia.
Qed.
Example ex_rand_derives : forall h k, p_hash toy Suite1 = Ok h -> p_hpke toy Suite1 = Ok k -> derives_apart k ex_stream 56 (h_size h).
Proof. intros h k H K. injection H as <-. injection K as <-. intros x y p q _ _ _ _ X Y E. injection X as <-. injection Y as <-. cbn [hkp_public] in E. congruence. Qed.
