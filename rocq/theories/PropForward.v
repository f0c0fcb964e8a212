(** Properties C82 and C83: what kept secrets reveal. The vocabulary is in SpecForward.v; [ideal] is an example provider whose
    KDF is injective. *)
From Verif Require Import ForwardFacts.
From Verif Require Import SpecForward ExProvider.
Local Open Scope N_scope.

(* ------------------------------------------------------------------------------------------- *)
(** * C82 *)

(** Whoever keeps only some ratchets of a secret tree, at their current generations, and some message keys and nonces, can
    compute another ratchet secret, key or nonce only if it follows from one of them; or two different KDF calls, each by the
    attacker or by the members, have the same result, or one gives back the encryption secret. *)
Theorem C82_forward : forall P cs h d E t (kept : item -> Prop) it b D, p_hpke P cs = Ok h -> d <= 31 -> new_secret_tree P cs (2 ^ d) E = Ok t ->
  item_value P cs t it b -> knows h (fun x => exists a, kept a /\ item_value P cs t a x) D b ->
  (exists a, kept a /\ follows a it) \/ clash h D (tree_made h d E) \/ exists c, (In c D \/ tree_made h d E c) /\ call h c = Ok E.
Proof. exact c82_forward. Qed.
Print Assumptions C82_forward.

(** What follows can be computed. *)
Theorem C82_later : forall P cs h t a it v b, p_hpke P cs = Ok h -> follows a it -> item_value P cs t a v -> item_value P cs t it b ->
  exists D, knows h (fun x => x = v) D b.
Proof. exact c82_later. Qed.
Print Assumptions C82_later.

(** With a KDF in which no two calls have the same result and none gives back the encryption secret, only what follows is known. *)
Theorem C82_ideal : forall P cs h d E t (kept : item -> Prop) it b D, p_hpke P cs = Ok h -> d <= 31 -> new_secret_tree P cs (2 ^ d) E = Ok t ->
  (forall c c' x, call h c = Ok x -> call h c' = Ok x -> c = c') -> (forall c, call h c <> Ok E) ->
  item_value P cs t it b -> knows h (fun x => exists a, kept a /\ item_value P cs t a x) D b -> exists a, kept a /\ follows a it.
Proof. exact c82_ideal. Qed.
Print Assumptions C82_ideal.

(** There is such a KDF; with it, the application ratchet of leaf 1 at generation 2 reveals key 3 and not key 0. *)
Example C82_example : exists t r r' b b', new_secret_tree ideal Suite1 (2 ^ 1) (str "enc") = Ok t /\
  ratchet_at ideal Suite1 t 1 RApplication 2 r /\ ratchet_at ideal Suite1 t 1 RApplication 0 r' /\
  item_value ideal Suite1 t (IKey 1 RApplication 0) b /\ item_value ideal Suite1 t (IKey 1 RApplication 3) b' /\
  (forall D, ~ knows ideal_hpke (fun x => x = rt_secret r) D b) /\ exists D, knows ideal_hpke (fun x => x = rt_secret r) D b'.
Proof. exact c82_example. Qed.
Example C82_ideal_example : p_hpke ideal Suite1 = Ok ideal_hpke /\ (forall c c' x, call ideal_hpke c = Ok x -> call ideal_hpke c' = Ok x -> c = c') /\
  forall c, call ideal_hpke c <> Ok (str "enc").
Proof. exact (conj eq_refl (conj ideal_injective ideal_never)). Qed.

(* ------------------------------------------------------------------------------------------- *)
(** * C83 *)

(** Whoever knows a secret derived from an epoch secret was given it; or was given something of that epoch, or of an earlier one
    and knows all commit secrets and PSKs since ([enough]); or two different KDF calls have the same result. *)
Theorem C83_only : forall P cs k S D init l e lab x, p_hpke P cs = Ok k -> lifetime_of P cs init (l ++ [e]) -> In lab schedule_labels ->
  derive_secret P cs (er_epoch e) lab = Ok x -> knows k S D x ->
  S x \/ enough k S D init (l ++ [e]) \/ clash k D (all_made k (l ++ [e])).
Proof. exact c83_only. Qed.
Print Assumptions C83_only.
Theorem C83_enough : forall P cs k S D init l e lab x, p_hpke P cs = Ok k -> lifetime_of P cs init (l ++ [e]) -> In lab schedule_labels ->
  derive_secret P cs (er_epoch e) lab = Ok x -> enough k S D init (l ++ [e]) -> exists D', knows k S D' x.
Proof. exact c83_enough. Qed.
Print Assumptions C83_enough.

(** Forward secrecy: who was given nothing of this and the earlier epochs, whatever of later ones, does not know it. *)
Theorem C83_forward : forall P cs k S D init l e lab x, p_hpke P cs = Ok k -> lifetime_of P cs init (l ++ [e]) -> In lab schedule_labels ->
  derive_secret P cs (er_epoch e) lab = Ok x -> ~ S x -> ~ knows k S D init ->
  (forall e', In e' (l ++ [e]) -> ~ late_leak k S e' /\ ~ early_leak k S e') -> (forall e', In e' l -> ~ S (er_init e')) ->
  knows k S D x -> clash k D (all_made k (l ++ [e])).
Proof. exact c83_forward. Qed.
Print Assumptions C83_forward.

(** Healing: who does not know the commit secret of this epoch and was given nothing of this epoch does not know it, whatever they
    were given of earlier ones. *)
Theorem C83_heals : forall P cs k S D init l e lab x, p_hpke P cs = Ok k -> lifetime_of P cs init (l ++ [e]) -> In lab schedule_labels ->
  derive_secret P cs (er_epoch e) lab = Ok x -> ~ S x -> ~ knows k S D (er_commit e) -> ~ late_leak k S e -> ~ early_leak k S e ->
  knows k S D x -> clash k D (all_made k (l ++ [e])).
Proof. exact c83_heals. Qed.
Print Assumptions C83_heals.

Theorem C83_no_clash : forall k D made, (forall c c' x, call k c = Ok x -> call k c' = Ok x -> c = c') -> ~ clash k D made.
Proof. exact ideal_no_clash. Qed.
Print Assumptions C83_no_clash.

Example C83_example : lifetime_of ideal Suite2 (str "init") [ex_epoch1; ex_epoch2] /\
  derive_secret ideal Suite2 (er_epoch ex_epoch1) label_encryption = Ok (ex_enc ex_epoch1) /\ derive_secret ideal Suite2 (er_epoch ex_epoch2) label_encryption = Ok (ex_enc ex_epoch2) /\
  (forall D, ~ knows ideal_hpke (fun x => In x [str "commit one"; str "commit two"; str "psk"; zero_bytes 4; er_init ex_epoch2]) D (ex_enc ex_epoch1)) /\
  (forall D, ~ knows ideal_hpke (fun x => In x [er_init ex_epoch1; str "commit one"; str "psk"]) D (ex_enc ex_epoch2)) /\
  exists D, knows ideal_hpke (fun x => In x [er_init ex_epoch1; str "commit two"; str "psk"]) D (ex_enc ex_epoch2).
Proof. exact c83_example. Qed.
