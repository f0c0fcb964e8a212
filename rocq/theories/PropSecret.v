(** Properties C36, C37 and C38: the secret tree, ratchets and labels. The derivations are in SpecSecrets.v. *)
From Verif Require Import SecretFacts.
From Verif Require Import SpecSecrets ExProvider.
Local Open Scope N_scope.

(* ------------------------------------------------------------------------------------------- *)
(** * C36 *)

Theorem C36_exists_iff : forall P cs h n s, working_kdf P cs h -> usable h s ->
  ((exists t, new_secret_tree P cs n s = Ok t) <-> exists d, d <= 31 /\ n = 2 ^ d).
Proof. exact c36_iff. Qed.
Print Assumptions C36_exists_iff.

(** The node reached from the root along [path] has the secret derived along [path]; whatever the KDF does. *)
Theorem C36_secrets : forall P cs h d s t, p_hpke P cs = Ok h -> d <= 31 -> new_secret_tree P cs (2 ^ d) s = Ok t ->
  N.of_nat (length t) = 2 * 2 ^ d - 1 /\
  forall path, N.of_nat (length path) <= d -> exists b, node_secret h s path = Ok b /\
    sget t (node_at (d - N.of_nat (length path)) (position 0 path)) = Some b.
Proof. exact c36_nodes. Qed.
Print Assumptions C36_secrets.

(** Every node of the tree is reached. *)
Theorem C36_every_node : forall d x, in_tree d x ->
  exists path, N.of_nat (length path) <= d /\ x = node_at (d - N.of_nat (length path)) (position 0 path).
Proof. exact c36_reach. Qed.
Print Assumptions C36_every_node.

(** Other sizes are reported as an error. *)
Theorem C36_other_sizes : forall P cs h n s, working_kdf P cs h -> usable h s -> 0 < n -> n <= 2147483648 -> (forall d, n <> 2 ^ d) ->
  new_secret_tree P cs n s = Err InvalidParentNode.
Proof. exact c36_error. Qed.
Print Assumptions C36_other_sizes.

(** Except that no leaf at all, or more than 2^31, panics. *)
Theorem C36_out_of_range : forall P cs n s, n = 0 \/ 2147483648 < n -> new_secret_tree P cs n s = Panic.
Proof. exact c36_too_big. Qed.
Print Assumptions C36_out_of_range.

Example C36_example : working_kdf toy Suite1 toy_hpke /\ usable toy_hpke (str "encryption") /\ (exists t, new_secret_tree toy Suite1 4 (str "encryption") = Ok t /\ length t = 7%nat) /\
  new_secret_tree toy Suite1 3 (str "encryption") = Err InvalidParentNode /\ forall d, 3 <> 2 ^ d.
Proof.
  split; [exact toy_working|]. split; [discriminate|]. split; [eexists; split; vm_compute; reflexivity|]. split; [vm_compute; reflexivity|].
  intros d E. destruct (N.eq_dec d 0) as [->|H]; [discriminate|]. assert (N.odd (2 ^ d) = false) as O by (rewrite N.odd_pow by exact H; reflexivity).
  rewrite <- E in O. discriminate.
Qed.

(* ------------------------------------------------------------------------------------------- *)
(** * C37 *)

(** A ratchet starts at generation 0 with the labelled expansion of its leaf's secret. *)
Theorem C37_root : forall P cs h t x l s, p_hpke P cs = Ok h -> sget t x = Some s ->
  derive_ratchet_root P cs t x l = let* s := expand_label h s (ratchet_label_str l) [] (nh h) in Ok (MkRatchet s 0).
Proof. exact c37_root. Qed.
Print Assumptions C37_root.

(** [m] steps from any generation, up to the last 32-bit one: the chain of derivations, or its first failure. *)
Theorem C37_steps : forall P cs h, p_hpke P cs = Ok h -> forall m r, rt_generation r + N.of_nat m < 4294967296 ->
  steps P cs r m = let* s := ratchet_after h (rt_secret r) (rt_generation r) m in Ok (MkRatchet s (rt_generation r + N.of_nat m)).
Proof. exact c37_steps. Qed.
Print Assumptions C37_steps.

(** Past the last generation the addition overflows. *)
Theorem C37_last_generation : forall P cs h s b, p_hpke P cs = Ok h -> expand_label h s (str "secret") (be 4 4294967295) (nh h) = Ok b ->
  derive_next P cs (MkRatchet s 4294967295) = Panic.
Proof. exact c37_overflow. Qed.
Print Assumptions C37_last_generation.

(** Key and nonce depend on secret and generation only. *)
Theorem C37_key_nonce : forall P cs h r, p_hpke P cs = Ok h -> a_key_size h < 65536 -> a_nonce_size h < 65536 ->
  derive_key P cs r = expand_label h (rt_secret r) (str "key") (be 4 (rt_generation r)) (a_key_size h) /\
  derive_nonce P cs r = expand_label h (rt_secret r) (str "nonce") (be 4 (rt_generation r)) (a_nonce_size h).
Proof. exact c37_keys. Qed.
Print Assumptions C37_key_nonce.

Theorem C37_sizes : forall P cs h r kb nb, p_hpke P cs = Ok h -> a_key_size h < 65536 -> a_nonce_size h < 65536 ->
  (forall s i n b, k_expand h s i n = Ok b -> N.of_nat (length b) = n) ->
  derive_key P cs r = Ok kb -> derive_nonce P cs r = Ok nb ->
  N.of_nat (length kb) = a_key_size h /\ N.of_nat (length nb) = a_nonce_size h.
Proof. exact c37_sizes. Qed.
Print Assumptions C37_sizes.

(** Keys, nonces and next secrets of different generations never use the same KDF input. *)
Theorem C37_separate : forall l l' g g' n n', In l [str "key"; str "nonce"; str "secret"] -> In l' [str "key"; str "nonce"; str "secret"] ->
  g < 4294967296 -> g' < 4294967296 -> n < 65536 -> n' < 65536 ->
  kdf_label l (be 4 g) n = kdf_label l' (be 4 g') n' -> l = l' /\ g = g'.
Proof. exact c37_distinct. Qed.
Print Assumptions C37_separate.

Example C37_example : p_hpke toy Suite1 = Ok toy_hpke /\ (forall s i n b, k_expand toy_hpke s i n = Ok b -> N.of_nat (length b) = n) /\
  exists t r r' k n, new_secret_tree toy Suite1 4 (str "enc") = Ok t /\ derive_ratchet_root toy Suite1 t 2 RHandshake = Ok r /\
  steps toy Suite1 r 3 = Ok r' /\ rt_generation r' = 3 /\ derive_key toy Suite1 r' = Ok k /\ derive_nonce toy Suite1 r' = Ok n /\ length k = 4%nat.
Proof.
  split; [reflexivity|]. split; [exact toy_expand_length|]. do 5 eexists. split; [vm_compute; reflexivity|]. split; [vm_compute; reflexivity|]. split; [vm_compute; reflexivity|].
  split; [reflexivity|]. split; [vm_compute; reflexivity|]. split; [vm_compute; reflexivity|]. reflexivity.
Qed.

(* ------------------------------------------------------------------------------------------- *)
(** * C38 *)

(** The info is the KDFLabel of the RFC, or the call fails on sizes. *)
Theorem C38_info : forall P cs k s l c n, p_hpke P cs = Ok k -> fits30 (mls_label l) -> fits30 c ->
  expand_with_label P cs s l c n = expand_label k s l c n.
Proof. exact c38_expand. Qed.
Print Assumptions C38_info.

Theorem C38_too_long : forall P cs s l c n, ~ (fits30 (mls_label l) /\ fits30 c) ->
  expand_with_label P cs s l c n = Err VarintExceeds30Bits \/ expand_with_label P cs s l c n = Err OpaqueSizeExceedsMaximumValueOfU32.
Proof. exact c38_expand_long. Qed.
Print Assumptions C38_too_long.

Theorem C38_info_injective : forall l c n l' c' n', fits30 (mls_label l) -> fits30 c -> fits30 (mls_label l') -> fits30 c' -> n < 65536 -> n' < 65536 ->
  kdf_label l c n = kdf_label l' c' n' -> l = l' /\ c = c' /\ n = n'.
Proof. exact kdf_label_inj. Qed.
Print Assumptions C38_info_injective.

Theorem C38_signed : forall P cs a key l c, p_sig P cs = Ok a -> fits30 (mls_label l) -> fits30 c ->
  sign_with_label P cs key l c = s_sign a key (labelled l c) /\
  forall sig, verify_with_label P cs key l c sig = s_verify a key (labelled l c) sig.
Proof. exact c38_sign. Qed.
Print Assumptions C38_signed.

Theorem C38_encrypted : forall P cs l c, fits30 (mls_label l) -> fits30 c ->
  (In cs [Suite1; Suite2; Suite3] ->
    (forall e pk pt, encrypt_with_label P cs e pk l c pt = p_base_seal P cs pk (labelled l c) e pt) /\
    (forall sk kem ct, decrypt_with_label P cs sk l c kem ct = p_base_open P cs sk (labelled l c) kem ct)) /\
  (~ In cs [Suite1; Suite2; Suite3] ->
    (forall e pk pt, encrypt_with_label P cs e pk l c pt = Err UnsupportedCipherSuite) /\
    (forall sk kem ct, decrypt_with_label P cs sk l c kem ct = Err UnsupportedCipherSuite)).
Proof. exact c38_encrypt. Qed.
Print Assumptions C38_encrypted.

Theorem C38_labelled_injective : forall l c l' c', fits30 (mls_label l) -> fits30 c -> fits30 (mls_label l') -> fits30 c' ->
  labelled l c = labelled l' c' -> l = l' /\ c = c'.
Proof. exact labelled_inj. Qed.
Print Assumptions C38_labelled_injective.

(** The labels published for deriving secrets from the epoch secret are the nine of RFC 9420 (Section 8, Table 4), and no two are the same. *)
Theorem C38_labels :
  label_init = str "init" /\ label_sender_data = str "sender data" /\ label_encryption = str "encryption" /\ label_exporter = str "exporter" /\
  label_external = str "external" /\ label_confirm = str "confirm" /\ label_membership = str "membership" /\ label_resumption = str "resumption" /\
  label_authentication = str "authentication" /\
  NoDup [label_init; label_sender_data; label_encryption; label_exporter; label_external; label_confirm; label_membership; label_resumption; label_authentication].
Proof. exact c38_labels. Qed.
Print Assumptions C38_labels.

Example C38_example : fits30 (mls_label (str "epoch")) /\ fits30 (str "context") /\ NoDup kdf_labels /\
  exists b, expand_with_label toy Suite1 (str "secret") (str "epoch") (str "context") 32 = Ok b /\ length b = 32%nat.
Proof. split; [reflexivity|]. split; [reflexivity|]. split; [exact kdf_labels_distinct|]. eexists. split; vm_compute; reflexivity. Qed.
