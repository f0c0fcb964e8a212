(** Properties C39, C40 and C41: the PSK secret, the key schedule and the transcript hashes (SpecSecrets.v). *)
From Verif Require Import KeyFacts.
From Verif Require Import WireWF SpecSecrets ExProvider Examples.
Local Open Scope N_scope.

(* ------------------------------------------------------------------------------------------- *)
(** * C39 *)

Theorem C39_rfc : forall P cs k ids psks s, p_hpke P cs = Ok k -> length ids = length psks -> N.of_nat (length ids) < 65536 ->
  (extract_psk_secret P cs ids psks = Ok s <-> psk_chain plain k (N.of_nat (length ids)) (combine ids psks) s).
Proof. exact c39_rfc. Qed.
Print Assumptions C39_rfc.

Theorem C39_mismatch : forall P cs ids psks, length ids <> length psks -> extract_psk_secret P cs ids psks = Err PskIDsAndPskLenNotMatch.
Proof. exact c39_mismatch. Qed.
Print Assumptions C39_mismatch.

(** Labels determine id, position and count. *)
Theorem C39_labels : forall id id' i i' n n' b, wf_psk_id id -> wf_psk_id id' -> i < 65536 -> i' < 65536 -> n < 65536 -> n' < 65536 ->
  se_psk_label (MkPskLabel id i n) = Ok b -> se_psk_label (MkPskLabel id' i' n') = Ok b -> id = id' /\ i = i' /\ n = n'.
Proof. exact c39_labels. Qed.
Print Assumptions C39_labels.

(** The secret binds ids, PSKs, order and count. *)
Theorem C39_binds : forall P cs k ids psks ids' psks' s, p_hpke P cs = Ok k ->
  N.of_nat (length ids) < 65536 -> N.of_nat (length ids') < 65536 -> Forall wf_psk_id ids -> Forall wf_psk_id ids' -> ids <> [] -> ids' <> [] ->
  extract_psk_secret P cs ids psks = Ok s -> extract_psk_secret P cs ids' psks' = Ok s ->
  (ids = ids' /\ psks = psks') \/ psk_collision k (combine ids psks) (combine ids' psks').
Proof. exact c39_binds. Qed.
Print Assumptions C39_binds.

(** Lists of any length: positions and counts are written modulo 2^16. *)
Theorem C39_any_length : forall P cs k ids psks s, p_hpke P cs = Ok k -> length ids = length psks ->
  (extract_psk_secret P cs ids psks = Ok s <-> psk_chain wrapped k (N.of_nat (length ids)) (combine ids psks) s).
Proof. exact c39_fold. Qed.
Print Assumptions C39_any_length.

(** So 65537 PSKs are accepted, and the last one gets the label of the first. *)
Theorem C39_wraps : exists ids psks s, N.of_nat (length ids) = 65537 /\ extract_psk_secret toy Suite1 ids psks = Ok s /\
  psk_chain wrapped toy_hpke 65537 (combine ids psks) s /\
  nth_error ids 0 = Some ex_psk /\ nth_error ids (N.to_nat 65536) = Some ex_psk /\
  MkPskLabel ex_psk (wrapped 65536) (wrapped 65537) = MkPskLabel ex_psk (wrapped 0) (wrapped 65537) /\
  MkPskLabel ex_psk (wrapped 65536) (wrapped 65537) = MkPskLabel ex_psk (plain 0) (plain 1).
Proof. exact c39_wraps. Qed.
Print Assumptions C39_wraps.

Example C39_example : wf_psk_id ex_psk /\ wf_psk_id ex_psk2 /\ exists s, extract_psk_secret toy Suite1 [ex_psk; ex_psk2] [str "p"; str "q"] = Ok s.
Proof. split; [exact ex_psk_wf|]. split; [exact I|]. exact ex_chain. Qed.

(* ------------------------------------------------------------------------------------------- *)
(** * C40 *)

Theorem C40_joiner : forall P g k init commit s, p_hpke P (gc_suite g) = Ok k ->
  (extract_joiner_secret P g init commit = Ok s <-> joiner_secret k g init commit s).
Proof. exact joiner_iff. Qed.
Print Assumptions C40_joiner.

Theorem C40_epoch : forall P g k joiner psk s, p_hpke P (gc_suite g) = Ok k ->
  (extract_epoch_secret P g joiner psk = Ok s <-> epoch_secret k g joiner psk s).
Proof. exact epoch_iff. Qed.
Print Assumptions C40_epoch.

Theorem C40_welcome : forall P cs k joiner psk s, p_hpke P cs = Ok k ->
  (extract_welcome_secret P cs joiner psk = Ok s <-> welcome_secret k joiner psk s).
Proof. exact welcome_iff. Qed.
Print Assumptions C40_welcome.

(** Equal epoch secrets: equal context, joiner secret and PSK secret, or a collision of the two extractions or of
    the two expansions made. *)
Theorem C40_epoch_binds : forall k g g' j j' psk psk' s, wf_group_context g -> wf_group_context g' ->
  epoch_secret k g j psk s -> epoch_secret k g' j' psk' s ->
  (g = g' /\ j = j' /\ psk_or_zero k psk = psk_or_zero k psk') \/
  collide (k_extract k) (psk_or_zero k psk) j (psk_or_zero k psk') j' \/
  exists e e' raw raw', k_extract k (psk_or_zero k psk) j = Ok e /\ k_extract k (psk_or_zero k psk') j' = Ok e' /\
    se_group_context g = Ok raw /\ se_group_context g' = Ok raw' /\
    collide (fun s i => k_expand k s i (nh k)) e (kdf_label (str "epoch") raw (nh k)) e' (kdf_label (str "epoch") raw' (nh k)).
Proof. exact c40_binds. Qed.
Print Assumptions C40_epoch_binds.

Theorem C40_joiner_binds : forall k g g' i i' c c' s, wf_group_context g -> wf_group_context g' ->
  joiner_secret k g i c s -> joiner_secret k g' i' c' s ->
  (g = g' /\ i = i' /\ c = c') \/
  collide (k_extract k) c i c' i' \/
  exists e e' raw raw', k_extract k c i = Ok e /\ k_extract k c' i' = Ok e' /\
    se_group_context g = Ok raw /\ se_group_context g' = Ok raw' /\
    collide (fun s i => k_expand k s i (nh k)) e (kdf_label (str "joiner") raw (nh k)) e' (kdf_label (str "joiner") raw' (nh k)).
Proof. exact c40_joiner_binds. Qed.
Print Assumptions C40_joiner_binds.

(** No PSK secret, the all-zero one, and the secret of no PSKs are the same. *)
Theorem C40_omitted : forall P g cs k j, p_hpke P (gc_suite g) = Ok k -> p_hpke P cs = Ok k ->
  extract_epoch_secret P g j [] = extract_epoch_secret P g j (zero_bytes (k_extract_size k)) /\
  extract_welcome_secret P cs j [] = extract_welcome_secret P cs j (zero_bytes (k_extract_size k)) /\
  extract_psk_secret P cs [] [] = Ok (zero_bytes (k_extract_size k)).
Proof. exact c40_omitted. Qed.
Print Assumptions C40_omitted.

Example C40_example : wf_group_context ex_gc /\ p_hpke toy (gc_suite ex_gc) = Ok toy_hpke /\
  exists j e w, extract_joiner_secret toy ex_gc (str "init") (str "commit") = Ok j /\ extract_epoch_secret toy ex_gc j (str "psk") = Ok e /\
  extract_welcome_secret toy Suite1 j [] = Ok w.
Proof. split; [exact ex_gc_wf|]. split; [reflexivity|]. do 3 eexists. vm_compute. repeat split; reflexivity. Qed.

(* ------------------------------------------------------------------------------------------- *)
(** * C41 *)

Theorem C41_history : forall P cs h i, p_hash P cs = Ok h -> (forall b, N.of_nat (length (h_digest h b)) = h_size h) -> forall l l' r,
  Forall (fun x => wf_confirmed_input (fst x)) l -> Forall (fun x => wf_confirmed_input (fst x)) l' -> length l = length l' ->
  transcript P cs i l = Ok r -> transcript P cs i l' = Ok r -> l = l' \/ transcript_collision P cs h i l l'.
Proof. exact c41_binds. Qed.
Print Assumptions C41_history.

(** The same for the confirmed transcript hash, which does not cover the last tag. *)
Theorem C41_confirmed : forall P cs h i, p_hash P cs = Ok h -> (forall b, N.of_nat (length (h_digest h b)) = h_size h) -> forall l l' c c' j j' r,
  Forall (fun x => wf_confirmed_input (fst x)) l -> Forall (fun x => wf_confirmed_input (fst x)) l' -> wf_confirmed_input c -> wf_confirmed_input c' ->
  length l = length l' -> transcript P cs i l = Ok j -> transcript P cs i l' = Ok j' -> confirmed_hash P cs c j = Ok r -> confirmed_hash P cs c' j' = Ok r ->
  (l = l' /\ c = c') \/ transcript_collision P cs h i (l ++ [(c, [])]) (l' ++ [(c', [])]).
Proof. exact c41_confirmed. Qed.
Print Assumptions C41_confirmed.

Theorem C41_no_collision : forall P cs h i l l', (forall a b, h_digest h a = h_digest h b -> a = b) -> ~ transcript_collision P cs h i l l'.
Proof. exact c41_no_collision. Qed.
Print Assumptions C41_no_collision.

Example C41_example : p_hash fixed Suite1 = Ok fixed_hash /\ (forall b, N.of_nat (length (h_digest fixed_hash b)) = h_size fixed_hash) /\
  Forall (fun x => wf_confirmed_input (fst x)) [(ex_confirmed 1, str "tag"); (ex_confirmed 2, str "other")] /\
  exists r, transcript fixed Suite1 [] [(ex_confirmed 1, str "tag"); (ex_confirmed 2, str "other")] = Ok r.
Proof.
  split; [reflexivity|]. split; [exact fixed_size|]. split.
  - constructor; [|constructor; [|constructor]]; apply ex_confirmed_wf; reflexivity.
  - eexists. vm_compute. reflexivity.
Qed.
