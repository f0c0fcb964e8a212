(** Property C102: pre-shared keys keep out whoever lacks one of them. The vocabulary is in SpecPsk.v and SpecForward.v; [ideal] is an
    example provider whose KDF is injective. *)
From Verif Require Import PskFacts.
From Verif Require Import SpecPsk ExProvider ForwardFacts KeyFacts.
Local Open Scope N_scope.

(* ------------------------------------------------------------------------------------------- *)
(** * C102 *)

(** Whoever knows the PSK secret of a list of PSKs knows each of them, or was given something that makes up for it; or two different
    KDF calls have the same result. *)
Theorem C102_every : forall P cs k S D ids psks s l1 id psk l2, p_hpke P cs = Ok k -> extract_psk_secret P cs ids psks = Ok s ->
  combine ids psks = (l1 ++ (id, psk) :: l2)%list -> knows k S D s ->
  knows k S D psk \/ psk_leak k S l1 id psk l2 \/ clash k D (psk_made k (combine ids psks)).
Proof. exact c102_every. Qed.
Print Assumptions C102_every.

(** Whoever knows all of them can compute it. *)
Theorem C102_all : forall P cs k S D ids psks s, p_hpke P cs = Ok k -> extract_psk_secret P cs ids psks = Ok s -> knows k S D (zero_bytes (k_extract_size k)) ->
  (forall psk, In psk psks -> knows k S D psk) -> exists D', knows k S D' s.
Proof. exact c102_all. Qed.
Print Assumptions C102_all.

(** Whoever lacks one of the PSKs that go into an epoch knows no secret of this epoch or a later one, whatever they know of the epochs
    before, of the commit secrets and of the other PSKs, as long as nothing is given of the epochs since. *)
Theorem C102_lasting : forall P cs k S D init l1 e l2 ids psks p1 id psk p2 lab x, p_hpke P cs = Ok k -> lifetime_of P cs init (l1 ++ e :: l2) ->
  extract_psk_secret P cs ids psks = Ok (er_psk e) -> er_psk e <> [] -> combine ids psks = (p1 ++ (id, psk) :: p2)%list ->
  ~ knows k S D psk -> ~ psk_leak k S p1 id psk p2 -> sealed k S e l2 ->
  In lab schedule_labels -> derive_secret P cs (er_epoch (last l2 e)) lab = Ok x -> ~ S x ->
  knows k S D x -> clash k D (fun c => all_made k (l1 ++ e :: l2) c \/ psk_made k (combine ids psks) c).
Proof. exact c102_lasting. Qed.
Print Assumptions C102_lasting.

(** If the PSK is the resumption secret of an epoch [o] (of this or another group), it takes that secret, or enough for the secrets of
    that epoch. *)
Theorem C102_resumption : forall P cs k S D init l1 e l2 ids psks p1 id psk p2 lab x init' l' o, p_hpke P cs = Ok k -> lifetime_of P cs init (l1 ++ e :: l2) ->
  extract_psk_secret P cs ids psks = Ok (er_psk e) -> er_psk e <> [] -> combine ids psks = (p1 ++ (id, psk) :: p2)%list ->
  lifetime_of P cs init' (l' ++ [o]) -> derive_secret P cs (er_epoch o) label_resumption = Ok psk ->
  ~ psk_leak k S p1 id psk p2 -> sealed k S e l2 -> In lab schedule_labels -> derive_secret P cs (er_epoch (last l2 e)) lab = Ok x -> ~ S x ->
  knows k S D x ->
  S psk \/ enough k S D init' (l' ++ [o]) \/
  clash k D (fun c => all_made k (l1 ++ e :: l2) c \/ psk_made k (combine ids psks) c \/ all_made k (l' ++ [o]) c).
Proof. exact c102_resumption. Qed.
Print Assumptions C102_resumption.

(** Two PSKs go into the second of three epochs. Someone with everything else and only the first PSK knows neither the PSK secret nor
    the encryption secret of the third epoch; with the second PSK, they know the PSK secret. *)
Example C102_example : lifetime_of ideal Suite2 (str "init") ([ex_epoch1] ++ ex_pe2 :: [ex_pe3]) /\
  extract_psk_secret ideal Suite2 [ex_psk; ex_psk2] [str "p"; str "q"] = Ok (er_psk ex_pe2) /\
  derive_secret ideal Suite2 (er_epoch ex_pe2) label_encryption = Ok (ex_enc ex_pe2) /\ derive_secret ideal Suite2 (er_epoch ex_pe3) label_encryption = Ok (ex_enc ex_pe3) /\
  (forall D, ~ knows ideal_hpke ex_one_psk D (er_psk ex_pe2)) /\ (forall D, ~ knows ideal_hpke ex_one_psk D (ex_enc ex_pe3)) /\
  (exists D, knows ideal_hpke (fun b => ex_one_psk b \/ b = str "q") D (er_psk ex_pe2)) /\ sealed ideal_hpke ex_one_psk ex_pe2 [ex_pe3].
Proof. exact c102_example. Qed.
(** A group is branched off another one. A stranger to the first who knows the init and commit secrets of the second does not know its
    encryption secret. *)
Example C102_resumption_example : lifetime_of ideal Suite2 (str "other") ([] ++ ex_branch :: []) /\ lifetime_of ideal Suite2 (str "init") ([] ++ [ex_epoch1]) /\
  extract_psk_secret ideal Suite2 [ex_psk] [ex_resumption] = Ok (er_psk ex_branch) /\ derive_secret ideal Suite2 (er_epoch ex_epoch1) label_resumption = Ok ex_resumption /\
  forall D, ~ knows ideal_hpke ex_stranger D (ex_enc ex_branch).
Proof. exact c102_resumption_example. Qed.
