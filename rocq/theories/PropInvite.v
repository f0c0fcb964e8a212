(** Property C101: what an invitation to a group gives away, and to whom. The vocabulary is in SpecInvite.v and SpecForward.v. *)
From Verif Require Import InviteFacts.
From Verif Require Import SpecInvite ExProvider ForwardFacts.
Local Open Scope N_scope.

(* ------------------------------------------------------------------------------------------- *)
(** * C101 *)

(** The group info of a welcome is opened with the key and the nonce of the epoch's welcome secret, and with nothing else. *)
Theorem C101_opens : forall P w k e gi, p_hpke P (w_suite w) = Ok k ->
  (decrypt_group_info P w (er_joiner e) (er_psk e) = Ok gi <->
   exists key nonce raw rest, welcome_keys k (er_joiner e) (er_psk e) key nonce /\ welcome_value k e key /\ welcome_value k e nonce /\
     a_open k key nonce (w_group_info w) [] = Ok raw /\ de_group_info raw = Ok (gi, rest)).
Proof. exact c101_opens. Qed.
Print Assumptions C101_opens.

(** Whoever knows one of these knows both the joiner secret and the PSK secret, or was given it or something it is derived from; or
    two different KDF calls have the same result. *)
Theorem C101_only : forall k S D e b, welcome_value k e b -> knows k S D b ->
  S b \/ (exists ws, welcome_secret k (er_joiner e) (er_psk e) ws /\ S ws) \/ (exists me, member_secret k e me /\ S me) \/
  (knows k S D (er_joiner e) /\ knows k S D (psk_or_zero k (er_psk e))) \/ clash k D (welcome_made k e).
Proof. exact c101_only. Qed.
Print Assumptions C101_only.

(** The invited, who have the joiner secret and the PSK secret, can compute them, and every secret of the epoch. *)
Theorem C101_invited : forall P cs k S D e, p_hpke P cs = Ok k -> runs P cs e -> knows k S D (er_joiner e) -> knows k S D (psk_or_zero k (er_psk e)) ->
  (forall b, welcome_value k e b -> exists D', knows k S D' b) /\
  forall lab x, In lab schedule_labels -> derive_secret P cs (er_epoch e) lab = Ok x -> exists D', knows k S D' x.
Proof. exact c101_invited. Qed.
Print Assumptions C101_invited.

(** Being able to open the group info does not help with the epoch's secrets: what it takes is the same as without. *)
Theorem C101_sideways : forall P cs k (S : bytes -> Prop) D e lab x, p_hpke P cs = Ok k -> runs P cs e -> In lab schedule_labels ->
  derive_secret P cs (er_epoch e) lab = Ok x ->
  let W := fun b => S b \/ welcome_value k e b in
  knows k W D x -> S x \/ late_leak k S e \/ (early_leak k S e /\ knows k W D (psk_or_zero k (er_psk e))) \/
  (knows k W D (er_before e) /\ knows k W D (er_commit e) /\ knows k W D (psk_or_zero k (er_psk e))) \/
  clash k D (fun c => epoch_made k e c \/ welcome_made k e c).
Proof. exact c101_sideways. Qed.
Print Assumptions C101_sideways.

(** Without the PSK secret, neither the joiner secret nor the commit secret nor the epoch before helps. *)
Theorem C101_without_psk : forall P cs k (S : bytes -> Prop) D e lab x, p_hpke P cs = Ok k -> runs P cs e -> In lab schedule_labels ->
  derive_secret P cs (er_epoch e) lab = Ok x ->
  ~ S x -> ~ late_leak k S e -> ~ knows k (fun b => S b \/ welcome_value k e b) D (psk_or_zero k (er_psk e)) ->
  knows k (fun b => S b \/ welcome_value k e b) D x -> clash k D (fun c => epoch_made k e c \/ welcome_made k e c).
Proof. exact c101_without_psk. Qed.
Print Assumptions C101_without_psk.

(** An epoch with a PSK, and a KDF without clashes. Someone with the joiner secret, the init secret of the epoch before and the commit
    secret, and without the PSK, does not know the welcome secret; if they get it all the same, they do not know the encryption secret.
    The joiner secret and the PSK suffice for both. *)
Example C101_example : runs ideal Suite2 ex_epoch2 /\ welcome_value ideal_hpke ex_epoch2 ex_wsecret /\
  derive_secret ideal Suite2 (er_epoch ex_epoch2) label_encryption = Ok (ex_enc ex_epoch2) /\
  (forall D, ~ knows ideal_hpke ex_uninvited D ex_wsecret) /\
  (forall D, ~ knows ideal_hpke (fun b => ex_uninvited b \/ welcome_value ideal_hpke ex_epoch2 b) D (ex_enc ex_epoch2)) /\
  (exists D, knows ideal_hpke (fun b => b = er_joiner ex_epoch2 \/ b = str "psk") D ex_wsecret) /\
  exists D, knows ideal_hpke (fun b => b = er_joiner ex_epoch2 \/ b = str "psk") D (ex_enc ex_epoch2).
Proof. exact c101_example. Qed.
