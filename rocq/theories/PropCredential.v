(** Property C80: credentials. The layouts are in SpecLayout.v. *)
From Verif Require Import CredentialFacts.
From Verif Require Import SpecLayout SpecSecrets Build Wire.
Local Open Scope N_scope.

(* ------------------------------------------------------------------------------------------- *)
(** * C80 *)

(** Whoever receives a credential made from an identity reads that identity and no certificates. *)
Theorem C80_identity : forall i rest, fits30 i ->
  se_credential (credential_from_identity i) = Ok (uint16 1 ++ opaqueV i)%list /\
  exists c, de_credential ((uint16 1 ++ opaqueV i) ++ rest)%list = Ok (c, rest) /\ credential_identity c = Some i /\ credential_certificates c = None.
Proof. exact c80_identity. Qed.
Print Assumptions C80_identity.
(** Whoever receives a credential made from a chain of certificates reads that chain, in that order, and no identity. *)
Theorem C80_certificates : forall l rest, Forall fits30 l -> fits30 (concat (map opaqueV l)) ->
  se_credential (credential_from_certificates l) = Ok (uint16 2 ++ vectorV opaqueV l)%list /\
  exists c, de_credential ((uint16 2 ++ vectorV opaqueV l) ++ rest)%list = Ok (c, rest) /\ credential_certificates c = Some l /\ credential_identity c = None.
Proof. exact c80_certificates. Qed.
Print Assumptions C80_certificates.
(** Every credential that is received is one of these two. *)
Theorem C80_received : forall bs c rest, de_credential bs = Ok (c, rest) ->
  (exists i, bs = ((uint16 1 ++ opaqueV i) ++ rest)%list /\ c = credential_from_identity i /\ credential_identity c = Some i /\ credential_certificates c = None) \/
  (exists l, bs = ((uint16 2 ++ vectorV opaqueV l) ++ rest)%list /\ c = credential_from_certificates l /\ credential_certificates c = Some l /\ credential_identity c = None).
Proof. exact c80_received. Qed.
Print Assumptions C80_received.
(** The default credential is the empty identity; an identity of 2^30 bytes or more cannot be sent. *)
Theorem C80_default : forall rest, default_credential = credential_from_identity [] /\ de_credential ([x00; x01; x00] ++ rest) = Ok (default_credential, rest).
Proof. exact c80_default. Qed.
Print Assumptions C80_default.
Theorem C80_too_long : forall i, ~ fits30 i -> exists e, se_credential (credential_from_identity i) = Err e.
Proof. exact c80_too_long. Qed.
Print Assumptions C80_too_long.

Example C80_example : fits30 (str "alice") /\ Forall fits30 [str "leaf"; str "root"] /\ fits30 (concat (map opaqueV [str "leaf"; str "root"])) /\
  se_credential (credential_from_certificates [str "leaf"; str "root"]) = Ok ([x00; x02; x0a; x04] ++ str "leaf" ++ [x04] ++ str "root")%list.
Proof. split; [reflexivity|]. split; [repeat constructor|]. split; reflexivity. Qed.
