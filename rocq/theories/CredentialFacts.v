(** Proofs about credentials. *)
From Verif Require Import CodecLib CodecTac WireWF WireCodecs LayoutFacts SpecLayout SpecSecrets Build.
Local Open Scope N_scope.

Lemma credential_sent c rest : fits_credential c -> se_credential c = Ok (rfc_credential c) /\ de_credential (rfc_credential c ++ rest) = Ok (c, rest).
Proof.
  intros F. destruct (sizing_credential c) as [[_ [p E]]|[N _]]; [|exfalso; exact (N F)].
  pose proof (l_credential c p E) as ->. split; [exact E|]. exact (codec_rt codec_credential c _ rest I E).
Qed.
Lemma fits_certificates l : Forall fits30 l -> fits30 (concat (map opaqueV l)) -> fits_credential (CredX509 l).
Proof. intros A B. split; [exact A|]. intros p E. apply (says_elems se_opaque opaqueV l says_opaque) in E. subst p. exact B. Qed.

Lemma c80_identity i rest : fits30 i ->
  se_credential (credential_from_identity i) = Ok (uint16 1 ++ opaqueV i)%list /\
  exists c, de_credential ((uint16 1 ++ opaqueV i) ++ rest)%list = Ok (c, rest) /\ credential_identity c = Some i /\ credential_certificates c = None.
Proof. intros F. destruct (credential_sent (CredBasic i) rest F) as [A B]. split; [exact A|]. exists (CredBasic i). auto. Qed.
Lemma c80_certificates l rest : Forall fits30 l -> fits30 (concat (map opaqueV l)) ->
  se_credential (credential_from_certificates l) = Ok (uint16 2 ++ vectorV opaqueV l)%list /\
  exists c, de_credential ((uint16 2 ++ vectorV opaqueV l) ++ rest)%list = Ok (c, rest) /\ credential_certificates c = Some l /\ credential_identity c = None.
Proof. intros F G. destruct (credential_sent (CredX509 l) rest (fits_certificates l F G)) as [A B]. split; [exact A|]. exists (CredX509 l). auto. Qed.
Lemma c80_received bs c rest : de_credential bs = Ok (c, rest) ->
  (exists i, bs = ((uint16 1 ++ opaqueV i) ++ rest)%list /\ c = credential_from_identity i /\ credential_identity c = Some i /\ credential_certificates c = None) \/
  (exists l, bs = ((uint16 2 ++ vectorV opaqueV l) ++ rest)%list /\ c = credential_from_certificates l /\ credential_certificates c = Some l /\ credential_identity c = None).
Proof.
  intros E. apply (proj2 (speaks_codec _ codec_credential l_credential)) in E. destruct c as [i|l]; [left; exists i|right; exists l]; auto.
Qed.
Lemma c80_default rest : default_credential = credential_from_identity [] /\ de_credential ([x00; x01; x00] ++ rest) = Ok (default_credential, rest).
Proof. split; [reflexivity|]. exact (proj2 (credential_sent (CredBasic []) rest eq_refl)). Qed.
Lemma c80_too_long i : ~ fits30 i -> exists e, se_credential (credential_from_identity i) = Err e.
Proof. intros F. destruct (sizing_credential (CredBasic i)) as [[A _]|[_ [e [E _]]]]; [exfalso; exact (F A)|eauto]. Qed.
