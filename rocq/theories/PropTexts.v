(** Property C120: the message of an error tells which error it is (SpecTexts.v). *)
From Verif Require Import TextFacts.
From Verif Require Import Texts SpecTexts.
Local Open Scope N_scope.

(* ------------------------------------------------------------------------------------------- *)
(** * C120 *)

(** Two errors that the library words itself have the same message only if they are the same error about the same number, whatever
    [d] and [d'] the cryptographic libraries add. *)
Theorem C120_errors : forall d d' e e', own_words e -> own_words e' -> error_text d e = error_text d' e' -> e = e'.
Proof. exact texts_differ. Qed.
Print Assumptions C120_errors.

(** An error about a number says the number, in decimal digits, between words that are the same for all numbers. *)
Theorem C120_numbers : forall E, In E about_a_number -> exists a b, forall d v, exists t, error_text d (E v) = (a ++ t ++ b)%list /\ reads_as t v.
Proof. exact value_texts. Qed.
Print Assumptions C120_numbers.

(** A cipher suite is printed with its name in the RFC; one that has none there, with its number. No two are printed alike. *)
Theorem C120_suites : forall cs cs', suite_text cs = suite_text cs' -> cs = cs'.
Proof. exact suites_differ. Qed.
Print Assumptions C120_suites.
Theorem C120_suite_names : forall v, suite_text (cipher_suite_of_u16 v) =
  match rfc_suite_name v with Some s => String.list_byte_of_string s | None => suite_text (SuiteUnknown v) end.
Proof. exact suite_names. Qed.
Print Assumptions C120_suite_names.
Theorem C120_unknown_suites : exists a b, forall v, exists t, suite_text (SuiteUnknown v) = (a ++ t ++ b)%list /\ reads_as t v.
Proof. exact unknown_suites. Qed.
Print Assumptions C120_unknown_suites.

(** Errors that pass on the words of others can have any message, also that of another error. *)
Theorem C120_passed_on : forall t e, ~ own_words e -> error_text t e = t.
Proof. exact passed_on. Qed.
Print Assumptions C120_passed_on.

Example C120_example : String.string_of_list_byte (error_text [] (CredentialTypeUsedByLeafNodeNotSupportedByAllMembers 40961)) =
    "credential type 40961 used by leaf node not supported by all members"%string /\
  String.string_of_list_byte (error_text [] (InputContainsExcessBytes 0)) = "input contains 0 excess bytes"%string /\
  String.string_of_list_byte (suite_text (cipher_suite_of_u16 2570)) = "Unknown(2570)"%string /\
  own_words (InvalidNodeTypeValue 3) /\ In InvalidNodeTypeValue about_a_number /\
  error_text (error_text [] BufferTooSmall) OtherError = error_text [] BufferTooSmall.
Proof. repeat split; try reflexivity; try discriminate. unfold about_a_number. cbn [In]. tauto. Qed.
