(** Proofs about Texts.v: a message can be read back. *)
From Verif Require Import Texts SpecTexts.
From Coq Require Import Decimal DecimalN DecimalPos.
From Coq Require Strings.String.
Import Coq.Init.Byte.
Local Open Scope N_scope.
Local Open Scope string_scope.
Local Open Scope list_scope.

Definition digit_of (b : byte) : option (Decimal.uint -> Decimal.uint) :=
  match b with
  | x30 => Some D0 | x31 => Some D1 | x32 => Some D2 | x33 => Some D3 | x34 => Some D4
  | x35 => Some D5 | x36 => Some D6 | x37 => Some D7 | x38 => Some D8 | x39 => Some D9 | _ => None end.
Fixpoint take_digits (t : text) : Decimal.uint * text :=
  match t with
  | [] => (Decimal.Nil, [])
  | b :: r => match digit_of b with Some D => let (u, s) := take_digits r in (D u, s) | None => (Decimal.Nil, t) end
  end.
Definition no_digit (t : text) : Prop := match t with [] => True | b :: _ => digit_of b = None end.
Lemma take_digits_spec u s : no_digit s -> take_digits (digits u ++ s) = (u, s).
Proof.
  intros H. induction u; [destruct s as [|b s]; [reflexivity|]; destruct b; try discriminate H; reflexivity|..];
    cbn; rewrite IHu; reflexivity.
Qed.
Fixpoint same (a b : text) : bool :=
  match a, b with [], [] => true | x :: a, y :: b => Byte.eqb x y && same a b | _, _ => false end.
Lemma same_refl a : same a a = true.
Proof. induction a as [|b a IH]; [reflexivity|]. cbn. rewrite IH. destruct b; reflexivity. Qed.
Fixpoint strip (p t : text) : option text :=
  match p, t with [], _ => Some t | x :: p, y :: t => if Byte.eqb x y then strip p t else None | _, _ => None end.
Lemma strip_app p t : strip p (p ++ t) = Some t.
Proof. induction p as [|b p IH]; [reflexivity|]. cbn. rewrite IH. destruct b; reflexivity. Qed.

(** What is left after the words before the number. *)
Definition finish {A} (mk : N -> A) (post : text) (r : text) : option A :=
  let (u, s) := take_digits r in if same s post then Some (mk (N.of_uint u)) else None.
Lemma finish_spec {A} (mk : N -> A) post v : no_digit post -> finish mk post (show_number v ++ post) = Some (mk v).
Proof. intros H. unfold finish, show_number. rewrite take_digits_spec by exact H. rewrite same_refl, DecimalN.Unsigned.of_to. reflexivity. Qed.
Lemma finish_nil {A} (mk : N -> A) v : finish mk [] (show_number v) = Some (mk v).
Proof. rewrite <- (app_nil_r (show_number v)). apply finish_spec. exact I. Qed.

Definition constants : list error :=
  [BufferTooSmall; InvalidVariableLengthIntegerPrefix; MinimumEncodingWasNotUsed; VarintExceeds30Bits; OpaqueSizeExceedsMaximumValueOfU32; InvalidOptionalValue; InvalidSibling; InvalidCredentialTypeValue; LeafNodeSignatureVerificationFailed; VerifyConfirmationTagFailed; LifetimeVerificationFailed; DuplicateSignatureKeyInRatchetTree; DuplicateEncryptionKeyInRatchetTree; InvalidLeafNode; InvalidParentNode; InvalidChildren; TreeHashVerificationFailed; ParentHashesVerificationFailed; UnmergedLeafIsNotDescendantOfTheParentNode; NonBlankIntermediateNodeMissingUnmergedLeaf; UpdatePathAndFilteredDirectPathHasDifferentNode; ParentHashMismatchForUpdatePathLeafNode; InvalidEd25519PrivateKey; InvalidECDSAPrivateKey; UnsupportedKem; UnsupportedEcdsa; UnsupportedEd448; UnsupportedCipherSuite; UnsupportedHkpeKem; KeyPackageVersionNotMatchGroupContext; CipherSuiteNotMatchGroupContext; CipherSuiteNotMatchSignatureScheme; KeyPackageContainsLeafNodeWithInvalidSource; InvalidKeyPackageSignature; KeyPackageEncryptionKeyAndInitKeyIdentical; ProposalsLenNotMatchSendersLen; MultipleAddProposalsHaveTheSameSignatureKey; UpdateProposalGeneratedByTheCommitter; MultipleUpdateRemoveProposalsApplyToTheSameLeaf; RemoveProposalRemovesTheCommitter; MultiplePSKProposalsReferenceTheSamePSKId; MultipleGroupContextExtensionsProposals; ReinitProposalTogetherWithAnyOtherProposal; ExternalInitProposalNotAllowed; EncryptedGroupSecretsNotFoundForProvidedKeyPackageRef; PskIDsAndPskLenNotMatch; ConfirmedTranscriptHashInputContainContentCommitOnly; SenderMemberAndNewMemberCommitNoGroupContext; NonceAndReuseGuardLenNotMatch; PaddingContainsNonZeroBytes; NoMatchingKeyPackage].
Definition values : list (text * text * (N -> error)) :=
  [(txt "input contains ", txt " excess bytes", InputContainsExcessBytes);
   (txt "invalid signature scheme value ", txt "", InvalidSignatureSchemeValue);
   (txt "invalid leaf node source value ", txt "", InvalidLeafNodeSourceValue);
   (txt "invalid extension type value ", txt "", InvalidExtensionTypeValue);
   (txt "invalid proposal type value ", txt "", InvalidProposalTypeValue);
   (txt "invalid content type value ", txt "", InvalidContentTypeValue);
   (txt "invalid resumption PSK usage value ", txt "", InvalidResumptionPSKUsageValue);
   (txt "invalid PSK type value ", txt "", InvalidPskTypeValue);
   (txt "invalid sender type value ", txt "", InvalidSenderTypeValue);
   (txt "invalid ProposalOrRef value ", txt "", InvalidProposalOrRefValue);
   (txt "invalid wire format value ", txt "", InvalidWireFormatValue);
   (txt "invalid cipher suite value ", txt "", InvalidCipherSuiteValue);
   (txt "credential type ", txt " used by leaf node not supported by all members", CredentialTypeUsedByLeafNodeNotSupportedByAllMembers);
   (txt "extension type ", txt " used by leaf node not supported by that leaf node", ExtensionTypeUsedByLeafNodeNotSupportedByThatLeafNode);
   (txt "invalid node type value ", txt "", InvalidNodeTypeValue);
   (txt "invalid protocol version ", txt "", InvalidProtocolVersion)].
Definition foreign : list (text * error) := [(txt "RingCrypto error ", RingCryptoError); (txt "RustCrypto error ", RustCryptoError); (txt "Hpke error ", HpkeError)].
Fixpoint read_foreign (l : list (text * error)) (t : text) : option error :=
  match l with [] => None | (p, e) :: l => match strip p t with Some _ => Some e | None => read_foreign l t end end.
Fixpoint read_values (l : list (text * text * (N -> error))) (t : text) : option error :=
  match l with
  | [] => read_foreign foreign t
  | (p, s, mk) :: l => match strip p t with Some r => finish mk s r | None => read_values l t end
  end.
Fixpoint read_constants (l : list error) (t : text) : option error :=
  match l with [] => read_values values t | e :: l => if same t (error_text [] e) then Some e else read_constants l t end.
Definition read_error (t : text) : option error := read_constants constants t.

Lemma read_error_ok d e : (e <> ForeignError /\ e <> OtherError) -> read_error (error_text d e) = Some e.
Proof.
  intros [F O]. destruct e; try (exfalso; congruence); cbn [error_text];
    try (lazy; reflexivity);
    match goal with
    | |- read_error (?p ++ show_number ?v ++ ?s) = Some (?C ?v) =>
        transitivity (finish C s (show_number v ++ s)); [generalize (show_number v ++ s); intros r; lazy -[finish]; reflexivity|apply finish_spec; reflexivity]
    | |- read_error (?p ++ show_number ?v) = Some (?C ?v) =>
        transitivity (finish C [] (show_number v)); [generalize (show_number v); intros r; lazy -[finish]; reflexivity|apply finish_nil]
    end.
Qed.

Lemma texts_differ d d' e e' : (e <> ForeignError /\ e <> OtherError) -> (e' <> ForeignError /\ e' <> OtherError) ->
  error_text d e = error_text d' e' -> e = e'.
Proof. intros A B E. apply (f_equal read_error) in E. rewrite !read_error_ok in E by assumption. congruence. Qed.

Lemma show_number_inj v v' : show_number v = show_number v' -> v = v'.
Proof. intros E. apply (f_equal (fun t => finish (fun x => x) [] t)) in E. rewrite !finish_nil in E. congruence. Qed.

Definition read_suite (t : text) : option cipher_suite :=
  match find (fun cs => same t (suite_text cs)) [Suite1; Suite2; Suite3; Suite4; Suite5; Suite6; Suite7] with
  | Some cs => Some cs
  | None => match strip (txt "Unknown(") t with Some r => finish SuiteUnknown (txt ")") r | None => None end
  end.
Lemma read_suite_ok cs : read_suite (suite_text cs) = Some cs.
Proof.
  destruct cs; cbn [suite_text]; try (lazy; reflexivity).
  transitivity (finish SuiteUnknown (txt ")") (show_number v ++ txt ")")); [generalize (show_number v ++ txt ")"); intros r; lazy -[finish]; reflexivity|apply finish_spec; reflexivity].
Qed.
Lemma suites_differ cs cs' : suite_text cs = suite_text cs' -> cs = cs'.
Proof. intros E. apply (f_equal read_suite) in E. rewrite !read_suite_ok in E. congruence. Qed.

Lemma number_digits v : Forall (fun b => digit_of b <> None) (show_number v).
Proof. unfold show_number. generalize (N.to_uint v). intros u. induction u; cbn [digits]; constructor; try exact IHu; discriminate. Qed.

Fixpoint digit_list (u : Decimal.uint) : list N :=
  match u with
  | Decimal.Nil => []
  | D0 r => 0 :: digit_list r | D1 r => 1 :: digit_list r | D2 r => 2 :: digit_list r | D3 r => 3 :: digit_list r | D4 r => 4 :: digit_list r
  | D5 r => 5 :: digit_list r | D6 r => 6 :: digit_list r | D7 r => 7 :: digit_list r | D8 r => 8 :: digit_list r | D9 r => 9 :: digit_list r
  end.
Definition horner (a d : N) : N := 10 * a + d.
Lemma acc_horner u : forall a, N.pos (Pos.of_uint_acc u a) = fold_left horner (digit_list u) (N.pos a).
Proof.
  induction u; intros a; cbn [Pos.of_uint_acc digit_list fold_left]; [reflexivity|..]; rewrite IHu; f_equal; unfold horner; lia.
Qed.
Lemma of_uint_horner u : N.of_uint u = fold_left horner (digit_list u) 0.
Proof.
  induction u; cbn [N.of_uint Pos.of_uint digit_list fold_left]; [reflexivity|exact IHu|..]; apply acc_horner.
Qed.
Lemma digits_values u : map digit_value (digits u) = map Some (digit_list u).
Proof. induction u; cbn [digits digit_list map]; [reflexivity|..]; f_equal; exact IHu. Qed.
Lemma number_reads v : reads_as (show_number v) v.
Proof.
  unfold reads_as, show_number. split.
  - intros E. pose proof (DecimalN.Unsigned.of_to v) as O. destruct (N.to_uint v) eqn:U; try discriminate E. cbn in O. subst v. discriminate U.
  - exists (digit_list (N.to_uint v)). split; [apply digits_values|]. rewrite <- (DecimalN.Unsigned.of_to v) at 1. apply of_uint_horner.
Qed.

Lemma value_texts C : In C about_a_number -> exists a b, forall d v, exists t, error_text d (C v) = a ++ t ++ b /\ reads_as t v.
Proof.
  intros I. unfold about_a_number in I. cbn [In] in I. repeat destruct I as [<-|I]; try contradiction;
    (eexists _, _; intros d v; exists (show_number v); split; [cbn [error_text]; first [reflexivity|rewrite app_nil_r; reflexivity|symmetry; rewrite app_nil_r; reflexivity]|apply number_reads]).
Qed.
Lemma suite_names v : suite_text (cipher_suite_of_u16 v) = match rfc_suite_name v with Some s => String.list_byte_of_string s | None => suite_text (SuiteUnknown v) end.
Proof.
  unfold cipher_suite_of_u16, rfc_suite_name. do 4 (try (destruct v as [|v]; try reflexivity); try (destruct v as [v|v|]; try reflexivity)).
Qed.

Lemma unknown_suites : exists a b, forall v, exists t, suite_text (SuiteUnknown v) = a ++ t ++ b /\ reads_as t v.
Proof. exists (txt "Unknown("), (txt ")"). intros v. exists (show_number v). split; [reflexivity|apply number_reads]. Qed.
Lemma passed_on t e : ~ own_words e -> error_text t e = t.
Proof. intros H. destruct e; try reflexivity; exfalso; apply H; split; discriminate. Qed.
