(** What a signature key is used for, and what it means that only its owner uses it. *)
From Verif Require Export SpecLayout SpecMessages SpecKeys SpecRatchet.
Local Open Scope N_scope.

(** The four kinds of statement that are signed (RFC 9420, Sections 7.2, 10, 12.4.3 and 6.1): a leaf node for a place in a group, a key
    package, a group info, and a message content, sent in a wire format and in a state of a group. *)
Inductive said : Type :=
| SaidLeaf (p : leaf_node_payload) (group : bytes) (index : N)
| SaidPackage (k : key_package_tbs)
| SaidInfo (g : group_info)
| SaidContent (w : wire_format) (f : framed_content) (g : group_context).

(** The label and the bytes that are signed for a statement; SignContent of Section 5.1.2. *)
Definition purpose (s : said) : bytes :=
  match s with
  | SaidLeaf _ _ _ => str "LeafNodeTBS"
  | SaidPackage _ => str "KeyPackageTBS"
  | SaidInfo _ => str "GroupInfoTBS"
  | SaidContent _ _ _ => str "FramedContentTBS"
  end.
Definition to_be_signed (s : said) : bytes :=
  match s with
  | SaidLeaf p g i => rfc_leaf_node_tbs p g i
  | SaidPackage k => rfc_key_package_tbs k
  | SaidInfo g => rfc_group_info_tbs g
  | SaidContent w f g => rfc_framed_content_tbs MLS10 w f g
  end.
Definition signed_text (s : said) : bytes := opaqueV (str "MLS 1.0 " ++ purpose s) ++ opaqueV (to_be_signed s).

(** The statements that can be written at all: integers have their sizes, nothing is too long. *)
Definition sayable (s : said) : Prop :=
  match s with
  | SaidLeaf p g i => wf_leaf_payload p /\ i < 4294967296 /\ exists b, se_leaf_node_tbs p (TIUpdateOrCommit g i) = Ok b
  | SaidPackage k => wf_key_package_tbs k /\ exists b, se_key_package_tbs k = Ok b
  | SaidInfo g => wf_group_info g /\ exists b, se_group_info_base g = Ok b
  | SaidContent w f g => wf_framed_content f /\ wf_group_context g /\ exists b, se_framed_content_tbs (MkTBS MLS10 w f (Some g)) = Ok b
  end /\ N.of_nat (length (to_be_signed s)) < 1073741824.

(** Two statements with the same meaning. The leaf node of a key package is for no particular place; the signature of a group info
    is not part of what it says; outsiders speak without a state of the group. *)
Definition same_said (s s' : said) : Prop :=
  match s, s' with
  | SaidLeaf p g i, SaidLeaf p' g' i' => p = p' /\ ((forall lt, lp_source p <> LSKeyPackage lt) -> g = g' /\ i = i')
  | SaidPackage k, SaidPackage k' => k = k'
  | SaidInfo g, SaidInfo g' => gi_context g = gi_context g' /\ gi_extensions g = gi_extensions g' /\
      gi_confirmation_tag g = gi_confirmation_tag g' /\ gi_signer g = gi_signer g'
  | SaidContent w f g, SaidContent w' f' g' => w = w' /\ f = f' /\ (covers_context (fc_sender f) -> g = g')
  | _, _ => False
  end.

(** Signatures that verify under the key [pk] are on statements of the list [log]: the owner of the key made no others, and nobody
    else can make one. *)
Definition only_said (P : provider) (cs : cipher_suite) (pk : bytes) (log : list said) : Prop :=
  (forall s, In s log -> sayable s) /\
  forall a m sig, p_sig P cs = Ok a -> s_verify a pk m sig = Ok tt -> exists s, In s log /\ m = signed_text s.
(** A statement with the meaning of [s] is in the list. *)
Definition is_said (log : list said) (s : said) : Prop := exists s', In s' log /\ same_said s s'.
