(** What the message properties assume of the primitives, and what is signed. *)
From Verif Require Export WireWF SpecSecrets Messages.
Local Open Scope N_scope.

(** Verification under [pk] accepts what is signed with [sk]. *)
Definition key_pair_ok (P : provider) (cs : cipher_suite) (sk pk : bytes) : Prop :=
  forall a m s, p_sig P cs = Ok a -> s_sign a sk m = Ok s -> s_verify a pk m s = Ok tt.

(** Opening undoes sealing. *)
Definition aead_ok (P : provider) (cs : cipher_suite) : Prop :=
  forall h k n p ad c, p_hpke P cs = Ok h -> a_seal h k n p ad = Ok c -> a_open h k n c ad = Ok p.

(** The byte string that is signed for a content sent as [w] in the context [ctx] (RFC 9420, Section 6.1). *)
Definition content_signed (w : wire_format) (c : framed_content) (ctx : group_context) (m : bytes) : Prop :=
  exists raw, se_framed_content_tbs (MkTBS MLS10 w c (Some ctx)) = Ok raw /\ fits30 raw /\ m = labelled (str "FramedContentTBS") raw.

(** Senders whose signature covers the group context. *)
Definition covers_context (s : sender) : Prop := match s with SMember _ | SNewMemberCommit => True | _ => False end.

(** The byte string under the membership tag (Section 6.2). *)
Definition membership_input (m : public_message) (ctx : group_context) (b : bytes) : Prop :=
  se_auth_content_tbm (MkTBM (MkTBS MLS10 WFPublicMessage (pm_content m) (Some ctx)) (pm_auth m)) = Ok b.
Definition from_member (m : public_message) : Prop := exists i, fc_sender (pm_content m) = SMember i.
