(** What RFC 9420 signs, seals and expands, over the primitives of a cipher suite and the byte layouts of SpecLayout.v. No encoder
    and no function of the model is used here. *)
From Verif Require Import Crypto SpecLayout SpecPrivate.
Local Open Scope N_scope.

(** SignContent (Section 5.1.2) and EncryptContext (Section 5.1.3): the label with its prefix, and what it labels. *)
Definition sign_content (label content : bytes) : bytes := (opaqueV (str "MLS 1.0 " ++ label) ++ opaqueV content)%list.
(** KDFLabel (Section 8). *)
Definition kdf_input (label context : bytes) (n : N) : bytes := (uint16 n ++ opaqueV (str "MLS 1.0 " ++ label) ++ opaqueV context)%list.

(** SignWithLabel, VerifyWithLabel, ExpandWithLabel. *)
Definition signature_is (sa : sig_alg) (sk label content sig : bytes) : Prop := s_sign sa sk (sign_content label content) = Ok sig.
Definition signature_good (sa : sig_alg) (pk label content sig : bytes) : Prop := s_verify sa pk (sign_content label content) sig = Ok tt.
Definition expands_to (k : hpke_alg) (secret label context : bytes) (n : N) (out : bytes) : Prop :=
  k_expand k secret (kdf_input label context n) n = Ok out.

(** PrivateMessage (Section 6.3), padded with [pad] zeros, of the content [c] with the signature [sig], sent in generation [g] from
    leaf [leaf], where [secret] is the ratchet secret of the generation. A commit carries the tag [tag]. *)
Definition rfc_private (k : hpke_alg) (secret sds : bytes) (leaf g : N) (guard : bytes) (c : framed_content) (sig tag : bytes) (pad : nat) (m : private_message) : Prop :=
  exists key nonce n ct sd_key sd_nonce esd,
    (* Section 6.3.1: the content *)
    expands_to k secret (str "key") (uint32 g) (a_key_size k) key /\
    expands_to k secret (str "nonce") (uint32 g) (a_nonce_size k) nonce /\ guarded nonce guard n /\
    a_seal k key n (rfc_bare_content (fc_content c) ++ rfc_auth_data (kind (fc_content c)) (MkAuth sig tag) ++ repeat Coq.Init.Byte.x00 pad)
      (opaqueV (fc_group_id c) ++ uint64 (fc_epoch c) ++ rfc_content_type (kind (fc_content c)) ++ opaqueV (fc_auth_data c)) = Ok ct /\
    (* Section 6.3.2: the sender data *)
    expands_to k sds (str "key") (firstn (N.to_nat (k_extract_size k)) ct) (a_key_size k) sd_key /\
    expands_to k sds (str "nonce") (firstn (N.to_nat (k_extract_size k)) ct) (a_nonce_size k) sd_nonce /\
    a_seal k sd_key sd_nonce (uint32 leaf ++ uint32 g ++ guard)
      (opaqueV (fc_group_id c) ++ uint64 (fc_epoch c) ++ rfc_content_type (kind (fc_content c))) = Ok esd /\
    m = MkPrivate (fc_group_id c) (fc_epoch c) (kind (fc_content c)) (fc_auth_data c) esd ct.

(** The secret between joiner secret and epoch secret (Section 8, Figure 22). Without pre-shared keys, zeros are put in. *)
Definition member_is (k : hpke_alg) (joiner psk m : bytes) : Prop :=
  k_extract k (match psk with [] => repeat Coq.Init.Byte.x00 (N.to_nat (k_extract_size k)) | _ => psk end) joiner = Ok m.
