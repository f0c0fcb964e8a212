(** Property C112: what is signed, sealed and tagged is what RFC 9420 prescribes, byte for byte (SpecSealed.v, SpecLayout.v). *)
From Verif Require Import SpecSealed SpecLayout SealedFacts ExPrivate ExPassive Examples ExProvider.
From Verif Require Import LeafFacts PrivateFacts MessageFacts ExKeys KeyPackage Group Messages WireWF SpecSecrets SpecMessages SpecLayout.
Import Coq.Strings.Byte.
Local Open Scope N_scope.

(** A content is signed as FramedContentTBS: version, wire format, content and, for members and joiners, the group context. *)
Theorem C112_content : forall P cs sa sk w c ctx a, p_sig P cs = Ok sa -> new_auth_content P cs sk w c ctx = Ok a ->
  ac_wire_format a = w /\ ac_content a = c /\ ad_confirmation_tag (ac_auth a) = [] /\
  signature_is sa sk (str "FramedContentTBS") (rfc_framed_content_tbs MLS10 w c ctx) (ad_signature (ac_auth a)).
Proof. exact c112_content. Qed.
Print Assumptions C112_content.
(** ... and a signature that is accepted is good for just those bytes. *)
Theorem C112_content_checked : forall P cs sa pk a ctx, p_sig P cs = Ok sa -> verify_content_signature P cs a pk ctx = Ok tt ->
  signature_good sa pk (str "FramedContentTBS") (rfc_framed_content_tbs MLS10 (ac_wire_format a) (ac_content a) ctx) (ad_signature (ac_auth a)).
Proof. exact c112_content_checked. Qed.
Print Assumptions C112_content_checked.

(** A key package and the leaf in it are signed as KeyPackageTBS and as LeafNodeTBS; the leaf of a key package is signed without a
    place in a group. The key the code signs with is the public one of the pair (see C51). *)
Theorem C112_package : forall P fill v cs sa cred skp lt kexts caps lexts init kp ekp, p_sig P cs = Ok sa ->
  key_package_from_keys P fill v cs cred skp lt kexts caps lexts init = Ok (kp, ekp) ->
  signature_is sa (skp_public skp) (str "KeyPackageTBS") (rfc_key_package_tbs (kp_payload kp)) (kp_signature kp) /\
  signature_is sa (skp_public skp) (str "LeafNodeTBS") (rfc_leaf_payload (ln_payload (kp_leaf (kp_payload kp)))) (ln_signature (kp_leaf (kp_payload kp))).
Proof. exact c112_package. Qed.
Print Assumptions C112_package.
Theorem C112_package_checked : forall P sa kp, p_sig P (kp_suite (kp_payload kp)) = Ok sa -> key_package_verify_signature P kp = Ok tt ->
  signature_good sa (lp_signature_key (ln_payload (kp_leaf (kp_payload kp)))) (str "KeyPackageTBS") (rfc_key_package_tbs (kp_payload kp)) (kp_signature kp).
Proof. exact c112_package_checked. Qed.
Print Assumptions C112_package_checked.
(** The leaf of an update or a commit is checked together with the group and its place there. *)
Theorem C112_leaf_checked : forall P cs sa l group index, p_sig P cs = Ok sa ->
  leaf_verify_signature P cs l (TIUpdateOrCommit group index) = Ok true ->
  signature_good sa (lp_signature_key (ln_payload l)) (str "LeafNodeTBS") (rfc_leaf_node_tbs (ln_payload l) group index) (ln_signature l).
Proof. exact c112_leaf_placed. Qed.
Print Assumptions C112_leaf_checked.
Theorem C112_info_checked : forall P sa g pk, p_sig P (gc_suite (gi_context g)) = Ok sa -> group_info_verify_signature P g pk = Ok tt ->
  signature_good sa pk (str "GroupInfoTBS") (rfc_group_info_tbs g) (gi_signature g).
Proof. exact c112_info_checked. Qed.
Print Assumptions C112_info_checked.

(** A private message is the RFC's PrivateMessage without padding: key and nonce of the generation, the nonce with the reuse guard, the
    content with its signature sealed under the header, and the sender data sealed under keys made from the start of the ciphertext.
    The tag of a commit is the empty one (see C47). *)
Theorem C112_private : forall P cs k sa sk r sds c leaf guard ctx m, p_hpke P cs = Ok k -> p_sig P cs = Ok sa -> a_key_size k < 65536 -> a_nonce_size k < 65536 ->
  new_private_message P cs sk r sds c (new_sender_data leaf (rt_generation r) guard) ctx = Ok m ->
  exists sig, signature_is sa sk (str "FramedContentTBS") (rfc_framed_content_tbs MLS10 WFPrivateMessage c ctx) sig /\
    rfc_private k (rt_secret r) sds leaf (rt_generation r) guard c sig [] 0 m.
Proof. exact c112_private. Qed.
Print Assumptions C112_private.

(** The group secrets of a welcome are opened with the label "Welcome" and the encrypted group info as context, from the first
    entry for the key package; what is in there begins with the group secrets that are returned. *)
Theorem C112_secrets : forall P w r sk gs, decrypt_group_secrets P w r sk = Ok gs ->
  exists before e after rest, w_secrets w = (before ++ e :: after)%list /\ egs_new_member e = r /\ Forall (fun x => egs_new_member x <> r) before /\
    p_base_open P (w_suite w) sk (sign_content (str "Welcome") (w_group_info w)) (hc_kem_output (egs_secrets e)) (hc_ciphertext (egs_secrets e)) =
      Ok (rfc_group_secrets gs ++ rest)%list.
Proof. exact c112_secrets. Qed.
Print Assumptions C112_secrets.
(** The group info is opened with key and nonce made from the welcome secret, and no associated data. *)
Theorem C112_info : forall P k w joiner psk g, p_hpke P (w_suite w) = Ok k -> a_key_size k < 65536 -> a_nonce_size k < 65536 -> k_extract_size k < 65536 ->
  decrypt_group_info P w joiner psk = Ok g ->
  exists m ws key nonce rest, member_is k joiner psk m /\ expands_to k m (str "welcome") [] (k_extract_size k) ws /\
    expands_to k ws (str "key") [] (a_key_size k) key /\ expands_to k ws (str "nonce") [] (a_nonce_size k) nonce /\
    a_open k key nonce (w_group_info w) [] = Ok (rfc_group_info g ++ rest)%list.
Proof. exact c112_info. Qed.
Print Assumptions C112_info.

(** An accepted confirmation tag of a group info is the MAC of the confirmed transcript hash under the confirmation key of the epoch. *)
Theorem C112_tag : forall P k h g joiner psk, p_hpke P (gc_suite (gi_context g)) = Ok k -> p_hash P (gc_suite (gi_context g)) = Ok h -> k_extract_size k < 65536 ->
  group_info_verify_tag P g joiner psk = Ok tt ->
  exists m es ck, member_is k joiner psk m /\ expands_to k m (str "epoch") (rfc_group_context (gi_context g)) (k_extract_size k) es /\
    expands_to k es (str "confirm") [] (k_extract_size k) ck /\ gi_confirmation_tag g = h_mac h ck (gc_confirmed (gi_context g)).
Proof. exact c112_tag. Qed.
Print Assumptions C112_tag.
(** The tag of a commit is accepted exactly if it is that MAC, and not empty. *)
Theorem C112_commit_tag : forall P cs h a key confirmed, p_hash P cs = Ok h ->
  (verify_auth_confirmation_tag P cs a key confirmed = Ok tt <-> ad_confirmation_tag a <> [] /\ ad_confirmation_tag a = h_mac h key confirmed).
Proof. exact c112_commit_tag. Qed.
Print Assumptions C112_commit_tag.
(** An accepted membership tag, where there is one, is the MAC of FramedContentTBS and the authentication data. *)
Theorem C112_membership_checked : forall P cs h m key ctx, p_hash P cs = Ok h -> (exists i, fc_sender (pm_content m) = SMember i) -> verify_membership_tag P cs m key ctx = Ok tt ->
  pm_tag m = None \/ pm_tag m = Some (h_mac h key (rfc_framed_content_tbs MLS10 WFPublicMessage (pm_content m) ctx ++ rfc_auth_data (kind (fc_content (pm_content m))) (pm_auth m)))%list.
Proof. exact c112_membership. Qed.
Print Assumptions C112_membership_checked.

(** The other way round: whatever is signed, sealed and tagged as the RFC prescribes, padded or not, is accepted and read. *)
Theorem C112_private_read : forall P cs k secret sds leaf g guard c sig tag pad m b, p_hpke P cs = Ok k -> aead_ok P cs ->
  a_key_size k < 65536 -> a_nonce_size k < 65536 -> k_extract_size k < 65536 ->
  wf_framed_content c -> leaf < 4294967296 -> g < 4294967296 -> length guard = 4%nat ->
  (kind (fc_content c) <> CTCommit -> tag = []) ->
  se_auth_content (MkAuthContent WFPrivateMessage c (MkAuth sig tag)) = Ok b ->
  rfc_private k secret sds leaf g guard c sig tag pad m ->
  decrypt_sender_data P cs m sds = Ok (MkSenderData leaf g guard) /\
  decrypt_content P cs m (MkRatchet secret g) guard = Ok (MkPrivateContent (fc_content c) (MkAuth sig tag)).
Proof. exact c112_private_read. Qed.
Print Assumptions C112_private_read.
Theorem C112_content_accepted : forall P cs sa pk a ctx b, p_sig P cs = Ok sa ->
  se_framed_content_tbs (MkTBS MLS10 (ac_wire_format a) (ac_content a) (Some ctx)) = Ok b -> fits30 b ->
  signature_good sa pk (str "FramedContentTBS") (rfc_framed_content_tbs MLS10 (ac_wire_format a) (ac_content a) ctx) (ad_signature (ac_auth a)) ->
  verify_content_signature P cs a pk ctx = Ok tt.
Proof. exact c112_content_accepted. Qed.
Print Assumptions C112_content_accepted.
Theorem C112_package_accepted : forall P sa kp b, p_sig P (kp_suite (kp_payload kp)) = Ok sa -> se_key_package_tbs (kp_payload kp) = Ok b -> fits30 b ->
  signature_good sa (lp_signature_key (ln_payload (kp_leaf (kp_payload kp)))) (str "KeyPackageTBS") (rfc_key_package_tbs (kp_payload kp)) (kp_signature kp) ->
  key_package_verify_signature P kp = Ok tt.
Proof. exact c112_package_accepted. Qed.
Print Assumptions C112_package_accepted.
Theorem C112_leaf_accepted : forall P cs sa l group index b, p_sig P cs = Ok sa -> se_leaf_node_tbs (ln_payload l) (TIUpdateOrCommit group index) = Ok b -> fits30 b ->
  signature_good sa (lp_signature_key (ln_payload l)) (str "LeafNodeTBS") (rfc_leaf_node_tbs (ln_payload l) group index) (ln_signature l) ->
  leaf_verify_signature P cs l (TIUpdateOrCommit group index) = Ok true.
Proof. exact c112_leaf_accepted. Qed.
Print Assumptions C112_leaf_accepted.
Theorem C112_info_accepted : forall P sa g pk b, p_sig P (gc_suite (gi_context g)) = Ok sa -> se_group_info_base g = Ok b -> fits30 b ->
  signature_good sa pk (str "GroupInfoTBS") (rfc_group_info_tbs g) (gi_signature g) -> group_info_verify_signature P g pk = Ok tt.
Proof. exact c112_info_accepted. Qed.
Print Assumptions C112_info_accepted.
(** Welcomes: for the three suites the hpke crate has. *)
Theorem C112_secrets_read : forall P w r sk gs b before e after rest, In (w_suite w) [Suite1; Suite2; Suite3] -> fits30 (w_group_info w) -> wf_group_secrets gs -> se_group_secrets gs = Ok b ->
  w_secrets w = (before ++ e :: after)%list -> egs_new_member e = r -> Forall (fun x => egs_new_member x <> r) before ->
  p_base_open P (w_suite w) sk (sign_content (str "Welcome") (w_group_info w)) (hc_kem_output (egs_secrets e)) (hc_ciphertext (egs_secrets e)) = Ok (rfc_group_secrets gs ++ rest)%list ->
  decrypt_group_secrets P w r sk = Ok gs.
Proof. exact c112_secrets_read_in. Qed.
Print Assumptions C112_secrets_read.
Theorem C112_info_read : forall P k w joiner psk g b m ws key nonce rest, p_hpke P (w_suite w) = Ok k -> a_key_size k < 65536 -> a_nonce_size k < 65536 -> k_extract_size k < 65536 ->
  wf_group_info g -> se_group_info g = Ok b -> member_is k joiner psk m -> expands_to k m (str "welcome") [] (k_extract_size k) ws ->
  expands_to k ws (str "key") [] (a_key_size k) key -> expands_to k ws (str "nonce") [] (a_nonce_size k) nonce ->
  a_open k key nonce (w_group_info w) [] = Ok (rfc_group_info g ++ rest)%list -> decrypt_group_info P w joiner psk = Ok g.
Proof. exact c112_info_read. Qed.
Print Assumptions C112_info_read.
Theorem C112_tag_accepted : forall P k h g joiner psk b m es ck, p_hpke P (gc_suite (gi_context g)) = Ok k -> p_hash P (gc_suite (gi_context g)) = Ok h -> k_extract_size k < 65536 ->
  se_group_context (gi_context g) = Ok b -> fits30 b ->
  member_is k joiner psk m -> expands_to k m (str "epoch") (rfc_group_context (gi_context g)) (k_extract_size k) es ->
  expands_to k es (str "confirm") [] (k_extract_size k) ck -> gi_confirmation_tag g = h_mac h ck (gc_confirmed (gi_context g)) ->
  group_info_verify_tag P g joiner psk = Ok tt.
Proof. exact c112_tag_accepted. Qed.
Print Assumptions C112_tag_accepted.

(** A commit with a confirmation tag, padded with five zeros. *)
Definition ex_padded_content : framed_content := ex_framed (SMember 2) (CCommit (MkCommit [PorReference [x03]] None)).
Definition ex_padded_keys : bytes * bytes := (ok_or [] (k_expand toy_hpke (str "rs") (kdf_input (str "key") (uint32 6) 4) 4), ok_or [] (k_expand toy_hpke (str "rs") (kdf_input (str "nonce") (uint32 6) 4) 4)).
Definition ex_padded_ct : bytes :=
  ok_or [] (a_seal toy_hpke (fst ex_padded_keys) (xor_prefix (snd ex_padded_keys) px_guard)
    (rfc_bare_content (fc_content ex_padded_content) ++ rfc_auth_data CTCommit (MkAuth [x0a] [x0b]) ++ [x00; x00; x00; x00; x00])
    (opaqueV (str "group") ++ uint64 5 ++ rfc_content_type CTCommit ++ opaqueV [x01]))%list.
Definition ex_padded_sd : bytes :=
  ok_or [] (a_seal toy_hpke (ok_or [] (k_expand toy_hpke (str "sds") (kdf_input (str "key") (firstn 4 ex_padded_ct) 4) 4))
    (ok_or [] (k_expand toy_hpke (str "sds") (kdf_input (str "nonce") (firstn 4 ex_padded_ct) 4) 4))
    (uint32 2 ++ uint32 6 ++ px_guard) (opaqueV (str "group") ++ uint64 5 ++ rfc_content_type CTCommit))%list.
Definition ex_padded : private_message := MkPrivate (str "group") 5 CTCommit [x01] ex_padded_sd ex_padded_ct.
Example C112_read_example :
  rfc_private toy_hpke (str "rs") (str "sds") 2 6 px_guard ex_padded_content [x0a] [x0b] 5 ex_padded /\ wf_framed_content ex_padded_content /\ aead_ok toy Suite1 /\
  length px_guard = 4%nat /\ (exists b, se_auth_content (MkAuthContent WFPrivateMessage ex_padded_content (MkAuth [x0a] [x0b])) = Ok b) /\
  decrypt_content toy Suite1 ex_padded (MkRatchet (str "rs") 6) px_guard = Ok (MkPrivateContent (CCommit (MkCommit [PorReference [x03]] None)) (MkAuth [x0a] [x0b])).
Proof.
  split.
  { exists (fst ex_padded_keys), (snd ex_padded_keys), (xor_prefix (snd ex_padded_keys) px_guard), ex_padded_ct.
    exists (ok_or [] (k_expand toy_hpke (str "sds") (kdf_input (str "key") (firstn 4 ex_padded_ct) 4) 4)), (ok_or [] (k_expand toy_hpke (str "sds") (kdf_input (str "nonce") (firstn 4 ex_padded_ct) 4) 4)), ex_padded_sd.
    split; [vm_compute; reflexivity|]. split; [vm_compute; reflexivity|]. split; [apply guarded_iff; split; [vm_compute; repeat constructor|reflexivity]|].
    split; [vm_compute; reflexivity|]. split; [vm_compute; reflexivity|]. split; [vm_compute; reflexivity|]. split; [vm_compute; reflexivity|reflexivity]. }
  split.
  { assert (D : de_framed_content (ok_or [] (se_framed_content ex_padded_content)) = Ok (ex_padded_content, [])) by (vm_compute; reflexivity).
    apply (CodecLib.codec_can WireCodecs.codec_framed_content) in D as (D & _). exact D. }
  split; [apply toy_aead|]. split; [reflexivity|].
  split; [exists (ok_or [] (se_auth_content (MkAuthContent WFPrivateMessage ex_padded_content (MkAuth [x0a] [x0b])))); vm_compute; reflexivity|vm_compute; reflexivity].
Qed.

(** A private message, a content, a key package and a welcome for which all this happens. *)
Definition ex_sealed_content : auth_content :=
  match new_auth_content toy Suite1 (str "k") WFPublicMessage (px_content 2) ex_gc with Ok a => a | _ => MkAuthContent WFPublicMessage (px_content 2) (MkAuth [] []) end.
Definition ex_sealed_fill (n : N) : res bytes := Ok (repeat x05 (N.to_nat n)).
Definition ex_sealed_built : res (key_package * hpke_key_pair) :=
  key_package_from_keys toy ex_sealed_fill MLS10 Suite1 (CredBasic (str "bob")) (MkSigKeyPair [x01] [x02] ED25519) (MkLifetime 1 2) [] ex_caps [] [x09; x09].
Definition ex_sealed_package : key_package := match ex_sealed_built with Ok (kp, _) => kp | _ => ex_kp x01 end.
Definition ex_sealed_key : hpke_key_pair := match ex_sealed_built with Ok (_, e) => e | _ => MkHpkeKeyPair [] [] end.
Definition ex_sealed_untagged : public_message := MkPublic (px_content 2) (MkAuth [x01] []) None.
Definition ex_sealed_tagged : public_message := match sign_membership_tag toy Suite1 ex_sealed_untagged (str "mk") ex_gc with Ok m => m | _ => ex_sealed_untagged end.
Example C112_example :
  new_auth_content toy Suite1 (str "k") WFPublicMessage (px_content 2) ex_gc = Ok ex_sealed_content /\
  verify_content_signature toy Suite1 ex_sealed_content (str "k") ex_gc = Ok tt /\
  new_private_message toy Suite1 (str "k") px_root (str "sds") (px_content 2) (new_sender_data 2 (rt_generation px_root) px_guard) ex_gc = Ok (px_message 2 0) /\
  key_package_from_keys toy ex_sealed_fill MLS10 Suite1 (CredBasic (str "bob")) (MkSigKeyPair [x01] [x02] ED25519) (MkLifetime 1 2) [] ex_caps [] [x09; x09] = Ok (ex_sealed_package, ex_sealed_key) /\
  key_package_verify_signature toy ex_sealed_package = Ok tt /\
  leaf_verify_signature toy Suite1 (ex_signed x01 LSUpdate (str "group") 0) (TIUpdateOrCommit (str "group") 0) = Ok true /\
  decrypt_group_secrets toy pj_welcome (ex_ref x31) (tl (kp_init_key (kp_payload pj_kp))) = Ok pj_gs /\
  decrypt_group_info toy pj_welcome pj_joiner pj_psk = Ok pj_info /\
  group_info_verify_signature toy pj_info [x01; x21] = Ok tt /\ group_info_verify_tag toy pj_info pj_joiner pj_psk = Ok tt /\
  verify_auth_confirmation_tag toy Suite1 (MkAuth [] (str "ck" ++ str "hash")%list) (str "ck") (str "hash") = Ok tt /\
  sign_membership_tag toy Suite1 ex_sealed_untagged (str "mk") ex_gc = Ok ex_sealed_tagged /\ fc_sender (pm_content ex_sealed_tagged) = SMember 2 /\
  verify_membership_tag toy Suite1 ex_sealed_tagged (str "mk") ex_gc = Ok tt /\
  p_hpke toy Suite1 = Ok toy_hpke /\ p_sig toy Suite1 = Ok toy_sig /\ p_hash toy Suite1 = Ok toy_hash /\
  a_key_size toy_hpke < 65536 /\ a_nonce_size toy_hpke < 65536 /\ k_extract_size toy_hpke < 65536.
Proof. repeat match goal with |- _ /\ _ => split end; vm_compute; reflexivity. Qed.
