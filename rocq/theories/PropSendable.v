(** C128: whatever can be signed can be sent, and arrives. *)
From Verif Require Import SpecMessages SpecSecrets SpecTraffic SpecSendable WireWF SecretTree Passive PassiveFacts SendableFacts MessageFacts ExProvider Examples KeyFacts SpecProvider ProviderFacts PrimFacts Primitives BundledSend.
Local Open Scope N_scope.

(* ------------------------------------------------------------------------------------------- *)
(** * C128 *)

(** A public message can be made and encoded exactly if the bytes to sign have an encoding below 2^30 bytes: the only
    thing that stands in the way of sending is the size of what is to be signed. *)
Theorem C128_public : forall P cs sk mk c ctx, signs P cs sk -> tags P cs ->
  ((exists b, send_public P cs ctx sk mk c = Ok b) <-> signable WFPublicMessage c ctx 0).
Proof. exact c128_public. Qed.
Print Assumptions C128_public.

(** ... and then it reaches whoever holds the sender's verification key and the membership key. *)
Theorem C128_public_delivered : forall P cs ctx sk pk mk c, signs P cs sk -> tags P cs -> key_pair_ok P cs sk pk ->
  wf_framed_content c -> signable WFPublicMessage c ctx 0 ->
  exists b, send_public P cs ctx sk mk c = Ok b /\ receive_public P cs ctx pk mk b = Ok c.
Proof. exact c128_public_delivered. Qed.
Print Assumptions C128_public_delivered.

(** A private message can be made exactly if its content can be signed, whatever the ratchet, the sender data and the
    four bytes of the reuse guard. *)
Theorem C128_private : forall P cs k sk, seals P cs k -> signs P cs sk -> forall r sds c sd ctx,
  usable k (rt_secret r) -> usable k sds -> length (sd_reuse_guard sd) = 4%nat ->
  ((exists m, new_private_message P cs sk r sds c sd ctx = Ok m) <-> signable WFPrivateMessage c ctx 0).
Proof. exact c128_message. Qed.
Print Assumptions C128_private.

(** From the encryption secret of an epoch of up to 2^31 leaves, every leaf can send in every generation whatever leaves
    room for signature and seal below 2^30, and all who hold the epoch's secrets receive it. *)
Theorem C128_private_delivered : forall P cs k ctx sk pk d encryption sds leaf gen guard c,
  seals P cs k -> signs P cs sk -> aead_ok P cs -> key_pair_ok P cs sk pk ->
  d <= 31 -> leaf < 2 ^ d -> gen < 4294967296 -> length guard = 4%nat -> usable k encryption -> usable k sds ->
  wf_framed_content c -> fc_sender c = SMember leaf -> signable WFPrivateMessage c ctx 131080 ->
  exists st b a, new_secret_tree P cs (2 ^ d) encryption = Ok st /\ send P cs ctx sk st sds leaf gen guard c = Ok b /\
    receive P cs ctx pk st sds b = Ok a /\ ac_content a = c.
Proof. exact c128_private_delivered. Qed.
Print Assumptions C128_private_delivered.

(** Nothing is ever sent that cannot be signed. *)
Theorem C128_only : forall P cs ctx sk st sds leaf gen guard c b, signs P cs sk ->
  send P cs ctx sk st sds leaf gen guard c = Ok b -> signable WFPrivateMessage c ctx 0.
Proof. exact c128_only. Qed.
Print Assumptions C128_only.

(** Both bundled providers meet the conditions for every suite they serve, over libraries with the sizes of SHA-2, HKDF, AEAD and
    signature that their standards give. *)
Theorem C128_bundled : forall p P cs sk, sized_prims p -> hkdf_prims p -> seal_prims p cs -> sign_prims p cs sk -> bundled p P -> In cs (p_supported P) ->
  signs P cs sk /\ tags P cs /\ exists k, seals P cs k /\ nh k = 32.
Proof. exact (fun p P cs sk Z F S G B I => conj (b_signs p P cs sk B I G) (conj (b_tags p P cs Z B I) (b_seals p P cs Z F S B I))). Qed.
Print Assumptions C128_bundled.
(** So do AES-128-GCM, ChaCha20-Poly1305, HKDF-SHA256 and Ed25519 as their standards define them, with any key of 32 bytes. *)
Example C128_real : forall cs sk, cs = Suite1 \/ cs = Suite3 -> length sk = 32%nat ->
  sized_prims real_prims /\ hkdf_prims real_prims /\ seal_prims real_prims cs /\ sign_prims real_prims cs sk /\ aead_ok real_provider cs.
Proof.
  intros cs sk C L. split; [exact real_sized|]. split; [exact real_hkdf|]. split; [exact (real_seals cs C)|]. split; [exact (real_signs cs sk C L)|]. exact (c60_rust real_prims cs real_aead).
Qed.

(** A provider that meets all of it, with a commit from leaf 2 in generation 3 that can be signed both ways. *)
Example C128_example : signs modest Suite1 (str "k") /\ tags modest Suite1 /\ seals modest Suite1 modest_hpke /\ aead_ok modest Suite1 /\ key_pair_ok modest Suite1 (str "k") (str "k") /\
  usable modest_hpke (str "encryption") /\ wf_framed_content (ex_framed (SMember 2) (CCommit ex_commit)) /\
  signable WFPublicMessage (ex_framed (SMember 2) (CCommit ex_commit)) ex_gc 131080 /\ signable WFPrivateMessage (ex_framed (SMember 2) (CCommit ex_commit)) ex_gc 131080.
Proof.
  split; [apply modest_signs|]. split; [apply modest_tags|]. split; [apply modest_seals|]. split; [apply modest_aead|]. split; [apply modest_keys|].
  split; [vm_compute; discriminate|]. split; [apply ex_framed_wf; reflexivity|]. split; (eexists; split; [vm_compute; reflexivity|vm_compute; reflexivity]).
Qed.
(** The proviso is not empty either: an authenticated data of 2^30 bytes cannot be sent. *)
Example C128_example_not : forall P cs ctx sk st sds leaf gen guard c b, signs P cs sk -> ~ fits30 (fc_auth_data c) ->
  send P cs ctx sk st sds leaf gen guard c <> Ok b.
Proof. exact c128_large. Qed.
