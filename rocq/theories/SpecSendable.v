(** What it takes to send a message. *)
From Verif Require Import SpecMessages SpecSecrets SpecProvider.
Local Open Scope N_scope.

(** The bytes a sender signs for content [c] have an encoding, with more than [slack] bytes to spare below 2^30. *)
Definition signable (w : wire_format) (c : framed_content) (ctx : group_context) (slack : N) : Prop :=
  exists raw, se_framed_content_tbs (MkTBS MLS10 w c (Some ctx)) = Ok raw /\ N.of_nat (length raw) + slack < 1073741824.

(** The provider signs with this key, and its signatures are of ordinary size. *)
Definition signs (P : provider) (cs : cipher_suite) (sk : bytes) : Prop :=
  exists a, p_sig P cs = Ok a /\ forall m, exists s, s_sign a sk m = Ok s /\ N.of_nat (length s) < 65536.
(** The provider makes tags of ordinary size. *)
Definition tags (P : provider) (cs : cipher_suite) : Prop := exists h, p_hash P cs = Ok h /\ forall k m, N.of_nat (length (h_mac h k m)) < 65536.
(** The provider expands usable secrets to secrets, keys and nonces, and seals under keys and nonces of the right size, adding no more
    than an ordinary number of bytes. *)
Record seals (P : provider) (cs : cipher_suite) (k : hpke_alg) : Prop := {
  sl_alg : p_hpke P cs = Ok k;
  sl_extract : k_extract_size k < 65536;
  sl_key : a_key_size k < 65536;
  sl_nonce : 4 <= a_nonce_size k < 65536;
  sl_expand : forall s info n, usable k s -> n = nh k \/ n = a_key_size k \/ n = a_nonce_size k ->
    exists b, k_expand k s info n = Ok b /\ N.of_nat (length b) = n;
  sl_seal : forall key nonce pt aad, N.of_nat (length key) = a_key_size k -> N.of_nat (length nonce) = a_nonce_size k ->
    N.of_nat (length pt) < 2147483648 -> exists ct, a_seal k key nonce pt aad = Ok ct /\ N.of_nat (length ct) < N.of_nat (length pt) + 65536
}.

(** What that means of the libraries under the bundled providers: the AEADs take keys and nonces of their size and add a tag of 16 bytes, *)
Definition seal_prims (p : prims) (cs : cipher_suite) : Prop := forall d key nonce pt aad, rfc_suite cs = Some d ->
  N.of_nat (length key) = aead_key_bytes (hs_aead (d_hpke d)) -> length nonce = 12%nat -> N.of_nat (length pt) < 2147483648 ->
  exists ct, pr_seal p (hs_aead (d_hpke d)) key nonce pt aad = Ok ct /\ length ct = (length pt + 16)%nat.
(** and the key is a private key of the suite's signature scheme. *)
Definition sign_prims (p : prims) (cs : cipher_suite) (sk : bytes) : Prop := forall d, rfc_suite cs = Some d ->
  length sk = 32%nat /\ forall m, exists s, pr_sign p (d_signature d) sk m = Some s /\ N.of_nat (length s) < 65536.
