(** Two members of a group whose libraries were built with different providers. *)
From Verif Require Export SpecProvider.
Local Open Scope N_scope.

(** Two calls that give the same values: one succeeds exactly if the other does, with the same result. *)
Definition agree {A} (m n : res A) : Prop := forall v, m = Ok v <-> n = Ok v.
(** Whatever the first gives, the second gives. *)
Definition follows {A} (m n : res A) : Prop := forall v, m = Ok v -> n = Ok v.

(** The libraries under the two providers, [p] under RustCrypto and [q] under ring, compute the same standard functions: they succeed on the
    same inputs, with the same results. Errors may differ, and what ring leaves in a buffer behind a plaintext may be anything. HKDF-Expand of
    RustCrypto takes secrets at least as long as the hash, Ed25519 private keys of ring have 32 bytes. *)
Record same_libraries (p q : prims) : Prop := {
  sl_digest : forall h x, pr_digest p h x = pr_digest q h x;
  sl_hmac : forall h k x, pr_hmac p h k x = pr_hmac q h k x;
  sl_prk : forall h s, pr_prk p h s = (digest_bytes h <=? length s)%nat;
  sl_expand : forall h s i n, pr_expand p h s i n = pr_expand q h s i n;
  sl_derive : forall k ikm, pr_derive p k ikm = pr_derive q k ikm;
  sl_seal : forall a k n pt ad, agree (pr_seal p a k n pt ad) (pr_seal q a k n pt ad);
  sl_open : forall a k n c ad pt, (exists t, pr_open p a k n c ad = Ok (pt, t)) <-> (exists t, pr_open q a k n c ad = Ok (pt, t));
  sl_sign : forall s k m x, pr_sign p s k m = Some x <-> pr_sign q s k m = Some x;
  sl_sign_key : forall k m x, pr_sign q ED25519 k m = Some x -> length k = 32%nat;
  sl_verify : forall s k m x, agree (pr_verify p s k m x) (pr_verify q s k m x);
  sl_base_seal : forall cs pk i e m, agree (pr_base_seal p cs pk i e m) (pr_base_seal q cs pk i e m);
  sl_base_open : forall cs sk i k c, agree (pr_base_open p cs sk i k c) (pr_base_open q cs sk i k c)
}.

(** A secret of at least 32 bytes, the size of the hash of every suite that is served. All secrets of the key schedule are. *)
Definition long (s : bytes) : Prop := (32 <= length s)%nat.
