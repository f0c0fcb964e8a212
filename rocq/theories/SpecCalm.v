(** Calls that come back. *)
From Verif Require Export SpecProvider SpecSecrets Group Proposals.
Local Open Scope N_scope.

(** The call returns a value or an error: no panic, no endless loop. *)
Definition returns {A} (m : res A) : Prop := (exists a, m = Ok a) \/ exists e, m = Err e.

(** What a provider does for suite [cs] returns, whatever the arguments. *)
Record steady (P : provider) (cs : cipher_suite) : Prop := {
  st_hash : returns (p_hash P cs);
  st_hpke : returns (p_hpke P cs);
  st_sig : returns (p_sig P cs);
  st_derive : forall k ikm, p_hpke P cs = Ok k -> returns (k_derive_key_pair k ikm);
  st_expand : forall k s i n, p_hpke P cs = Ok k -> returns (k_expand k s i n);
  st_extract : forall k s salt, p_hpke P cs = Ok k -> returns (k_extract k s salt);
  st_open : forall k key nonce ct aad, p_hpke P cs = Ok k -> returns (a_open k key nonce ct aad);
  st_seal : forall k key nonce pt aad, p_hpke P cs = Ok k -> returns (a_seal k key nonce pt aad);
  st_sign : forall s key msg, p_sig P cs = Ok s -> returns (s_sign s key msg);
  st_verify : forall s key msg sig, p_sig P cs = Ok s -> returns (s_verify s key msg sig);
  st_base_seal : forall pk info e pt, returns (p_base_seal P cs pk info e pt);
  st_base_open : forall sk info kem ct, returns (p_base_open P cs sk info kem ct) }.

(** What the cryptographic libraries do returns. *)
Record steady_prims (p : prims) : Prop := {
  sp_seal : forall a key nonce pt aad, returns (pr_seal p a key nonce pt aad);
  sp_open : forall a key nonce ct aad, returns (pr_open p a key nonce ct aad);
  sp_verify : forall s key msg sig, returns (pr_verify p s key msg sig);
  sp_base_seal : forall cs pk info e pt, returns (pr_base_seal p cs pk info e pt);
  sp_base_open : forall cs sk info kem ct, returns (pr_base_open p cs sk info kem ct) }.

(** An Update proposal cut off in the middle of the lifetime of its leaf: proposal type 2; empty encryption and signature
    keys; a basic credential without identity; five empty capability lists; source 1 (key_package); not_before, but not
    not_after. *)
Definition cut_update : bytes := ([x00; x02] ++ [x00; x00] ++ [x00; x01; x00] ++ [x00; x00; x00; x00; x00] ++ [x01] ++ repeat x00 8)%list.
