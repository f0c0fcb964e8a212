(** Concrete key packages, stores and welcomes, for the examples and refutations about joining. *)
From Verif Require Export SpecKeys ExProvider.
Local Open Scope N_scope.

(** A provider whose signing keys differ from its verification keys: the public key is 1 followed by the private key,
    and a signature is the public key followed by the message. Everything else is as in [toy]. *)
Definition asym_sig : sig_alg :=
  MkSig ED25519 (fun k m => Ok (x01 :: k ++ m)%list) (fun k m s => if bytes_eqb s (k ++ m)%list then Ok tt else Err RustCryptoError).
Definition asym : provider :=
  MkProvider (p_supports toy) (p_supported toy) (p_hash toy) (p_hpke toy) (fun _ => Ok asym_sig) (p_base_seal toy) (p_base_open toy).

Definition ex_skp : signature_key_pair := MkSigKeyPair [x05; x06] [x01; x05; x06] ED25519.
Definition ex_builder : builder := MkBuilder (Some (MkLifetime 10 20)) None (Some ex_caps) None.
Definition ex_fill (a : byte) (n : N) : res bytes := Ok (repeat a (N.to_nat n)).
(** A package built on [asym], and one built on [toy], whose verification keys do sign. *)
Definition ex_built (P : provider) (a : byte) (s : key_store) : key_store * res key_package :=
  key_package_build P (ex_fill a) (ex_fill x77) s ex_builder MLS10 Suite1 (CredBasic (str "bob")) ex_skp.
Definition ex_ctx1 : group_context := MkGroupContext MLS10 Suite1 (str "group") 5 [x0a] [x0b; x0c] [].
Definition ex_store1 : key_store := fst (ex_built toy x31 []).
Definition ex_store2 : key_store := fst (ex_built toy x32 ex_store1).
Definition ex_package (a : byte) : key_package := ok_or (ex_kp x01) (snd (ex_built toy a [])).
Definition ex_ref (a : byte) : bytes := ok_or [] (generate_ref toy (ex_package a)).
Definition ex_entry (r : bytes) : encrypted_group_secrets := MkEGS r (MkHpkeCiphertext [x01] [x02]).
(** A welcome for somebody else and for the holder of the given packages. *)
Definition ex_welcome (l : list byte) : welcome := MkWelcome Suite1 (ex_entry [x99] :: map (fun a => ex_entry (ex_ref a)) l) [x03].
