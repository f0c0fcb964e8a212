(** A toy cryptographic provider, only to show that theorem hypotheses about providers can be met and to compute
    examples: the digest is the identity, a signature is the key followed by the message, a ciphertext is the key,
    nonce and associated data followed by the plaintext. *)
From Verif Require Export Crypto Examples.
Local Open Scope N_scope.

Definition toy_strip (prefix x : bytes) : res bytes :=
  if bytes_eqb prefix (firstn (length prefix) x) then Ok (skipn (length prefix) x) else Err RustCryptoError.
Definition toy_hash : hash_alg := MkHash 4 (fun x => x) (fun k m => k ++ m)%list.
Definition toy_hpke : hpke_alg :=
  MkHpke (fun ikm => Ok (MkHpkeKeyPair ikm (x01 :: ikm)))
         (fun s i n => Ok (firstn (N.to_nat n) (rev i ++ s ++ repeat x00 (N.to_nat n))))%list
         (fun s salt => Ok (salt ++ s)%list) 4 4 4
         (fun k n c a => toy_strip (k ++ n ++ a) c)%list
         (fun k n p a => Ok (k ++ n ++ a ++ p))%list.
Definition toy_sig : sig_alg :=
  MkSig ED25519 (fun k m => Ok (k ++ m)%list) (fun k m s => if bytes_eqb s (k ++ m)%list then Ok tt else Err RustCryptoError).
Definition toy : provider :=
  MkProvider (fun cs => match cs with Suite1 => true | _ => false end) [Suite1]
    (fun _ => Ok toy_hash) (fun _ => Ok toy_hpke) (fun _ => Ok toy_sig)
    (fun _ pk info e p => Ok (e, pk ++ info ++ e ++ p))%list
    (fun _ sk info kem c => toy_strip ((x01 :: sk) ++ info ++ kem)%list c).
