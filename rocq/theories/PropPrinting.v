(** Property C115: what printing a value tells (SpecPrinting.v). *)
From Verif Require Import PrintingFacts.
From Verif Require Import SpecPrinting.
Import Coq.Init.Byte.
Local Open Scope N_scope.

(** Someone who has what [{:?}] prints can read off: a private key, from the key or from its pair; *)
Theorem C115_refuted_keys : reveals show_secret_key (fun k => k) /\ reveals show_signature_key_pair skp_private /\ reveals show_hpke_key_pair hkp_private.
Proof. exact (conj r_secret_key (conj r_signature r_hpke)). Qed.
Print Assumptions C115_refuted_keys.

(** the secrets of an epoch, from its secret tree and its ratchets; *)
Theorem C115_refuted_epoch : reveals show_secret_tree (fun t => t) /\ reveals (fun p => show_ratchet_secret (fst p) (snd p)) (fun p => rt_secret (fst p)).
Proof. exact (conj r_secret_tree r_ratchet). Qed.
Print Assumptions C115_refuted_epoch.

(** the joiner secret and the path secret, from what a welcome holds; *)
Theorem C115_refuted_welcome : reveals (fun p => show_group_secrets (fst p) (snd p)) (fun p => (gs_joiner_secret (fst p), gs_path_secret (fst p))).
Proof. exact r_group_secrets. Qed.
Print Assumptions C115_refuted_welcome.

(** and all that a key store has, private keys among it. *)
Theorem C115_refuted_store : reveals show_key_store (fun entries => entries).
Proof. exact r_key_store. Qed.
Print Assumptions C115_refuted_store.

(** So two key pairs with the same public key (say, one of them with a private key that is not of it) are not printed the same. *)
Theorem C115_refuted_hides : forall p q k s, p <> q -> ~ hides show_signature_key_pair skp_private (fun x => (skp_public x, skp_scheme x)) /\
  show_signature_key_pair (MkSigKeyPair p k s) <> show_signature_key_pair (MkSigKeyPair q k s).
Proof. exact c115_hides. Qed.
Print Assumptions C115_refuted_hides.

(** What is printed is that of the documentation: the usual escapes, and two digits for the rest. *)
Example C115_example : show_signature_key_pair (MkSigKeyPair [x61; x00; x0a; x22; x5c; xff; x7f] [x62] ED25519) =
  str "SignatureKeyPair { private_key: SecretKey(b""a\0\n\""\\\xff\x7f""), public_key: SecretKey(b""b""), signature_scheme: ED25519 }" /\
  show_key_store [([x6b], [x76]); ([], [x80])] = str "MemoryKeyStore(RwLock { data: {b""k"": b""v"", b"""": b""\x80""}, poisoned: false, .. })" /\
  show_secret_tree [Some [x61]; None] = str "SecretTree([Some(b""a""), None])".
Proof. repeat split; vm_compute; reflexivity. Qed.
