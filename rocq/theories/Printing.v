(** What printing a value with [{:?}] gives. All the types below derive Debug (the lines are cited); what the derived code prints, and what
    the crate bytes prints for a Bytes, is that of their documentation, on one line (not [{:#?}]). Strings are lists of bytes. *)
From Verif Require Export Wire SecretTree.
From Coq Require Strings.String.
Import Coq.Init.Byte.
Local Open Scope N_scope.

Notation text := (list byte) (only parsing).
Definition txt (s : String.string) : text := String.list_byte_of_string s.
Local Open Scope string_scope.
Local Open Scope N_scope.

(** One hexadecimal digit, as in [{:02x}] (crypto/mod.rs:16, through Bytes). *)
Definition hex_digit (n : N) : byte := n2b (if n <? 10 then 48 + n else 87 + n).
(** One byte of a Bytes (crypto/mod.rs:16-17): the usual escapes, printable characters as they are, the rest in hexadecimal. *)
Definition show_byte (b : byte) : text :=
  let n := b2n b in
  if n =? 10 then txt "\n" else if n =? 13 then txt "\r" else if n =? 9 then txt "\t"
  else if (n =? 92) || (n =? 34) then [x5c; b]
  else if n =? 0 then txt "\0"
  else if (32 <=? n) && (n <? 127) then [b]
  else (txt "\x" ++ [hex_digit (n / 16); hex_digit (n mod 16)])%list.
(** A Bytes, as in crypto/mod.rs:17: b"...". *)
Definition show_bytes (v : bytes) : text := ([x62; x22] ++ flat_map show_byte v ++ [x22])%list.
(** crypto/mod.rs:16-17 (SecretKey) *)
Definition show_secret_key (k : secret_key) : text := (txt "SecretKey(" ++ show_bytes k ++ txt ")")%list.
(** crypto/provider/mod.rs:50-64 (SignatureScheme) *)
Definition show_scheme (s : signature_scheme) : text :=
  txt match s with
      | ECDSA_SECP256R1_SHA256 => "ECDSA_SECP256R1_SHA256" | ECDSA_SECP384R1_SHA384 => "ECDSA_SECP384R1_SHA384"
      | ECDSA_SECP521R1_SHA512 => "ECDSA_SECP521R1_SHA512" | ED25519 => "ED25519" | ED448 => "ED448" end.
(** crypto/key_pair.rs:8-13 (SignatureKeyPair) *)
Definition show_signature_key_pair (k : signature_key_pair) : text :=
  (txt "SignatureKeyPair { private_key: " ++ show_secret_key (skp_private k) ++ txt ", public_key: " ++ show_secret_key (skp_public k) ++
   txt ", signature_scheme: " ++ show_scheme (skp_scheme k) ++ txt " }")%list.
(** crypto/key_pair.rs:62-66 (HPKEKeyPair) *)
Definition show_hpke_key_pair (k : hpke_key_pair) : text :=
  (txt "HPKEKeyPair { private_key: " ++ show_secret_key (hkp_private k) ++ txt ", public_key: " ++ show_secret_key (hkp_public k) ++ txt " }")%list.
(** An Option<Bytes>, as in secret_tree/mod.rs:56 and framing/group_info.rs:112. *)
Definition show_maybe (o : option bytes) : text := match o with Some v => (txt "Some(" ++ show_bytes v ++ txt ")")%list | None => txt "None" end.
(** The elements of a list or a map: separated by ", ", as for secret_tree/mod.rs:56. *)
Fixpoint show_all {A} (f : A -> text) (l : list A) : text :=
  match l with [] => [] | [a] => f a | a :: r => (f a ++ txt ", " ++ show_all f r)%list end.
(** secret_tree/mod.rs:55-56 (SecretTree) *)
Definition show_secret_tree (t : list (option bytes)) : text := (txt "SecretTree([" ++ show_all show_maybe t ++ txt "])")%list.
(** secret_tree/mod.rs:147-151 (RatchetSecret); [generation] is what is printed of the number. *)
Definition show_ratchet_secret (r : ratchet_secret) (generation : text) : text :=
  (txt "RatchetSecret { secret: " ++ show_bytes (rt_secret r) ++ txt ", generation: " ++ generation ++ txt " }")%list.
(** framing/group_info.rs:109-114 (GroupSecrets); [ids] is what is printed of the pre-shared key ids, which are public. *)
Definition show_group_secrets (g : group_secrets) (ids : text) : text :=
  (txt "GroupSecrets { joiner_secret: " ++ show_bytes (gs_joiner_secret g) ++ txt ", path_secret: " ++ show_maybe (gs_path_secret g) ++
   txt ", psk_ids: " ++ ids ++ txt " }")%list.
(** crypto/provider/key_store.rs:5-6 (MemoryKeyStore): the entries in the order of the map's iterator, which is not fixed: [entries] is
    that list. *)
Definition show_entry (e : bytes * bytes) : text := (show_bytes (fst e) ++ txt ": " ++ show_bytes (snd e))%list.
Definition show_key_store (entries : list (bytes * bytes)) : text :=
  (txt "MemoryKeyStore(RwLock { data: {" ++ show_all show_entry entries ++ txt "}, poisoned: false, .. })")%list.
