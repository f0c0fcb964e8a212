(** Model of rmls/src/secret_tree/mod.rs. *)
From Verif Require Export TreeMath Crypto.
Local Open Scope N_scope.

(** Models secret_tree/mod.rs:23-27 (RatchetLabel). *)
Inductive ratchet_label : Type := RHandshake | RApplication.

(** Models secret_tree/mod.rs:14-15 and 29-36 (the label strings, Display). *)
Definition ratchet_label_str (l : ratchet_label) : bytes :=
  match l with RHandshake => str "handshake" | RApplication => str "application" end.

(** Models secret_tree/mod.rs:38-45 (From<ContentType>). *)
Definition ratchet_label_of (c : content_type) : ratchet_label :=
  match c with CTApplication => RApplication | CTProposal | CTCommit => RHandshake end.

(** Models secret_tree/mod.rs:56 (SecretTree). *)
Definition secret_tree : Type := list (option bytes).

(** Models secret_tree/mod.rs:108-110 (get). The outer option of the code (index out of range) and the inner one
    (nothing stored) lead to the same error at both uses, so they are one option here. *)
Definition sget (t : secret_tree) (x : N) : option bytes := nth (N.to_nat x) t None.

(** Models secret_tree/mod.rs:112-116 (set). *)
Definition sset (t : secret_tree) (x : N) (s : bytes) : secret_tree :=
  if x <? N.of_nat (length t) then (firstn (N.to_nat x) t ++ Some s :: skipn (S (N.to_nat x)) t)%list else t.

(** Models secret_tree/mod.rs:72-106 (derive_children). [fuel] bounds the recursion, which descends one level
    at a time; running out is [Hang]. *)
Fixpoint derive_children (fuel : nat) (P : provider) (cs : cipher_suite) (t : secret_tree) (x : N) : res secret_tree :=
  let* c := children x in
  match c with
  | None => Ok t
  | Some (l, r) =>
      match fuel with
      | O => Hang
      | S fuel =>
          match sget t x with
          | None => Err InvalidParentNode
          | Some s =>
              let* k := p_hpke P cs in
              let nh := k_extract_size k mod 65536 in
              let* ls := expand_with_label P cs s (str "tree") (str "left") nh in
              let* rs := expand_with_label P cs s (str "tree") (str "right") nh in
              let t := sset t l ls in
              let t := sset t r rs in
              let* t := derive_children fuel P cs t l in
              derive_children fuel P cs t r
          end
      end
  end.

(** Models secret_tree/mod.rs:60-70 (SecretTree::new). A node index has at most 32 levels below it. *)
Definition new_secret_tree (P : provider) (cs : cipher_suite) (n : N) (secret : bytes) : res secret_tree :=
  let* w := width n in
  let t : secret_tree := repeat None (N.to_nat w) in
  let* r := root n in
  let t := sset t r secret in
  derive_children 33 P cs t r.

(** Models secret_tree/mod.rs:148-151 (RatchetSecret). *)
Record ratchet_secret : Type := MkRatchet { rt_secret : bytes; rt_generation : N }.

(** Models secret_tree/mod.rs:119-143 (derive_ratchet_root). *)
Definition derive_ratchet_root (P : provider) (cs : cipher_suite) (t : secret_tree) (x : N) (l : ratchet_label) : res ratchet_secret :=
  match sget t x with
  | None => Err InvalidParentNode
  | Some s =>
      let* k := p_hpke P cs in
      let* s := expand_with_label P cs s (ratchet_label_str l) [] (k_extract_size k mod 65536) in
      Ok (MkRatchet s 0)
  end.

(** Models secret_tree/mod.rs:216-229 (derive_tree_secret). *)
Definition derive_tree_secret (P : provider) (cs : cipher_suite) (secret label : bytes) (generation len : N) : res bytes :=
  let* context := put_u32 generation in
  expand_with_label P cs secret label context len.

(** Models secret_tree/mod.rs:155-169 (derive_nonce). *)
Definition derive_nonce (P : provider) (cs : cipher_suite) (r : ratchet_secret) : res bytes :=
  let* k := p_hpke P cs in
  derive_tree_secret P cs (rt_secret r) (str "nonce") (rt_generation r) (a_nonce_size k mod 65536).

(** Models secret_tree/mod.rs:172-186 (derive_key). *)
Definition derive_key (P : provider) (cs : cipher_suite) (r : ratchet_secret) : res bytes :=
  let* k := p_hpke P cs in
  derive_tree_secret P cs (rt_secret r) (str "key") (rt_generation r) (a_key_size k mod 65536).

(** Models secret_tree/mod.rs:189-207 (derive_next). *)
Definition derive_next (P : provider) (cs : cipher_suite) (r : ratchet_secret) : res ratchet_secret :=
  let* k := p_hpke P cs in
  let* s := derive_tree_secret P cs (rt_secret r) (str "secret") (rt_generation r) (k_extract_size k mod 65536) in
  let* g := add32 (rt_generation r) 1 in
  Ok (MkRatchet s g).
