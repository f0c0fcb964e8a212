(** What the secret derivations of RFC 9420 (Sections 5.1, 8 and 9) are, over the primitives of a provider. *)
From Verif Require Export SpecTree Crypto SecretTree KeySchedule.
Local Open Scope N_scope.

(** A variable-length vector (RFC 9420, Section 2.1.2) of fewer than 2^30 bytes. *)
Definition vec (b : bytes) : bytes :=
  let n := N.of_nat (length b) in
  ((if n <? 64 then be 1 n else if n <? 16384 then be 2 (16384 + n) else be 4 (2147483648 + n)) ++ b)%list.
Definition fits30 (b : bytes) : Prop := N.of_nat (length b) < 1073741824.

(** The MLS label prefix, the KDFLabel structure and ExpandWithLabel (Section 8). *)
Definition mls_label (l : bytes) : bytes := (str "MLS 1.0 " ++ l)%list.
Definition kdf_label (label context : bytes) (len : N) : bytes := (be 2 len ++ vec (mls_label label) ++ vec context)%list.
Definition expand_label (k : hpke_alg) (secret label context : bytes) (len : N) : res bytes :=
  k_expand k secret (kdf_label label context len) len.

(** SignContent and EncryptContext (Sections 5.1.2 and 5.1.3). *)
Definition labelled (label content : bytes) : bytes := (vec (mls_label label) ++ vec content)%list.

(** The output size of the KDF, as the code uses it: a 16-bit length. *)
Definition nh (k : hpke_alg) : N := k_extract_size k mod 65536.

(** ** Secret tree (Section 9) *)

(** The secret of the node reached from the root along [path] ([true] is right). *)
Fixpoint node_secret (k : hpke_alg) (s : bytes) (path : list bool) : res bytes :=
  match path with
  | [] => Ok s
  | b :: path =>
      match expand_label k s (str "tree") (if b then str "right" else str "left") (nh k) with
      | Ok s => node_secret k s path
      | r => r
      end
  end.

(** Position, within its level, of the node reached along [path] from position [j]. *)
Fixpoint position (j : N) (path : list bool) : N :=
  match path with [] => j | b :: path => position (2 * j + if b then 1 else 0) path end.

(** A secret at least as long as the KDF's output. HKDF-Expand is defined for no other (RFC 5869, Section 2.3). *)
Definition usable (k : hpke_alg) (s : bytes) : Prop := nh k <= N.of_nat (length s).
(** The KDF of a suite works: there is one, and expanding a usable secret to the output size gives a usable secret. *)
Definition working_kdf (P : provider) (cs : cipher_suite) (k : hpke_alg) : Prop :=
  p_hpke P cs = Ok k /\ forall s info, usable k s -> exists b, k_expand k s info (nh k) = Ok b /\ usable k b.

(** The ratchet secret after generations [g], [g + 1], ..., [g + m - 1]: one DeriveTreeSecret with label "secret" and
    the 32-bit generation as context per step. *)
Fixpoint ratchet_after (k : hpke_alg) (s : bytes) (g : N) (m : nat) : res bytes :=
  match m with
  | O => Ok s
  | S m => match expand_label k s (str "secret") (be 4 g) (nh k) with Ok s => ratchet_after k s (g + 1) m | r => r end
  end.

(** Stepping a ratchet [m] times with the code. *)
Fixpoint steps (P : provider) (cs : cipher_suite) (r : ratchet_secret) (m : nat) : res ratchet_secret :=
  match m with O => Ok r | S m => let* r := derive_next P cs r in steps P cs r m end.

(** ** Key schedule (Section 8) *)

(** Two different argument pairs with the same result. *)
Definition collide (f : bytes -> bytes -> res bytes) (a b a' b' : bytes) : Prop :=
  (a, b) <> (a', b') /\ exists o, f a b = Ok o /\ f a' b' = Ok o.

(** [n] zero bytes. *)
Definition zero_bytes (n : N) : bytes := repeat x00 (N.to_nat n).
(** No PSK secret stands for the all-zero one. *)
Definition psk_or_zero (k : hpke_alg) (psk : bytes) : bytes :=
  match psk with [] => zero_bytes (k_extract_size k) | _ => psk end.

(** [extract k salt ikm] of the RFC is [k_extract k ikm salt]. *)
Definition joiner_secret (k : hpke_alg) (g : group_context) (init commit s : bytes) : Prop :=
  exists e raw, k_extract k commit init = Ok e /\ se_group_context g = Ok raw /\ fits30 raw /\
    expand_label k e (str "joiner") raw (nh k) = Ok s.
Definition epoch_secret (k : hpke_alg) (g : group_context) (joiner psk s : bytes) : Prop :=
  exists e raw, k_extract k (psk_or_zero k psk) joiner = Ok e /\ se_group_context g = Ok raw /\ fits30 raw /\
    expand_label k e (str "epoch") raw (nh k) = Ok s.
Definition welcome_secret (k : hpke_alg) (joiner psk s : bytes) : Prop :=
  exists e, k_extract k (psk_or_zero k psk) joiner = Ok e /\ expand_label k e (str "welcome") [] (nh k) = Ok s.

(** One PSK's contribution at position [i] of [n]: extract, label, expand. [w] says how positions and counts are
    written as 16-bit numbers. *)
Definition psk_input (w : N -> N) (k : hpke_alg) (n i : N) (id : psk_id) (psk ex raw inp : bytes) : Prop :=
  k_extract k psk (zero_bytes (k_extract_size k)) = Ok ex /\
  se_psk_label (MkPskLabel id (w i) (w n)) = Ok raw /\ fits30 raw /\
  expand_label k ex (str "derived psk") raw (nh k) = Ok inp.

(** The PSK secret of a list of PSKs (Section 8.4), [n] being their number: all zeros, then one extraction per PSK. *)
Inductive psk_chain (w : N -> N) (k : hpke_alg) (n : N) : list (psk_id * bytes) -> bytes -> Prop :=
| psk_none : psk_chain w k n [] (zero_bytes (k_extract_size k))
| psk_next l id psk s ex raw inp s' : psk_chain w k n l s ->
    psk_input w k n (N.of_nat (length l)) id psk ex raw inp -> k_extract k s inp = Ok s' ->
    psk_chain w k n (l ++ [(id, psk)]) s'.

(** The RFC writes positions as they are; the code writes them modulo 2^16. *)
Definition plain (i : N) : N := i.
Definition wrapped (i : N) : N := i mod 65536.

(** The values computed for the PSK at some position of a list: the chain so far, and its input. *)
Definition psk_step (k : hpke_alg) (l : list (psk_id * bytes)) (s psk ex raw inp : bytes) : Prop :=
  exists l1 id l2, l = (l1 ++ (id, psk) :: l2)%list /\ psk_chain plain k (N.of_nat (length l)) l1 s /\
    psk_input plain k (N.of_nat (length l)) (N.of_nat (length l1)) id psk ex raw inp.

(** Two of the KDF calls made for two lists of PSKs collide. *)
Definition psk_collision (k : hpke_alg) (l l' : list (psk_id * bytes)) : Prop :=
  exists s psk ex raw inp s' psk' ex' raw' inp', psk_step k l s psk ex raw inp /\ psk_step k l' s' psk' ex' raw' inp' /\
    (collide (k_extract k) s inp s' inp' \/
     collide (fun s i => k_expand k s i (nh k)) ex (kdf_label (str "derived psk") raw (nh k)) ex' (kdf_label (str "derived psk") raw' (nh k)) \/
     collide (k_extract k) psk (zero_bytes (k_extract_size k)) psk' (zero_bytes (k_extract_size k))).

(** Processing a history of commits, each with its confirmation tag, from an interim transcript hash. *)
Fixpoint transcript (P : provider) (cs : cipher_suite) (interim : bytes) (l : list (confirmed_input * bytes)) : res bytes :=
  match l with
  | [] => Ok interim
  | (c, tag) :: l =>
      let* confirmed := confirmed_hash P cs c interim in
      let* interim := next_interim_hash P cs confirmed tag in
      transcript P cs interim l
  end.

(** The strings hashed for that. *)
Definition hashed_in (P : provider) (cs : cipher_suite) (h : hash_alg) (interim : bytes) (l : list (confirmed_input * bytes)) (b : bytes) : Prop :=
  exists l1 c tag l2 i raw, l = (l1 ++ (c, tag) :: l2)%list /\ transcript P cs interim l1 = Ok i /\ se_confirmed_input c = Ok raw /\
    (b = i ++ raw \/ b = h_digest h (i ++ raw) ++ vec tag)%list.

(** Two different strings hashed for the two histories have the same digest. *)
Definition transcript_collision (P : provider) (cs : cipher_suite) (h : hash_alg) (i : bytes) (l l' : list (confirmed_input * bytes)) : Prop :=
  exists b b', hashed_in P cs h i l b /\ hashed_in P cs h i l' b' /\ b <> b' /\ h_digest h b = h_digest h b'.
