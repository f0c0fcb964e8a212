(** What can be computed from what with a key derivation function, and the values of the secret tree, the ratchets and the key
    schedule as things to be computed (RFC 9420, sections 8, 9 and 16.6). *)
From Verif Require Export SpecSecrets.
Local Open Scope N_scope.

(** One call of the KDF. The salt, the input keying material and the pseudorandom key have to be known; info and length are public. *)
Inductive kdf_call : Type := CExtract (salt ikm : bytes) | CExpand (prk info : bytes) (len : N).
Definition call (k : hpke_alg) (c : kdf_call) : res bytes :=
  match c with CExtract salt ikm => k_extract k ikm salt | CExpand prk info len => k_expand k prk info len end.
Definition needs (c : kdf_call) (b : bytes) : Prop :=
  match c with CExtract salt ikm => b = salt \/ b = ikm | CExpand prk _ _ => b = prk end.

(** Someone who is given [S] and makes the calls in [D] gets to know a value. *)
Inductive knows (k : hpke_alg) (S : bytes -> Prop) (D : list kdf_call) : bytes -> Prop :=
| kn_given b : S b -> knows k S D b
| kn_call c b : In c D -> (forall x, needs c x -> knows k S D x) -> call k c = Ok b -> knows k S D b.

(** Two different calls, each made by the attacker ([D]) or by the members ([made]), with the same result. *)
Definition clash (k : hpke_alg) (D : list kdf_call) (made : kdf_call -> Prop) : Prop :=
  exists c c' b, (In c D \/ made c) /\ (In c' D \/ made c') /\ c <> c' /\ call k c = Ok b /\ call k c' = Ok b.

(** ** Secret tree and ratchets *)

Definition ratchet_at (P : provider) (cs : cipher_suite) (t : secret_tree) (i : N) (l : ratchet_label) (g : nat) (r : ratchet_secret) : Prop :=
  exists r0, derive_ratchet_root P cs t (2 * i) l = Ok r0 /\ steps P cs r0 g = Ok r.

(** A ratchet's secret, or its message key or nonce: leaf, kind of ratchet and generation. *)
Inductive item : Type := IRatchet (i : N) (l : ratchet_label) (g : nat) | IKey (i : N) (l : ratchet_label) (g : nat) | INonce (i : N) (l : ratchet_label) (g : nat).
Definition item_value (P : provider) (cs : cipher_suite) (t : secret_tree) (it : item) (b : bytes) : Prop :=
  match it with
  | IRatchet i l g => exists r, ratchet_at P cs t i l g r /\ rt_secret r = b
  | IKey i l g => exists r, ratchet_at P cs t i l g r /\ derive_key P cs r = Ok b
  | INonce i l g => exists r, ratchet_at P cs t i l g r /\ derive_nonce P cs r = Ok b
  end.
(** [follows a b]: whoever has [a] is meant to be able to compute [b]. *)
Definition follows (a b : item) : Prop :=
  a = b \/ exists i l g g', a = IRatchet i l g /\ (g <= g')%nat /\ (b = IRatchet i l g' \/ b = IKey i l g' \/ b = INonce i l g').

(** The calls that members make for the tree and its ratchets. *)
Definition tree_made (h : hpke_alg) (d : N) (E : bytes) (c : kdf_call) : Prop :=
  exists path s, node_secret h E path = Ok s /\
    ((N.of_nat (length path) < d /\ exists b : bool, c = CExpand s (kdf_label (str "tree") (if b then str "right" else str "left") (nh h)) (nh h)) \/
     (N.of_nat (length path) = d /\ exists l,
        c = CExpand s (kdf_label (ratchet_label_str l) [] (nh h)) (nh h) \/
        exists r g q, expand_label h s (ratchet_label_str l) [] (nh h) = Ok r /\ ratchet_after h r 0 g = Ok q /\ N.of_nat g < 4294967296 /\
          (c = CExpand q (kdf_label (str "secret") (be 4 (N.of_nat g)) (nh h)) (nh h) \/
           c = CExpand q (kdf_label (str "key") (be 4 (N.of_nat g)) (a_key_size h mod 65536)) (a_key_size h mod 65536) \/
           c = CExpand q (kdf_label (str "nonce") (be 4 (N.of_nat g)) (a_nonce_size h mod 65536)) (a_nonce_size h mod 65536)))).

(** ** Key schedule *)

(** What goes into an epoch and what comes out. *)
Record epoch_run : Type := EpochRun {
  er_context : group_context; er_before : bytes (* init secret of the epoch before *); er_commit : bytes; er_psk : bytes;
  er_joiner : bytes; er_epoch : bytes; er_init : bytes }.
Definition runs (P : provider) (cs : cipher_suite) (e : epoch_run) : Prop :=
  gc_suite (er_context e) = cs /\
  extract_joiner_secret P (er_context e) (er_before e) (er_commit e) = Ok (er_joiner e) /\
  extract_epoch_secret P (er_context e) (er_joiner e) (er_psk e) = Ok (er_epoch e) /\
  derive_secret P cs (er_epoch e) label_init = Ok (er_init e).
(** Consecutive epochs, from an initial init secret. *)
Inductive lifetime_of (P : provider) (cs : cipher_suite) (init : bytes) : list epoch_run -> Prop :=
| lt_first e : runs P cs e -> er_before e = init -> lifetime_of P cs init [e]
| lt_next l e e' : lifetime_of P cs init (l ++ [e]) -> runs P cs e' -> er_before e' = er_init e -> lifetime_of P cs init ((l ++ [e]) ++ [e']).

(** The labels of the secrets derived from an epoch secret (RFC 9420, Section 8, Table 4). *)
Definition schedule_labels : list bytes :=
  [str "init"; str "sender data"; str "encryption"; str "exporter"; str "external"; str "confirm"; str "membership"; str "resumption"; str "authentication"].
(** The calls made for an epoch, and for a secret derived from its epoch secret. *)
Definition epoch_made (k : hpke_alg) (e : epoch_run) (c : kdf_call) : Prop :=
  exists ex me raw, k_extract k (er_commit e) (er_before e) = Ok ex /\ k_extract k (psk_or_zero k (er_psk e)) (er_joiner e) = Ok me /\
    se_group_context (er_context e) = Ok raw /\
    (c = CExtract (er_before e) (er_commit e) \/ c = CExpand ex (kdf_label (str "joiner") raw (nh k)) (nh k) \/
     c = CExtract (er_joiner e) (psk_or_zero k (er_psk e)) \/ c = CExpand me (kdf_label (str "epoch") raw (nh k)) (nh k) \/
     exists l, In l schedule_labels /\ c = CExpand (er_epoch e) (kdf_label l [] (nh k)) (nh k)).
Definition all_made (k : hpke_alg) (l : list epoch_run) (c : kdf_call) : Prop := exists e, In e l /\ epoch_made k e c.

(** Given secrets from which an epoch's secret follows without another extraction; and those that need its PSKs too. *)
Definition late_leak (k : hpke_alg) (S : bytes -> Prop) (e : epoch_run) : Prop :=
  S (er_epoch e) \/ exists me, k_extract k (psk_or_zero k (er_psk e)) (er_joiner e) = Ok me /\ S me.
Definition early_leak (k : hpke_alg) (S : bytes -> Prop) (e : epoch_run) : Prop :=
  S (er_joiner e) \/ exists ex, k_extract k (er_commit e) (er_before e) = Ok ex /\ S ex.

(** [enough k S D init l]: what is given, with the calls in [D], suffices for the epoch secret of the last epoch of [l]. Either
    something of that epoch is given; or the epoch before is within reach, and so are this epoch's commit secret and PSKs. *)
Inductive enough (k : hpke_alg) (S : bytes -> Prop) (D : list kdf_call) (init : bytes) : list epoch_run -> Prop :=
| en_late l e : late_leak k S e -> enough k S D init (l ++ [e])
| en_early l e : early_leak k S e -> knows k S D (psk_or_zero k (er_psk e)) -> enough k S D init (l ++ [e])
| en_first e : knows k S D init -> knows k S D (er_commit e) -> knows k S D (psk_or_zero k (er_psk e)) -> enough k S D init [e]
| en_init l e e' : S (er_init e) -> knows k S D (er_commit e') -> knows k S D (psk_or_zero k (er_psk e')) -> enough k S D init ((l ++ [e]) ++ [e'])
| en_before l e e' : enough k S D init (l ++ [e]) -> knows k S D (er_commit e') -> knows k S D (psk_or_zero k (er_psk e')) ->
    enough k S D init ((l ++ [e]) ++ [e']).
