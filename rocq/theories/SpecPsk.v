(** Who can compute the PSK secret of a list of pre-shared keys, and with it the epochs it goes into (RFC 9420, sections 8 and 8.4). *)
From Verif Require Export SpecForward.
Local Open Scope N_scope.

(** The calls made for the PSK secret of the list [l]: for each PSK an extraction, an expansion with its label, and an extraction into
    the chain. *)
Definition psk_made (k : hpke_alg) (l : list (psk_id * bytes)) (c : kdf_call) : Prop :=
  exists l1 id psk l2 s ex raw inp, l = (l1 ++ (id, psk) :: l2)%list /\ psk_chain wrapped k (N.of_nat (length l)) l1 s /\
    psk_input wrapped k (N.of_nat (length l)) (N.of_nat (length l1)) id psk ex raw inp /\
    (c = CExtract (zero_bytes (k_extract_size k)) psk \/ c = CExpand ex (kdf_label (str "derived psk") raw (nh k)) (nh k) \/ c = CExtract inp s).

(** Given secrets that make up for the PSK between [l1] and [l2]: what is extracted from it or expanded from that, or a value of the
    chain behind it. *)
Definition psk_leak (k : hpke_alg) (S : bytes -> Prop) (l1 : list (psk_id * bytes)) (id : psk_id) (psk : bytes) (l2 : list (psk_id * bytes)) : Prop :=
  let n := N.of_nat (length (l1 ++ (id, psk) :: l2)) in
  (exists ex raw inp, psk_input wrapped k n (N.of_nat (length l1)) id psk ex raw inp /\ (S ex \/ S inp)) \/
  exists l3 l4 s, l2 = (l3 ++ l4)%list /\ psk_chain wrapped k n (l1 ++ (id, psk) :: l3) s /\ S s.

(** Nothing is given of the epochs [e :: l]: not their epoch secrets or what these are expanded from, not the init secrets between them
    and, of those after the first, not the joiner secrets or what these are expanded from. *)
Definition sealed (k : hpke_alg) (S : bytes -> Prop) (e : epoch_run) (l : list epoch_run) : Prop :=
  (forall x, In x (e :: l) -> ~ late_leak k S x) /\ (forall x, In x l -> ~ early_leak k S x) /\ forall x, In x (removelast (e :: l)) -> ~ S (er_init x).
