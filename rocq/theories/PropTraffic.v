(** Property C75: private messages from sender to receiver (SpecTraffic.v). *)
From Verif Require Import TrafficFacts SecretFacts MessageFacts Examples.
From Verif Require Import WireWF SpecTraffic ExProvider.
Local Open Scope N_scope.

(* ------------------------------------------------------------------------------------------- *)
(** * C75 *)

(** Who holds the same secret tree and sender data secret receives what a member sent, whatever its kind, its sender's
    leaf and the generation, and the signature verifies. *)
Theorem C75_delivered : forall P cs ctx sk pk st sds leaf gen guard c b, aead_ok P cs -> key_pair_ok P cs sk pk ->
  wf_framed_content c -> fc_sender c = SMember leaf -> gen < 4294967296 -> length guard = 4%nat ->
  send P cs ctx sk st sds leaf gen guard c = Ok b ->
  exists a, receive P cs ctx pk st sds b = Ok a /\ ac_content a = c.
Proof. exact c75_delivered. Qed.
Print Assumptions C75_delivered.

(** Key and nonce of a message are those of RFC 9420: down the tree of secrets to the sender's leaf, the ratchet of the
    kind of content, one step per generation. *)
Theorem C75_keys : forall P cs h d s st path c (g : nat), p_hpke P cs = Ok h -> a_key_size h < 65536 -> a_nonce_size h < 65536 ->
  d <= 31 -> new_secret_tree P cs (2 ^ d) s = Ok st -> N.of_nat (length path) = d -> N.of_nat g < 4294967296 ->
  (let* x := node_index (position 0 path) in let* r := derive_ratchet_root P cs st x (ratchet_label_of c) in let* r := steps P cs r g in derive_key P cs r) = message_key h s path c g /\
  (let* x := node_index (position 0 path) in let* r := derive_ratchet_root P cs st x (ratchet_label_of c) in let* r := steps P cs r g in derive_nonce P cs r) = message_nonce h s path c g.
Proof. exact c75_key. Qed.
Print Assumptions C75_keys.

(** Key and nonce of the sender data come from the first bytes of the ciphertext, as many as the KDF puts out. *)
Theorem C75_sender_data : forall P cs h secret ct, p_hpke P cs = Ok h -> a_key_size h < 65536 -> a_nonce_size h < 65536 ->
  fits30 (firstn (N.to_nat (k_extract_size h)) ct) ->
  sender_data_key P cs secret ct = expand_label h secret (str "key") (firstn (N.to_nat (k_extract_size h)) ct) (a_key_size h) /\
  sender_data_nonce P cs secret ct = expand_label h secret (str "nonce") (firstn (N.to_nat (k_extract_size h)) ct) (a_nonce_size h).
Proof. exact c75_sender. Qed.
Print Assumptions C75_sender_data.

(** Two messages have the same key only if epoch, sender, ratchet and generation are the same, or two of the KDF calls
    made for the two keys collide. *)
Theorem C75_distinct : forall k e e' path path' c c' g g' b, length path = length path' -> a_key_size k < 65536 ->
  N.of_nat g < 4294967296 -> N.of_nat g' < 4294967296 ->
  message_key k e path c g = Ok b -> message_key k e' path' c' g' = Ok b ->
  key_collision k e path c g e' path' c' g' \/ (e = e' /\ path = path' /\ ratchet_name c = ratchet_name c' /\ g = g').
Proof. exact c75_distinct. Qed.
Print Assumptions C75_distinct.

(** A commit by member 2 of 4 in generation 3 arrives. *)
Definition ex_st : secret_tree := match new_secret_tree toy Suite1 4 (str "enc") with Ok t => t | _ => [] end.
Example C75_example : aead_ok toy Suite1 /\ key_pair_ok toy Suite1 (str "k") (str "k") /\ wf_framed_content (ex_framed (SMember 2) (CCommit ex_commit)) /\
  exists b, send toy Suite1 ex_gc (str "k") ex_st (str "sds") 2 3 [x01; x02; x03; x04] (ex_framed (SMember 2) (CCommit ex_commit)) = Ok b.
Proof.
  split; [apply toy_aead|]. split; [apply toy_keys|]. split; [apply ex_framed_wf; reflexivity|]. eexists. vm_compute. reflexivity.
Qed.
(** The same with the specification's keys: both ratchets of leaf 2 give keys, and they differ. *)
Example C75_example_keys : p_hpke toy Suite1 = Ok toy_hpke /\ position 0 [true; false] = 2 /\
  exists a b, message_key toy_hpke (str "enc") [true; false] CTCommit 3 = Ok a /\ message_key toy_hpke (str "enc") [true; false] CTApplication 3 = Ok b.
Proof. split; [reflexivity|]. split; [reflexivity|]. eexists. eexists. split; vm_compute; reflexivity. Qed.
