(** The project's own tests on its test vectors (rmls/test-vectors/*.json), as computations in the model. Each check below follows
    one test function of the project and gives [true] exactly when all its assertions hold. The files Vectors*.v run them on the
    published vectors of cipher suites 1 and 3, and of 2 as far as SHA-256 alone is used. This is evidence that the model computes what the code computes; it proves nothing
    for other inputs. *)
From Verif Require Export Base Wire Provider Primitives SecretTree KeySchedule Passive PassiveCommit PassivePrivate.
Local Open Scope N_scope.

Definition P1 : provider := real_provider.
Definition is (r : res bytes) (b : bytes) : bool := match r with Ok x => bytes_eqb x b | _ => false end.
Definition good {A} (r : res A) : bool := match r with Ok _ => true | _ => false end.
Definition holds (r : res bool) : bool := match r with Ok b => b | _ => false end.
Definition all_from {A} (f : N -> A -> bool) : N -> list A -> bool :=
  fix go i l := match l with [] => true | a :: l => f i a && go (i + 1) l end.
Definition same (a b : option N) : bool := match a, b with Some x, Some y => x =? y | None, None => true | _, _ => false end.

(** utilities/tree_math/tree_math_test.rs:17-71 (tree_math_test). *)
Definition tree_math_check (n nodes rt : N) (lefts rights parents siblings : list (option N)) : bool :=
  let at_ f i want := match f i with Ok got => same got want | _ => false end in
  match width n, root n with
  | Ok w, Ok r => (w =? nodes) && (r =? rt) && all_from (at_ left) 0 lefts && all_from (at_ right) 0 rights
      && all_from (at_ (parent n)) 0 parents && all_from (at_ (sibling n)) 0 siblings
  | _, _ => false
  end.

(** crypto/crypto_test.rs:33-41 (test_ref_hash). *)
Definition ref_hash_check (cs : cipher_suite) (label value out : bytes) : bool := is (ref_hash P1 cs label value) out.
(** crypto/crypto_test.rs:55-69 (test_expand_with_label). *)
Definition expand_check (cs : cipher_suite) (secret label context : bytes) (len : N) (out : bytes) : bool :=
  is (expand_with_label P1 cs secret label context len) out.
(** crypto/crypto_test.rs:80-88 (test_derive_secret). *)
Definition derive_secret_check (cs : cipher_suite) (secret label out : bytes) : bool := is (derive_secret P1 cs secret label) out.
(** crypto/crypto_test.rs:101-116 (test_derive_tree_secret). *)
Definition derive_tree_secret_check (cs : cipher_suite) (secret label : bytes) (generation len : N) (out : bytes) : bool :=
  is (derive_tree_secret P1 cs secret label generation len) out.
(** crypto/crypto_test.rs:131-170 (test_sign_with_label). *)
Definition sign_check (cs : cipher_suite) (sk pk content label signature : bytes) : bool :=
  good (verify_with_label P1 cs pk label content signature) &&
  match sign_with_label P1 cs sk label content with Ok s => good (verify_with_label P1 cs pk label content s) | _ => false end.
(** crypto/crypto_test.rs:188-225 (test_encrypt_with_label), with the sender's random bytes as an argument. *)
Definition encrypt_check (cs : cipher_suite) (ikm sk pk label context plaintext kem ct : bytes) : bool :=
  is (decrypt_with_label P1 cs sk label context kem ct) plaintext &&
  match encrypt_with_label P1 cs ikm pk label context plaintext with
  | Ok (kem, ct) => is (decrypt_with_label P1 cs sk label context kem ct) plaintext
  | _ => false
  end.

(** key_schedule/key_schedule_test.rs:30-52 (psk_secret_test); an entry is (psk_id, psk, psk_nonce). *)
Definition psk_secret_check (cs : cipher_suite) (psks : list (bytes * bytes * bytes)) (out : bytes) : bool :=
  is (extract_psk_secret P1 cs (map (fun e => let '(id, _, nonce) := e in MkPskId (PExternal id) nonce) psks)
    (map (fun e => let '(_, psk, _) := e in psk) psks)) out.
(** key_schedule/key_schedule_test.rs:157-222 (key_schedule_test). An epoch is: tree hash, commit secret, PSK secret, confirmed
    transcript hash; group context, joiner secret, welcome secret, init secret; and the secrets for sender data, encryption,
    exporter, external, confirm, membership, resumption, and (not checked by the test) the epoch authenticator. *)
Definition epoch_check (cs : cipher_suite) (gid : bytes) (i : N) (init : bytes) (e : list bytes) : bool * bytes :=
  match e with
  | [th; commit; psk; cth; gc; joiner; welcome; next; sd; en; ex; xt; cf; mb; rs; au] =>
    let ctx := MkGroupContext MLS10 cs gid i th cth [] in
    match extract_epoch_secret P1 ctx joiner psk with
    | Ok es =>
      (is (se_group_context ctx) gc && is (extract_joiner_secret P1 ctx init commit) joiner
       && is (extract_welcome_secret P1 cs joiner psk) welcome
       && forallb (fun p => is (derive_secret P1 cs es (fst p)) (snd p))
         [(label_init, next); (label_sender_data, sd); (label_encryption, en); (label_exporter, ex); (label_external, xt);
          (label_confirm, cf); (label_membership, mb); (label_resumption, rs); (label_authentication, au)], next)
    | _ => (false, [])
    end
  | _ => (false, [])
  end.
Fixpoint epochs_check (cs : cipher_suite) (gid : bytes) (i : N) (init : bytes) (es : list (list bytes)) : bool :=
  match es with
  | [] => true
  | e :: es => let '(b, next) := epoch_check cs gid i init e in b && epochs_check cs gid (i + 1) next es
  end.
(** key_schedule/key_schedule_test.rs:267-318 (transcript_hashes_test). *)
Definition transcript_check (cs : cipher_suite) (key content before confirmed after : bytes) : bool :=
  match de_exact de_auth_content content with
  | Ok a =>
    match fc_content (ac_content a), ad_confirmation_tag (ac_auth a) with
    | CCommit _, tag =>
      good (verify_auth_confirmation_tag P1 cs (ac_auth a) key confirmed)
      && is (confirmed_hash P1 cs (confirmed_of a) before) confirmed
      && is (next_interim_hash P1 cs confirmed tag) after
    | _, _ => false
    end
  | _ => false
  end.

(** secret_tree/secret_tree_test.rs:93-127 (test_ratchet_secret). *)
Fixpoint ratchet_check (cs : cipher_suite) (r : ratchet_secret) (gens : list (N * bytes * bytes)) : bool :=
  match gens with
  | [] => true
  | (g, key, nonce) :: gens =>
    match catch_up P1 cs g r with
    | Ok r => is (derive_key P1 cs r) key && is (derive_nonce P1 cs r) nonce && ratchet_check cs r gens
    | _ => false
    end
  end.
(** secret_tree/secret_tree_test.rs:45-91 (secret_tree_test). A leaf has its (generation, key, nonce) for handshakes and for
    application messages. *)
Definition secret_tree_check (cs : cipher_suite) (sds ct key nonce es : bytes)
  (lvs : list (list (N * bytes * bytes) * list (N * bytes * bytes))) : bool :=
  is (sender_data_key P1 cs sds ct) key && is (sender_data_nonce P1 cs sds ct) nonce &&
  match new_secret_tree P1 cs (N.of_nat (List.length lvs)) es with
  | Ok t => all_from (fun i l =>
      match derive_ratchet_root P1 cs t (2 * i) RHandshake, derive_ratchet_root P1 cs t (2 * i) RApplication with
      | Ok h, Ok a => ratchet_check cs h (fst l) && ratchet_check cs a (snd l)
      | _, _ => false
      end) 0 lvs
  | _ => false
  end.

(** framing/framing_test.rs:52-131 (messages_test): each value is decoded and encoded again. *)
Definition recodes {A} (de : bytes -> res (A * bytes)) (se : A -> res bytes) (b : bytes) : bool :=
  match de_exact de b with Ok a => is (se a) b | _ => false end.
Definition messages_check (welcome info kp tree secrets add update remove psk commit app prop pcommit private : bytes) : bool :=
  forallb (recodes de_mls_message se_mls_message) [welcome; info; kp; app; prop; pcommit; private]
  && recodes de_ratchet_tree se_ratchet_tree tree && recodes de_group_secrets se_group_secrets secrets
  && recodes de_add_proposal se_add_proposal add && recodes de_update_proposal se_update_proposal update
  && recodes de_remove_proposal se_remove_proposal remove && recodes de_psk_proposal se_psk_proposal psk
  && recodes de_commit se_commit commit.

(** ratchet_tree/ratchet_tree_test.rs:33-78 (tree_validation_test). *)
Fixpoint eq_list (a b : list N) : bool :=
  match a, b with [] , [] => true | x :: a, y :: b => (x =? y) && eq_list a b | _, _ => false end.
Definition tree_validation_check (cs : cipher_suite) (tree gid : bytes) (resolutions : list (list N)) (hashes : list bytes) : bool :=
  match de_exact de_ratchet_tree tree with
  | Ok t =>
    all_from (fun i want => match resolve t i with Ok got => eq_list got want | _ => false end) 0 resolutions
    && all_from (fun i want => is (tree_hash P1 cs t i []) want) 0 hashes
    && holds (verify_parent_hashes P1 cs t)
    && match leaves t with
       | Ok ls => forallb (fun l => holds (leaf_verify_signature P1 cs (snd l) (TIUpdateOrCommit gid (fst l)))) ls
       | _ => false
       end
  | _ => false
  end.
(** ratchet_tree/ratchet_tree_test.rs:155-185 (tree_kem_test); an update path is (sender, path, tree hash after). *)
Definition tree_kem_check (cs : cipher_suite) (tree : bytes) (paths : list (N * bytes * bytes)) : bool :=
  match de_exact de_ratchet_tree tree with
  | Ok t => forallb (fun p => let '(sender, path, after) := p in
      match de_exact de_update_path path with
      | Ok u => match merge_update_path P1 cs t sender u with (t', Ok _) => is (root_tree_hash P1 cs t') after | _ => false end
      | _ => false
      end) paths
  | _ => false
  end.
(** ratchet_tree/ratchet_tree_test.rs:225-282 (tree_operations_test). *)
Definition tree_operations_check (cs : cipher_suite) (before proposal : bytes) (sender : N) (after hash_after hash_before : bytes) : bool :=
  match de_exact de_ratchet_tree before with
  | Ok t =>
    is (root_tree_hash P1 cs t) hash_before &&
    match
      let* p := de_exact de_proposal proposal in
      match p with
      | PAdd a =>
        let kp := add_key_package a in
        let* _ := key_package_verify P1 kp (MkGroupContext (kp_version (kp_payload kp)) (kp_suite (kp_payload kp)) [] 0 [] [] []) in
        tree_add t (kp_leaf (kp_payload kp))
      | PUpdate u =>
        let* (ss, es) := keys t in
        let* creds := supported_creds t in
        let* _ := leaf_verify P1 (upd_leaf u) (MkLeafOptions cs [] sender creds ss es 0%Z) in
        tree_update t sender (upd_leaf u)
      | PRemove r =>
        let* l := get_leaf t (rem_removed r) in
        match l with Some _ => tree_remove t (rem_removed r) | None => Panic end
      | _ => Panic
      end
    with
    | Ok t' => is (se_ratchet_tree t') after && is (root_tree_hash P1 cs t') hash_after
    | _ => false
    end
  | _ => false
  end.

(** group/group_test.rs:29-73 (welcome_test). *)
Definition welcome_check (init_priv signer_pub kp w : bytes) : bool :=
  good (let* w := welcome_of w in
    let* kp := key_package_of kp in
    let* r := generate_ref P1 kp in
    let* gs := decrypt_group_secrets P1 w r init_priv in
    let* gi := decrypt_group_info P1 w (gs_joiner_secret gs) [] in
    let* _ := group_info_verify_signature P1 gi signer_pub in
    group_info_verify_tag P1 gi (gs_joiner_secret gs) []).

(** The encoding of a content that group/group_test.rs:192-197 and 299-304 compare. *)
Definition raw_content (c : content) : res bytes :=
  match c with CApplication d => Ok d | CProposal p => se_proposal p | CCommit c => se_commit c end.
(** group/group_test.rs:143-200 (test_message_protection_pub): read the published message; then send the same content and read it
    again. *)
Definition protection_pub_check (cs : cipher_suite) (ctx : group_context) (sk pk mk want raw : bytes) : bool :=
  match receive_public P1 cs ctx pk mk raw with
  | Ok c => is (raw_content (fc_content c)) want &&
      match send_public P1 cs ctx sk mk c with
      | Ok b => match receive_public P1 cs ctx pk mk b with Ok c => is (raw_content (fc_content c)) want | _ => false end
      | _ => false
      end
  | _ => false
  end.
(** group/group_test.rs:202-309 (test_message_protection_priv). The four random bytes of the sender are an argument. *)
Definition protection_priv_check (cs : cipher_suite) (ctx : group_context) (sk pk es sds guard want raw : bytes) : bool :=
  match receive_private P1 cs ctx pk es sds 2 1 raw with
  | Ok c => is (raw_content (pc_content c)) want &&
      match send_private P1 cs ctx sk es sds 2 1 guard (MkFramed (gc_group_id ctx) (gc_epoch ctx) (SMember 1) [] (pc_content c)) with
      | Ok b => match receive_private P1 cs ctx pk es sds 2 1 b with Ok c => is (raw_content (pc_content c)) want | _ => false end
      | _ => false
      end
  | _ => false
  end.

(** utilities/serde/serde_test.rs:318-346 (check_encryption_key_pair) and 348-365 (check_signature_key_pair). *)
Definition key_pair_check (cs : cipher_suite) (ikm pk sk : bytes) : bool :=
  match encrypt_with_label P1 cs ikm pk (str "bar") [] (str "foo") with
  | Ok (kem, ct) => is (decrypt_with_label P1 cs sk (str "bar") [] kem ct) (str "foo")
  | _ => false
  end.
Definition signature_pair_check (cs : cipher_suite) (pk sk : bytes) : bool :=
  match sign_with_label P1 cs sk (str "bar") (str "foo") with Ok s => good (verify_with_label P1 cs pk (str "bar") (str "foo") s) | _ => false end.
(** utilities/serde/serde_test.rs:66-198 (passive_client_test): join, and compare the epoch authenticator. *)
Definition join_check (cs : cipher_suite) (known : list (bytes * bytes)) (kp init_priv w : bytes) (tree : option bytes) (authenticator : bytes) : bool :=
  match passive_join P1 cs known kp init_priv w tree with
  | Ok j => is (derive_secret P1 cs (jn_epoch j) label_authentication) authenticator
  | _ => false
  end.
(** utilities/serde/serde_test.rs:66-309: join and process the first commit. *)
Definition commit_result (cs : cipher_suite) (known : list (bytes * bytes)) (kp init_priv w : bytes) (tree : option bytes) (commit : bytes) : res ratchet_tree :=
  let* j := passive_join P1 cs known kp init_priv w tree in
  passive_commit P1 cs (jn_tree j) (gi_context (jn_info j)) (jn_epoch j) commit.
Definition commit_check (cs : cipher_suite) (known : list (bytes * bytes)) (kp init_priv w : bytes) (tree : option bytes) (commit : bytes) : bool :=
  match commit_result cs known kp init_priv w tree commit with Ok _ => true | _ => false end.
