(** Model of how the project's own tests process a commit as a client (rmls/src/utilities/serde/serde_test.rs:183-307). *)
From Verif Require Export Passive.
Local Open Scope N_scope.

(** Models serde_test.rs:312-316 (deserialize_message), for a public message. *)
Definition public_of (bs : bytes) : res public_message :=
  let* m := de_exact de_mls_message bs in
  match mm_wire m with WMPublic p => Ok p | _ => Panic end.

(** Models serde_test.rs:233-248: the proposals of the commit. A reference to a proposal is an error. *)
Fixpoint inline_proposals (l : list proposal_or_ref) : res (list proposal) :=
  match l with
  | [] => Ok []
  | PorProposal p :: r => let* ps := inline_proposals r in Ok (p :: ps)
  | PorReference _ :: _ => Err OtherError
  end.

(** Models the test at serde_test.rs:255. *)
Definition is_psk (p : proposal) : bool := match p with PPreSharedKey _ => true | _ => false end.
(** Models the test at serde_test.rs:268-271. *)
Definition is_commit_source (s : leaf_node_source) : bool := match s with LSCommit _ => true | _ => false end.

(** Models serde_test.rs:267-304: check the path and merge it. The clock gives 1970, which turns the lifetime check off. *)
Definition passive_path (P : provider) (cs : cipher_suite) (t : ratchet_tree) (ctx : group_context) (sender : N) (l : leaf_node) (u : update_path) : res ratchet_tree :=
  let* _ := assert (is_commit_source (lp_source (ln_payload (up_leaf u)))) in
  let* (ss, es) := keys t in
  let ss := filter (fun k => negb (bytes_eqb k (lp_signature_key (ln_payload l)))) ss in
  let* creds := supported_creds t in
  let* _ := assert_ok (leaf_verify P (up_leaf u) (MkLeafOptions cs (gc_group_id ctx) sender creds ss es 0%Z)) in
  let* _ := assert (negb (existsb (fun n => mem bytes_eqb (upn_encryption_key n) es) (up_nodes u))) in
  let (t', r) := merge_update_path P cs t sender u in
  let* _ := r in Ok t'.

(** Models serde_test.rs:184-306, one turn of the loop: from the bytes of a commit to the tree afterwards. The tree to which
    the proposals were applied (260-261) is thrown away; the path is merged into the tree as it was (303). *)
Definition passive_commit (P : provider) (cs : cipher_suite) (t : ratchet_tree) (ctx : group_context) (epoch : bytes) (b : bytes) : res ratchet_tree :=
  let* m := public_of b in
  let* _ := assert (fc_epoch (pm_content m) =? gc_epoch ctx) in
  let* sender := match fc_sender (pm_content m) with SMember i => Ok i | _ => Err OtherError end in
  let* node := get_leaf t sender in
  match node with
  | None => Err OtherError
  | Some l =>
      let* _ := assert_ok (verify_content_signature P cs (public_auth_content m) (lp_signature_key (ln_payload l)) ctx) in
      let* mk := derive_secret P cs epoch label_membership in
      let* _ := assert_ok (verify_membership_tag P cs m mk ctx) in
      match fc_content (pm_content m) with
      | CCommit c =>
          let* ps := inline_proposals (cm_proposals c) in
          let senders := repeat sender (length ps) in
          let* _ := assert_ok (verify_proposal_list ps senders sender) in
          let* _ := assert (negb (existsb is_psk ps)) in
          let* _ := tree_apply t ps senders in
          match cm_path c with
          | None => let* _ := assert (negb (proposal_list_needs_path ps)) in Ok t
          | Some u => passive_path P cs t ctx sender l u
          end
      | _ => Panic
      end
  end.
