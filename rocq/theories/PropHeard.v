(** Property C131: whoever is not alone can commit, send the commit and be understood, again and again (SpecHeard.v). *)
From Coq Require Import Strings.Byte.
From Verif Require Import HeardFacts SpecProvider PrimFacts Primitives BundledSend HostBundled.
From Verif Require Import SpecHeard SpecAble SpecRatchet SpecMembers SpecMessages SpecSendable SpecSecrets SpecProposals PassiveCommit SendableFacts.
Local Open Scope N_scope.

(* ------------------------------------------------------------------------------------------- *)
(** * C131 *)

(** A member who is not alone picks keys that no member has, for their leaf and for the nodes of their filtered direct path. Then there is a commit with
    these keys, to any valid list of proposals that can be carried out, that can be sent, and the clients of the epoch accept what was sent. Afterwards the leaf is the old one
    but for the key, and the tree can be committed to again. *)
Theorem C131_heard : forall P cs sa h k t d ctx epoch mk i l j sk ek ns fp ad ps, p_sig P cs = Ok sa -> hashes P cs h -> tags P cs -> p_hpke P cs = Ok k -> good t d -> encodes t ->
  committer P cs t i l sk -> j <> i -> ~ blank_at t j -> expand_label k epoch (str "membership") [] (nh k) = Ok mk -> handy ctx ad ps ->
  valid_list ps (repeat i (length ps)) i -> (forall p, In p ps -> psk_of p = None) -> (exists t2, tree_apply t ps (repeat i (length ps)) = Ok t2) ->
  filtered_direct_path t (2 * i) = Ok fp -> length ns = length fp -> within 134217728 (se_vector se_update_path_node ns) ->
  N.of_nat (length ek) < 65536 -> unused t ek -> Forall (fun n => fits30 (upn_encryption_key n) /\ unused t (upn_encryption_key n)) ns ->
  exists l' b t', renewed l ek l' /\ send_public P cs ctx sk mk (commit_of ctx i ad ps (Some (MkUpdatePath l' ns))) = Ok b /\
    passive_commit P cs t ctx epoch b = Ok t' /\ merged P cs t d i (MkUpdatePath l' ns) t' /\ good t' d /\ encodes t'.
Proof. exact c131_path. Qed.
Print Assumptions C131_heard.

(** Anyone, also a member who is alone, can commit without a path to proposals that need none. The clients accept it; their tree does not change (C94). *)
Theorem C131_plain : forall P cs sa h k t d ctx epoch mk i l sk ad ps, p_sig P cs = Ok sa -> p_hash P cs = Ok h -> tags P cs -> p_hpke P cs = Ok k -> shaped t d ->
  leaf_at t i = Some l -> signs P cs sk -> key_pair_ok P cs sk (signature_key l) -> expand_label k epoch (str "membership") [] (nh k) = Ok mk -> handy ctx ad ps ->
  valid_list ps (repeat i (length ps)) i -> (forall p, In p ps -> psk_of p = None) -> (exists t2, tree_apply t ps (repeat i (length ps)) = Ok t2) ->
  ps <> [] -> (forall p, In p ps -> ~ wants_path p) ->
  exists b, send_public P cs ctx sk mk (commit_of ctx i ad ps None) = Ok b /\ passive_commit P cs t ctx epoch b = Ok t.
Proof. exact c131_plain. Qed.
Print Assumptions C131_plain.

(** Whoever could commit before can commit afterwards: the committer with the new leaf, the others with theirs. *)
Theorem C131_again : forall P cs t d i l ek l' ns t' sk, committer P cs t i l sk -> renewed l ek l' -> merged P cs t d i (MkUpdatePath l' ns) t' ->
  committer P cs t' i l' sk /\ forall j m skj, j <> i -> committer P cs t j m skj -> committer P cs t' j m skj.
Proof. exact c131_again. Qed.
Print Assumptions C131_again.

(** There is always a key that no member has. *)
Theorem C131_unused : forall t d, shaped t d -> exists k, length k = 8%nat /\ unused t k.
Proof. exact some_unused. Qed.
Print Assumptions C131_unused.

(** So in a group of two or more, any members can commit, in any order and any number of times, whatever the contexts and epoch secrets of their epochs. *)
Theorem C131_forever : forall P cs sa h k d a b, p_sig P cs = Ok sa -> hashes P cs h -> tags P cs -> p_hpke P cs = Ok k -> a <> b ->
  forall rs t, good t d -> encodes t -> ~ blank_at t a -> ~ blank_at t b ->
  Forall (fun r => (exists l, committer P cs t (rd_place r) l (rd_key r)) /\ handy (rd_context r) [] [] /\
    exists mk, expand_label k (rd_epoch r) (str "membership") [] (nh k) = Ok mk) rs ->
  exists t', session P cs t rs t'.
Proof. exact c131_forever. Qed.
Print Assumptions C131_forever.

(** Both bundled providers meet the conditions, if the libraries are as specified. *)
Theorem C131_bundled : forall p P cs sk, sized_prims p -> bundled p P -> In cs (p_supported P) -> sign_prims p cs sk ->
  (exists h, hashes P cs h) /\ tags P cs /\ signs P cs sk.
Proof. exact c131_bundled. Qed.
Print Assumptions C131_bundled.

(** Three members; the first, the third and again the first commit. *)
Example C131_example : exists t', session modest Suite1 hd_three
  [MkRound 0 [x01; x21] (hd_ctx 0) (str "first"); MkRound 2 [x03; x21] (hd_ctx 1) (str "second"); MkRound 0 [x01; x21] (hd_ctx 2) (str "third")] t'.
Proof. exact c131_example. Qed.

(** The third member commits with new keys, adding a fourth one. *)
Example C131_heard_example : exists mk l' b t', expand_label modest_hpke (str "first") (str "membership") [] (nh modest_hpke) = Ok mk /\ renewed (hd_leaf x03) (str "new key") l' /\
  send_public modest Suite1 (hd_ctx 0) [x03; x21] mk (commit_of (hd_ctx 0) 2 [x77] [hd_add] (Some (MkUpdatePath l' [MkUpdatePathNode (str "root") []]))) = Ok b /\
  passive_commit modest Suite1 hd_three (hd_ctx 0) (str "first") b = Ok t'.
Proof. exact c131_heard_example. Qed.
(** The first one adds them without a path. *)
Example C131_plain_example : exists mk b, expand_label modest_hpke (str "first") (str "membership") [] (nh modest_hpke) = Ok mk /\
  send_public modest Suite1 (hd_ctx 0) [x01; x21] mk (commit_of (hd_ctx 0) 0 [x77] [hd_add] None) = Ok b /\ passive_commit modest Suite1 hd_three (hd_ctx 0) (str "first") b = Ok hd_three.
Proof. exact c131_plain_example. Qed.
(** The primitives as their standards define them. *)
Example C131_real : forall sk, length sk = 32%nat -> (exists h, hashes (rust_provider real_prims) Suite1 h) /\ tags (rust_provider real_prims) Suite1 /\ signs (rust_provider real_prims) Suite1 sk.
Proof. intros sk L. apply (c131_bundled real_prims); [exact real_sized|left; reflexivity|left; reflexivity|apply real_signs; [left; reflexivity|exact L]]. Qed.
