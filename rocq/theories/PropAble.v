(** Property C127: whoever is not alone can commit (SpecAble.v). *)
From Verif Require Import AbleFacts AbleMore.
From Verif Require Import SpecAble SpecRatchet SpecSecrets Examples ExProvider KeyFacts HashFacts TreeFacts.
Local Open Scope N_scope.

(* ------------------------------------------------------------------------------------------- *)
(** * C127 *)

(** Whatever keys a member who is not alone picks for the nodes of their filtered direct path, there is one parent hash that makes their
    update path acceptable: with it in the leaf the path is accepted whatever else the leaf says, without it the path is rejected for that reason. *)
Theorem C127_one_hash : forall P cs h t d i j ns fp, good t d -> encodes t -> i < 2 ^ d -> j <> i -> ~ blank_at t j ->
  p_hash P cs = Ok h -> (forall b, fits30 (h_digest h b)) -> filtered_direct_path t (2 * i) = Ok fp ->
  length ns = length fp -> Forall (fun n => fits30 (upn_encryption_key n)) ns ->
  exists ph, fits30 ph /\ forall l, exists t' r, merge_update_path P cs t i (MkUpdatePath l ns) = (t', r) /\
    (lp_source (ln_payload l) = LSCommit ph -> r = Ok tt) /\
    (lp_source (ln_payload l) <> LSCommit ph -> r = Err ParentHashMismatchForUpdatePathLeafNode).
Proof. exact c127_some. Qed.
Print Assumptions C127_one_hash.

(** The keys that can be committed to are exactly those of the right number that can be encoded. *)
Theorem C127_keys : forall P cs h t d i j ns fp, good t d -> encodes t -> i < 2 ^ d -> j <> i -> ~ blank_at t j ->
  p_hash P cs = Ok h -> (forall b, fits30 (h_digest h b)) -> filtered_direct_path t (2 * i) = Ok fp ->
  ((exists l t', merge_update_path P cs t i (MkUpdatePath l ns) = (t', Ok tt)) <->
   length ns = length fp /\ Forall (fun n => fits30 (upn_encryption_key n)) ns).
Proof. exact c127_iff. Qed.
Print Assumptions C127_keys.

(** An accepted update path whose leaf can be encoded leaves a tree that meets the same conditions. *)
Theorem C127_again : forall P cs t d i u t' b, good t d -> encodes t -> i < 2 ^ d -> merge_update_path P cs t i u = (t', Ok tt) ->
  se_leaf_node (up_leaf u) = Ok b -> good t' d /\ encodes t'.
Proof. exact c127_kept. Qed.
Print Assumptions C127_again.

(** So a group of two or more is never stuck: any places can commit in any order, any number of times. *)
Theorem C127_never_stuck : forall P cs h d a b, p_hash P cs = Ok h -> (forall b, fits30 (h_digest h b)) -> a <> b ->
  forall is t, good t d -> encodes t -> ~ blank_at t a -> ~ blank_at t b -> Forall (fun i => i < 2 ^ d) is ->
  exists t', commits P cs t is t' /\ good t' d /\ encodes t'.
Proof. exact c127_never. Qed.
Print Assumptions C127_never_stuck.

(** Three members; the first one commits to two keys. *)
Example C127_example : good ex_three 2 /\ encodes ex_three /\ ~ blank_at ex_three 2 /\ p_hash fixed Suite1 = Ok fixed_hash /\ (forall b, fits30 (h_digest fixed_hash b)) /\
  filtered_direct_path ex_three (2 * 0) = Ok [1; 3] /\
  exists l t', merge_update_path fixed Suite1 ex_three 0 (MkUpdatePath l [MkUpdatePathNode [x77] []; MkUpdatePathNode [x88] []]) = (t', Ok tt).
Proof. exact c127_example. Qed.

(** What it takes for a tree to be encodable: keys and hashes below 2^30 bytes, and fewer than 2^28 unmerged leaves at each node. *)
Theorem C127_encodable : forall t, encodes t <-> forall x nd, tget t x = Some nd ->
  match nd with
  | Leaf l => exists b, se_leaf_node l = Ok b
  | Parent p => fits30 (pn_encryption_key p) /\ fits30 (pn_parent_hash p) /\ N.of_nat (length (pn_unmerged p)) < 268435456
  end.
Proof. exact c127_encodable. Qed.
Print Assumptions C127_encodable.

(** Additions, updates, removals and update paths with encodable leaves keep a tree well-formed and encodable while it has at most 2^27 places. *)
Theorem C127_life : forall P cs t d t' d', good t d -> encodes t -> sound_history P cs t t' -> tsized t' d' -> d' <= 27 -> good t' d' /\ encodes t'.
Proof. exact c127_life. Qed.
Print Assumptions C127_life.

(** So in every group that grew from one member in any way, each member who is not alone can commit. *)
Theorem C127_any_group : forall P cs l b t d i j ns fp h, se_leaf_node l = Ok b -> sound_history P cs [Some (Leaf l)] t -> tsized t d -> d <= 27 ->
  p_hash P cs = Ok h -> (forall b, fits30 (h_digest h b)) -> ~ blank_at t i -> j <> i -> ~ blank_at t j -> filtered_direct_path t (2 * i) = Ok fp ->
  length ns = length fp -> Forall (fun n => fits30 (upn_encryption_key n)) ns ->
  exists ph, fits30 ph /\ forall l, exists t' r, merge_update_path P cs t i (MkUpdatePath l ns) = (t', r) /\
    (lp_source (ln_payload l) = LSCommit ph -> r = Ok tt) /\
    (lp_source (ln_payload l) <> LSCommit ph -> r = Err ParentHashMismatchForUpdatePathLeafNode).
Proof. exact c127_born. Qed.
Print Assumptions C127_any_group.

Example C127_any_group_example : exists b, se_leaf_node (ex_leaf x01) = Ok b /\ sound_history fixed Suite1 [Some (Leaf (ex_leaf x01))] ex_three /\ tsized ex_three 2 /\
  ~ blank_at ex_three 0 /\ ~ blank_at ex_three 2.
Proof. exact c127_born_example. Qed.
