(** Property C134: in a group whose changes are checked, everybody can commit, and the group stays like that. *)
From Coq Require Import Strings.Byte.
From Verif Require Import FullFacts SpecFull FullAdd.
From Verif Require Import SpecInvitable InvitableFacts SpecHeard SpecStays SpecAble SpecRatchet SpecMembers SpecMessages SpecSendable SpecSecrets SpecProposals PassiveCommit SendableFacts SpecChange.
Local Open Scope N_scope.

(* ------------------------------------------------------------------------------------------- *)
(** * C134 *)

(** In a group that grew from its first member by changes that were checked as C95 asks for, every member who has the key of their leaf is one whose commits C131 is about. *)
Theorem C134_everybody : forall P cs g now first t i l sk, fit P cs g now [] 0 first -> fit_history P cs g now [Some (Leaf first)] t ->
  leaf_at t i = Some l -> signs P cs sk -> key_pair_ok P cs sk (signature_key l) -> wf_leaf_node l -> within 134217728 (lasting l) -> committer P cs t i l sk.
Proof. exact c134_everybody. Qed.
Print Assumptions C134_everybody.

(** If there is another member, they can commit with any new keys, all different, to any valid list of proposals that can be carried out. The clients of the epoch accept it,
    and unless a hash coincides with one that is elsewhere in the tree, the tree with the new keys is again one that grew by checked changes: so everybody can commit to it, and others can join (C95, C132). *)
Theorem C134_commit : forall P cs sa h k now first t ctx epoch mk i l j sk ek ns fp ad ps, p_sig P cs = Ok sa -> hashes P cs h -> tags P cs -> p_hpke P cs = Ok k ->
  fit P cs (gc_group_id ctx) now [] 0 first -> fit_history P cs (gc_group_id ctx) now [Some (Leaf first)] t -> encodes t ->
  leaf_at t i = Some l -> signs P cs sk -> key_pair_ok P cs sk (signature_key l) -> wf_leaf_node l -> within 134217728 (lasting l) ->
  j <> i -> ~ blank_at t j -> expand_label k epoch (str "membership") [] (nh k) = Ok mk -> handy ctx ad ps ->
  valid_list ps (repeat i (length ps)) i -> (forall p, In p ps -> psk_of p = None) -> (exists t2, tree_apply t ps (repeat i (length ps)) = Ok t2) ->
  filtered_direct_path t (2 * i) = Ok fp -> length ns = length fp -> within 134217728 (se_vector se_update_path_node ns) ->
  N.of_nat (length ek) < 65536 -> Forall (fun n => fits30 (upn_encryption_key n)) ns ->
  NoDup (ek :: map upn_encryption_key ns) -> ~ used_key t ek -> (forall n, In n ns -> ~ used_key t (upn_encryption_key n)) ->
  exists l' b t', renewed l ek l' /\ send_public P cs ctx sk mk (commit_of ctx i ad ps (Some (MkUpdatePath l' ns))) = Ok b /\
    passive_commit P cs t ctx epoch b = Ok t' /\ encodes t' /\
    (~ coincidence P cs t' i -> fit_history P cs (gc_group_id ctx) now [Some (Leaf first)] t').
Proof. exact c134_commit. Qed.
Print Assumptions C134_commit.

(** There are always such keys. *)
Theorem C134_keys : forall t d i, good t d -> i < 2 ^ d -> exists ek ns fp, filtered_direct_path t (2 * i) = Ok fp /\ length ns = length fp /\ within 134217728 (se_vector se_update_path_node ns) /\
  N.of_nat (length ek) < 65536 /\ Forall (fun n => fits30 (upn_encryption_key n)) ns /\
  NoDup (ek :: map upn_encryption_key ns) /\ ~ used_key t ek /\ (forall n, In n ns -> ~ used_key t (upn_encryption_key n)).
Proof. exact c134_keys. Qed.
Print Assumptions C134_keys.

(** When a member has removed others, the tree is again such a tree, with that member. *)
Theorem C134_remove : forall P cs g now first i l, fit P cs g now [] 0 first -> forall out t t2, fit_history P cs g now [Some (Leaf first)] t ->
  leaf_at t i = Some l -> sensible t i out [] -> tree_apply t (changes out []) (repeat i (length (changes out []))) = Ok t2 ->
  fit_history P cs g now [Some (Leaf first)] t2 /\ leaf_at t2 i = Some l.
Proof. exact c134_remove. Qed.
Print Assumptions C134_remove.

(** When new members were added who fit in and get along, the tree is again such a tree too. *)
Theorem C134_add : forall P cs g now first i new t d t2, fit_history P cs g now [Some (Leaf first)] t -> good t d -> places_for t d (length new) ->
  Forall (comes P cs g now t) new -> ForallOrdPairs get_along new -> tree_apply t (changes [] new) (repeat i (length new)) = Ok t2 -> fit_history P cs g now [Some (Leaf first)] t2.
Proof. exact c134_add. Qed.
Print Assumptions C134_add.

(** So it is when a member removes some and adds others at once, if the new ones fit in and get along in the tree without those removed. *)
Theorem C134_change : forall P cs g now first i l out new t t1 d1 t2, fit P cs g now [] 0 first -> fit_history P cs g now [Some (Leaf first)] t -> leaf_at t i = Some l -> sensible t i out [] ->
  tree_apply t (changes out []) (repeat i (length (changes out []))) = Ok t1 -> good t1 d1 -> places_for t1 d1 (length new) ->
  Forall (comes P cs g now t1) new -> ForallOrdPairs get_along new -> tree_apply t (changes out new) (repeat i (length (changes out new))) = Ok t2 ->
  fit_history P cs g now [Some (Leaf first)] t2 /\ tree_apply t1 (changes [] new) (repeat i (length new)) = Ok t2.
Proof. exact c134_change. Qed.
Print Assumptions C134_change.

(** The second of three members commits. *)
Example C134_example : exists mk l' ek ns b t', expand_label modest_hpke (str "epoch") (str "membership") [] (nh modest_hpke) = Ok mk /\ renewed (ho_leaf x02) ek l' /\
  send_public hosting Suite1 ho_ctx [x02; x21] mk (commit_of ho_ctx 1 [] [] (Some (MkUpdatePath l' ns))) = Ok b /\ passive_commit hosting Suite1 ho_tree ho_ctx (str "epoch") b = Ok t' /\
  (~ coincidence hosting Suite1 t' 1 -> fit_history hosting Suite1 (str "group") (fun _ => 0%Z) [Some (Leaf (ho_leaf x01))] t').
Proof. exact c134_example. Qed.
(** Or they remove the first. *)
Example C134_remove_example : exists t2, tree_apply ho_tree (changes [0] []) [1] = Ok t2 /\ fit_history hosting Suite1 (str "group") (fun _ => 0%Z) [Some (Leaf (ho_leaf x01))] t2 /\ leaf_at t2 0 = None.
Proof. exact c134_remove_example. Qed.
(** The first member adds the two others. *)
Example C134_add_example : exists t2, tree_apply [Some (Leaf (ho_leaf x01))] (changes [] [ho_package x02; ho_package x03]) [0; 0] = Ok t2 /\
  fit_history hosting Suite1 (str "group") (fun _ => 0%Z) [Some (Leaf (ho_leaf x01))] t2 /\ leaf_at t2 2 = Some (ho_leaf x03).
Proof. exact c134_add_example. Qed.
(** The first of three members removes the second and adds them again. *)
Example C134_change_example : exists t1 t2, tree_apply ho_tree (changes [1] []) [0] = Ok t1 /\ leaf_at t1 1 = None /\ tree_apply ho_tree (changes [1] [ho_package x02]) [0; 0] = Ok t2 /\
  fit_history hosting Suite1 (str "group") (fun _ => 0%Z) [Some (Leaf (ho_leaf x01))] t2 /\ leaf_at t2 1 = Some (ho_leaf x02).
Proof. exact c134_change_example. Qed.
