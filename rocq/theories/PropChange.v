(** Property C133: any member can change who is a member (SpecChange.v). *)
From Coq Require Import Strings.Byte.
From Verif Require Import HeardFacts ChangeFacts.
From Verif Require Import SpecChange SpecAble SpecRatchet SpecMembers SpecMessages SpecSendable SpecSecrets SpecProposals PassiveCommit SendableFacts.
Local Open Scope N_scope.

(* ------------------------------------------------------------------------------------------- *)
(** * C133 *)

(** A member who is not alone can remove any others and add whom they like, in one commit, if there is room for the new ones: the commit can be sent, the clients of the epoch
    accept it, and carrying out its proposals gives the tree with exactly these changes. *)
Theorem C133_change : forall P cs sa h k t d ctx epoch mk i l j sk ad out new, p_sig P cs = Ok sa -> hashes P cs h -> tags P cs -> p_hpke P cs = Ok k -> good t d -> encodes t ->
  committer P cs t i l sk -> j <> i -> ~ blank_at t j -> expand_label k epoch (str "membership") [] (nh k) = Ok mk -> handy ctx ad (changes out new) ->
  sensible t i out new -> 2 ^ d + N.of_nat (length new) <= 1073741824 -> room_for t d (changes out new) ->
  exists u b t1 t2 d2, send_public P cs ctx sk mk (commit_of ctx i ad (changes out new) (Some u)) = Ok b /\ passive_commit P cs t ctx epoch b = Ok t1 /\
    tree_apply t (changes out new) (repeat i (length (changes out new))) = Ok t2 /\ good t2 d2 /\ changed t out new t2.
Proof. exact c133_change. Qed.
Print Assumptions C133_change.

(** Removing needs no room: afterwards the members are those who were not removed, at their places. *)
Theorem C133_remove : forall P cs sa h k t d ctx epoch mk i l j sk ad out, p_sig P cs = Ok sa -> hashes P cs h -> tags P cs -> p_hpke P cs = Ok k -> good t d -> encodes t ->
  committer P cs t i l sk -> j <> i -> ~ blank_at t j -> expand_label k epoch (str "membership") [] (nh k) = Ok mk -> handy ctx ad (changes out []) ->
  sensible t i out [] -> d <= 30 ->
  exists u b t1 t2 d2, send_public P cs ctx sk mk (commit_of ctx i ad (changes out []) (Some u)) = Ok b /\ passive_commit P cs t ctx epoch b = Ok t1 /\
    tree_apply t (changes out []) (repeat i (length (changes out []))) = Ok t2 /\ good t2 d2 /\
    forall x l, leaf_at t2 x = Some l <-> leaf_at t x = Some l /\ ~ In x out.
Proof. exact c133_remove. Qed.
Print Assumptions C133_remove.

(** Adding needs no path, and a member who is alone can do it. *)
Theorem C133_add : forall P cs sa h k t d ctx epoch mk i l sk ad new, p_sig P cs = Ok sa -> p_hash P cs = Ok h -> tags P cs -> p_hpke P cs = Ok k -> good t d ->
  leaf_at t i = Some l -> signs P cs sk -> key_pair_ok P cs sk (signature_key l) -> expand_label k epoch (str "membership") [] (nh k) = Ok mk -> handy ctx ad (changes [] new) ->
  sensible t i [] new -> new <> [] -> 2 ^ d + N.of_nat (length new) <= 1073741824 -> room_for t d (changes [] new) ->
  exists b t2 d2, send_public P cs ctx sk mk (commit_of ctx i ad (changes [] new) None) = Ok b /\ passive_commit P cs t ctx epoch b = Ok t /\
    tree_apply t (changes [] new) (repeat i (length (changes [] new))) = Ok t2 /\ good t2 d2 /\ changed t [] new t2.
Proof. exact c133_add. Qed.
Print Assumptions C133_add.

(** The third of three members removes the first and adds a fourth, *)
Example C133_example : exists mk u b t1 t2, expand_label modest_hpke (str "first") (str "membership") [] (nh modest_hpke) = Ok mk /\
  send_public modest Suite1 (hd_ctx 0) [x03; x21] mk (commit_of (hd_ctx 0) 2 [x77] (changes [0] [cg_new]) (Some u)) = Ok b /\ passive_commit modest Suite1 hd_three (hd_ctx 0) (str "first") b = Ok t1 /\
  tree_apply hd_three (changes [0] [cg_new]) [2; 2] = Ok t2 /\ changed hd_three [0] [cg_new] t2.
Proof. exact c133_example. Qed.
(** or removes both others, *)
Example C133_remove_example : exists mk u b t1 t2, expand_label modest_hpke (str "first") (str "membership") [] (nh modest_hpke) = Ok mk /\
  send_public modest Suite1 (hd_ctx 0) [x03; x21] mk (commit_of (hd_ctx 0) 2 [x77] (changes [0; 1] []) (Some u)) = Ok b /\ passive_commit modest Suite1 hd_three (hd_ctx 0) (str "first") b = Ok t1 /\
  tree_apply hd_three (changes [0; 1] []) [2; 2] = Ok t2 /\ forall x l, leaf_at t2 x = Some l <-> leaf_at hd_three x = Some l /\ ~ In x [0; 1].
Proof. exact c133_remove_example. Qed.
(** or adds a fourth. *)
Example C133_add_example : exists mk b t2, expand_label modest_hpke (str "first") (str "membership") [] (nh modest_hpke) = Ok mk /\
  send_public modest Suite1 (hd_ctx 0) [x03; x21] mk (commit_of (hd_ctx 0) 2 [x77] (changes [] [cg_new]) None) = Ok b /\ passive_commit modest Suite1 hd_three (hd_ctx 0) (str "first") b = Ok hd_three /\
  tree_apply hd_three (changes [] [cg_new]) [2] = Ok t2 /\ changed hd_three [] [cg_new] t2.
Proof. exact c133_add_example. Qed.
