(** Property C81: who knows the private keys of a ratchet tree. The bookkeeping is in SpecKnow.v. *)
From Verif Require Import KnowFacts.
From Verif Require Import SpecKnow Examples HashFacts TreeFacts.
Local Open Scope N_scope.

(* ------------------------------------------------------------------------------------------- *)
(** * C81 *)

(** At any time in the life of a group, the people who ever learnt the private key of a node of the tree are exactly those at
    the non-blank leaf itself, or at non-blank leaves below the node where they are not unmerged. *)
Theorem C81_exactly : forall P cs w, story P cs w -> forall x k, key_of (w_tree w) x = Some k ->
  forall q, learnt w q k <-> exists m, whose w m = q /\ entitled (w_tree w) x m.
Proof. exact c81_exactly. Qed.
Print Assumptions C81_exactly.

(** Someone who is at no leaf of the tree, say because of a removal, has learnt none of its keys, and no update path tells it
    any key. *)
Theorem C81_outsider : forall P cs w q, story P cs w -> (forall m, ~ blank_at (w_tree w) m -> whose w m <> q) ->
  (forall x k, key_of (w_tree w) x = Some k -> ~ learnt w q k) /\ (forall i u k, ~ told w i u q k).
Proof. exact c81_outsider. Qed.
Print Assumptions C81_outsider.

(** An update path that merges tells every other member the key of its last node, the one from whose path secret the commit
    secret is derived. *)
Theorem C81_reaches : forall P cs w i u t' m n, story P cs w -> merge_update_path P cs (w_tree w) i u = (t', Ok tt) ->
  ~ blank_at (w_tree w) m -> m <> i -> nth_error (up_nodes u) (length (up_nodes u) - 1) = Some n ->
  told w i u (whose w m) (upn_encryption_key n).
Proof. exact c81_reaches. Qed.
Print Assumptions C81_reaches.

(** [ex_w5]: person 0 makes a group, adds persons 1 and 2, merges an update path and adds person 3. [ex_w6]: it then removes
    person 1, which still has the key [x88], so that the root is blank. *)
Example C81_example : story toy Suite1 ex_w5 /\ key_of (w_tree ex_w5) 3 = Some [x88] /\ (forall q, learnt ex_w5 q [x88] <-> (q < 3)%nat) /\
  story toy Suite1 ex_w6 /\ key_of (w_tree ex_w6) 3 = None /\ (forall m, ~ blank_at (w_tree ex_w6) m -> whose ex_w6 m <> 1%nat) /\ learnt ex_w6 1%nat [x88].
Proof. exact c81_example. Qed.
Example C81_reaches_example : story toy Suite1 ex_w3 /\ merge_update_path toy Suite1 (w_tree ex_w3) 0 ex_path3 = (ex_merged3, Ok tt) /\
  ~ blank_at (w_tree ex_w3) 2 /\ nth_error (up_nodes ex_path3) 1 = Some (MkUpdatePathNode [x88] []).
Proof. exact c81_reaches_example. Qed.
