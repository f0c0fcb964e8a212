(** Property C84: builds with and without overflow checks (SpecProfile.v). *)
From Verif Require Import ReleaseFacts.
From Verif Require Import SpecProfile SpecRatchet Examples TreeFacts.
From Coq Require Import ZArith.
Local Open Scope N_scope.

(* ------------------------------------------------------------------------------------------- *)
(** * C84 *)

(** The arithmetic of the two builds: one panics where the result does not fit, the other takes it modulo 2^32. *)
Theorem C84_arithmetic : forall a b, a < 4294967296 -> b < 4294967296 ->
  let x := Z.of_N a in let y := Z.of_N b in
  (checked (x + y) (ar_add dev a b) /\ checked (x - y) (ar_sub dev a b) /\ checked (x * y) (ar_mul dev a b) /\
   ar_shl dev a b = (if b <? 32 then Ok (Z.to_N ((x * 2 ^ y) mod 2 ^ 32)) else Panic) /\ ar_shr dev a b = (if b <? 32 then Ok (Z.to_N (x / 2 ^ y)) else Panic)) /\
  (wrapped (x + y) (ar_add release a b) /\ wrapped (x - y) (ar_sub release a b) /\ wrapped (x * y) (ar_mul release a b) /\
   wrapped (x * 2 ^ (y mod 32)) (ar_shl release a b) /\ wrapped (x / 2 ^ (y mod 32)) (ar_shr release a b)).
Proof. exact c84_arithmetic. Qed.
Print Assumptions C84_arithmetic.

(** Whatever returns in a dev build returns the same in a release build: the index arithmetic, *)
Theorem C84_math : forall n x i, same (width n) (width_w release n) /\ same (root n) (root_w release n) /\ same (level x) (level_w release x) /\
  same (node_index i) (node_index_w release i) /\ same (left x) (left_w release x) /\ same (right x) (right_w release x) /\
  same (children x) (children_w release x) /\ same (parent n x) (parent_w release n x) /\ same (sibling n x) (sibling_w release n x) /\
  same (direct_path n x) (direct_path_w release n x) /\ same (copath n x) (copath_w release n x).
Proof. exact c84_math. Qed.
Print Assumptions C84_math.

(** the calls that read a ratchet tree, *)
Theorem C84_read : forall P cs t x i l ctx now, same (get_leaf t i) (get_leaf_w release t i) /\ same (resolve t x) (resolve_w release t x) /\
  same (filtered_direct_path t x) (filtered_direct_path_w release t x) /\
  same (supported_creds t) (supported_creds_w release t) /\ same (keys t) (keys_w release t) /\
  same (find_leaf t l) (find_leaf_w release t l) /\ same (root_tree_hash P cs t) (root_tree_hash_w release P cs t) /\
  same (verify_parent_hashes P cs t) (verify_parent_hashes_w release P cs t) /\
  same (verify_integrity P t ctx now) (verify_integrity_w release P t ctx now).
Proof. exact c84_read. Qed.
Print Assumptions C84_read.

(** the calls that change one, *)
Theorem C84_write : forall P cs t i l u ps senders, same (tree_add t l) (tree_add_w release t l) /\ same (tree_update t i l) (tree_update_w release t i l) /\
  same (tree_remove t i) (tree_remove_w release t i) /\ same2 (merge_update_path P cs t i u) (merge_update_path_w release P cs t i u) /\
  same (tree_apply t ps senders) (tree_apply_w release t ps senders).
Proof. exact c84_write. Qed.
Print Assumptions C84_write.

(** and the secret tree and its ratchets. *)
Theorem C84_secrets : forall P cs n s r, same (new_secret_tree P cs n s) (new_secret_tree_w release P cs n s) /\
  same (derive_next P cs r) (derive_next_w release P cs r).
Proof. exact c84_secrets. Qed.
Print Assumptions C84_secrets.

(** The code of the dev build in the theorems above is the model of the other properties. *)
Theorem C84_dev : tree_apply_w dev = tree_apply /\ merge_update_path_w dev = merge_update_path /\ verify_integrity_w dev = verify_integrity /\
  copath_w dev = copath /\ new_secret_tree_w dev = new_secret_tree /\ derive_next_w dev = derive_next.
Proof. exact c84_dev. Qed.
Print Assumptions C84_dev.

(** Refuted beyond that. A release build takes a leaf index modulo 2^31: an index that names no leaf acts on a member. If the
    index modulo 2^31 names no leaf either, the call never returns. *)
Theorem C84_refuted_remove : forall t d i, shaped t d ->
  (i mod 2147483648 < 2 ^ d -> exists t', tree_remove_w release t i = Ok t' /\ tree_remove t (i mod 2147483648) = Ok t') /\
  (2 ^ d <= i mod 2147483648 -> tree_remove_w release t i = Hang).
Proof. exact c84_remove. Qed.
Print Assumptions C84_refuted_remove.

Theorem C84_refuted_update : forall t d i l, shaped t d ->
  (i mod 2147483648 < 2 ^ d -> exists t', tree_update_w release t i l = Ok t' /\ tree_update t (i mod 2147483648) l = Ok t') /\
  (2 ^ d <= i mod 2147483648 -> tree_update_w release t i l = Hang).
Proof. exact c84_update. Qed.
Print Assumptions C84_refuted_update.

Theorem C84_refuted_merge : forall P cs t d i u, shaped t d ->
  (returns (snd (merge_update_path P cs t (i mod 2147483648) u)) ->
   merge_update_path_w release P cs t i u = merge_update_path P cs t (i mod 2147483648) u) /\
  (2 ^ d <= i mod 2147483648 -> merge_update_path_w release P cs t i u = (t, Hang)).
Proof. exact c84_merge. Qed.
Print Assumptions C84_refuted_merge.

Theorem C84_refuted_get : forall t i, get_leaf_w release t i = get_leaf t (i mod 2147483648).
Proof. exact r_get_leaf. Qed.
Print Assumptions C84_refuted_get.

(** So the check that a committer does not remove itself can be passed by, for every tree and committer: *)
Theorem C84_refuted_committer : forall t d c, shaped t d -> c < 2 ^ d ->
  let ps := [PRemove (MkRemove (2147483648 + c))] in
  verify_proposal_list ps [c] c = Ok tt /\ exists t', tree_apply_w release t ps [c] = Ok t' /\ blank_at t' c.
Proof. exact c84_committer. Qed.
Print Assumptions C84_refuted_committer.

(** and an accepted removal of a leaf outside the tree keeps every receiver busy for ever, however many rounds of the loop
    one waits for. *)
Theorem C84_refuted_endless : forall t d c i, shaped t d -> c < 2 ^ d -> 2 ^ d <= i -> i < 2147483648 ->
  let ps := [PRemove (MkRemove i)] in
  verify_proposal_list ps [c] c = Ok tt /\ tree_apply_w release t ps [c] = Hang /\
  forall rounds, climb_w release rounds (num_leaves t) (2 * i) = Hang.
Proof. exact c84_endless. Qed.
Print Assumptions C84_refuted_endless.

(** The level of a node: the two builds differ for the index 2^32 - 1 only, for which the loop of the release build does not end. *)
Theorem C84_refuted_level : forall x rounds l, (x < 4294967295 -> level_w release x = level x) /\ level_loop_w release rounds 4294967295 l = Hang.
Proof. exact c84_level. Qed.
Print Assumptions C84_refuted_level.

(** The ratchet of a release build counts modulo 2^32: generation numbers repeat. *)
Theorem C84_refuted_generation : forall P cs r r', derive_next_w release P cs r = Ok r' <->
  exists k s, p_hpke P cs = Ok k /\ derive_tree_secret P cs (rt_secret r) (str "secret") (rt_generation r) (k_extract_size k mod 65536) = Ok s /\
    r' = MkRatchet s ((rt_generation r + 1) mod 4294967296).
Proof. exact c84_next. Qed.
Print Assumptions C84_refuted_generation.

Example C84_example : good ex_tree 2 /\ 1 < 2 ^ 2 /\ (exists t', tree_remove ex_tree 1 = Ok t' /\ tree_remove_w release ex_tree 2147483649 = Ok t') /\
  tree_remove ex_tree 2147483649 = Panic /\ tree_remove ex_tree 9 = Panic /\ tree_remove_w release ex_tree 9 = Hang /\
  returns (copath 8 4) /\ returns (tree_remove ex_tree 1).
Proof.
  split; [exact ex_tree_good|]. split; [reflexivity|]. split; [eexists; split; vm_compute; reflexivity|].
  split; [vm_compute; reflexivity|]. split; [vm_compute; reflexivity|]. split; [vm_compute; reflexivity|].
  split; left; eexists; vm_compute; reflexivity.
Qed.
