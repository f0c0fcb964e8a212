(** Facts about the two build profiles (Profile.v). *)
From Verif Require Import Profile.
Local Open Scope N_scope.

(** * The functions of the dev profile are those of the model *)

#[global] Hint Rewrite (eq_refl : ar_add dev = add32) : dev.
Lemma dev_width : width_w dev = width.
Proof. unfold width_w, width. cbn [dev ar_add ar_sub ar_mul ar_shl ar_shr]. autorewrite with dev. reflexivity. Qed.
#[global] Hint Rewrite dev_width : dev.
Lemma dev_root : root_w dev = root.
Proof. unfold root_w, root. cbn [dev ar_add ar_sub ar_mul ar_shl ar_shr]. autorewrite with dev. reflexivity. Qed.
#[global] Hint Rewrite dev_root : dev.
Lemma dev_level_loop : level_loop_w dev = level_loop.
Proof. unfold level_loop_w, level_loop. cbn [dev ar_add ar_sub ar_mul ar_shl ar_shr]. autorewrite with dev. reflexivity. Qed.
#[global] Hint Rewrite dev_level_loop : dev.
Lemma dev_level : level_w dev = level.
Proof. unfold level_w, level. cbn [dev ar_add ar_sub ar_mul ar_shl ar_shr]. autorewrite with dev. reflexivity. Qed.
#[global] Hint Rewrite dev_level : dev.
Lemma dev_node_index : node_index_w dev = node_index.
Proof. unfold node_index_w, node_index. cbn [dev ar_add ar_sub ar_mul ar_shl ar_shr]. autorewrite with dev. reflexivity. Qed.
#[global] Hint Rewrite dev_node_index : dev.
Lemma dev_left : left_w dev = left.
Proof. unfold left_w, left. cbn [dev ar_add ar_sub ar_mul ar_shl ar_shr]. autorewrite with dev. reflexivity. Qed.
#[global] Hint Rewrite dev_left : dev.
Lemma dev_right : right_w dev = right.
Proof. unfold right_w, right. cbn [dev ar_add ar_sub ar_mul ar_shl ar_shr]. autorewrite with dev. reflexivity. Qed.
#[global] Hint Rewrite dev_right : dev.
Lemma dev_children : children_w dev = children.
Proof. unfold children_w, children. cbn [dev ar_add ar_sub ar_mul ar_shl ar_shr]. autorewrite with dev. reflexivity. Qed.
#[global] Hint Rewrite dev_children : dev.
Lemma dev_parent : parent_w dev = parent.
Proof. unfold parent_w, parent. cbn [dev ar_add ar_sub ar_mul ar_shl ar_shr]. autorewrite with dev. reflexivity. Qed.
#[global] Hint Rewrite dev_parent : dev.
Lemma dev_sibling : sibling_w dev = sibling.
Proof. unfold sibling_w, sibling. cbn [dev ar_add ar_sub ar_mul ar_shl ar_shr]. autorewrite with dev. reflexivity. Qed.
#[global] Hint Rewrite dev_sibling : dev.
Lemma dev_climb : climb_w dev = climb.
Proof. unfold climb_w, climb. cbn [dev ar_add ar_sub ar_mul ar_shl ar_shr]. autorewrite with dev. reflexivity. Qed.
#[global] Hint Rewrite dev_climb : dev.
Lemma dev_direct_path : direct_path_w dev = direct_path.
Proof. unfold direct_path_w, direct_path. cbn [dev ar_add ar_sub ar_mul ar_shl ar_shr]. autorewrite with dev. reflexivity. Qed.
#[global] Hint Rewrite dev_direct_path : dev.
Lemma dev_siblings : siblings_w dev = siblings.
Proof. unfold siblings_w, siblings. cbn [dev ar_add ar_sub ar_mul ar_shl ar_shr]. autorewrite with dev. reflexivity. Qed.
#[global] Hint Rewrite dev_siblings : dev.
Lemma dev_copath : copath_w dev = copath.
Proof. unfold copath_w, copath. cbn [dev ar_add ar_sub ar_mul ar_shl ar_shr]. autorewrite with dev. reflexivity. Qed.
#[global] Hint Rewrite dev_copath : dev.
Lemma dev_get_leaf : get_leaf_w dev = get_leaf.
Proof. unfold get_leaf_w, get_leaf. cbn [dev ar_add ar_sub ar_mul ar_shl ar_shr]. autorewrite with dev. reflexivity. Qed.
#[global] Hint Rewrite dev_get_leaf : dev.
Lemma dev_node_indices : node_indices_w dev = node_indices.
Proof. unfold node_indices_w, node_indices. cbn [dev ar_add ar_sub ar_mul ar_shl ar_shr]. autorewrite with dev. reflexivity. Qed.
#[global] Hint Rewrite dev_node_indices : dev.
Lemma dev_resolve_f : resolve_f_w dev = resolve_f.
Proof. unfold resolve_f_w, resolve_f. cbn [dev ar_add ar_sub ar_mul ar_shl ar_shr]. autorewrite with dev. reflexivity. Qed.
#[global] Hint Rewrite dev_resolve_f : dev.
Lemma dev_resolve : resolve_w dev = resolve.
Proof. unfold resolve_w, resolve. cbn [dev ar_add ar_sub ar_mul ar_shl ar_shr]. autorewrite with dev. reflexivity. Qed.
#[global] Hint Rewrite dev_resolve : dev.
Lemma dev_leaves_from : leaves_from_w dev = leaves_from.
Proof. unfold leaves_from_w, leaves_from. cbn [dev ar_add ar_sub ar_mul ar_shl ar_shr]. autorewrite with dev. reflexivity. Qed.
#[global] Hint Rewrite dev_leaves_from : dev.
Lemma dev_leaves : leaves_w dev = leaves.
Proof. unfold leaves_w, leaves. cbn [dev ar_add ar_sub ar_mul ar_shl ar_shr]. autorewrite with dev. reflexivity. Qed.
#[global] Hint Rewrite dev_leaves : dev.
Lemma dev_supported_creds : supported_creds_w dev = supported_creds.
Proof. unfold supported_creds_w, supported_creds. cbn [dev ar_add ar_sub ar_mul ar_shl ar_shr]. autorewrite with dev. reflexivity. Qed.
#[global] Hint Rewrite dev_supported_creds : dev.
Lemma dev_keys : keys_w dev = keys.
Proof. unfold keys_w, keys. cbn [dev ar_add ar_sub ar_mul ar_shl ar_shr]. autorewrite with dev. reflexivity. Qed.
#[global] Hint Rewrite dev_keys : dev.
Lemma dev_tree_hash_f : tree_hash_f_w dev = tree_hash_f.
Proof. unfold tree_hash_f_w, tree_hash_f. cbn [dev ar_add ar_sub ar_mul ar_shl ar_shr]. autorewrite with dev. reflexivity. Qed.
#[global] Hint Rewrite dev_tree_hash_f : dev.
Lemma dev_tree_hash : tree_hash_w dev = tree_hash.
Proof. unfold tree_hash_w, tree_hash. cbn [dev ar_add ar_sub ar_mul ar_shl ar_shr]. autorewrite with dev. reflexivity. Qed.
#[global] Hint Rewrite dev_tree_hash : dev.
Lemma dev_root_tree_hash : root_tree_hash_w dev = root_tree_hash.
Proof. unfold root_tree_hash_w, root_tree_hash. cbn [dev ar_add ar_sub ar_mul ar_shl ar_shr]. autorewrite with dev. reflexivity. Qed.
#[global] Hint Rewrite dev_root_tree_hash : dev.
Lemma dev_check_parent_hash : check_parent_hash_w dev = check_parent_hash.
Proof. unfold check_parent_hash_w, check_parent_hash. cbn [dev ar_add ar_sub ar_mul ar_shl ar_shr]. autorewrite with dev. reflexivity. Qed.
#[global] Hint Rewrite dev_check_parent_hash : dev.
Lemma dev_verify_parent_hashes_from : verify_parent_hashes_from_w dev = verify_parent_hashes_from.
Proof. unfold verify_parent_hashes_from_w, verify_parent_hashes_from. cbn [dev ar_add ar_sub ar_mul ar_shl ar_shr]. autorewrite with dev. reflexivity. Qed.
#[global] Hint Rewrite dev_verify_parent_hashes_from : dev.
Lemma dev_verify_parent_hashes : verify_parent_hashes_w dev = verify_parent_hashes.
Proof. unfold verify_parent_hashes_w, verify_parent_hashes. cbn [dev ar_add ar_sub ar_mul ar_shl ar_shr]. autorewrite with dev. reflexivity. Qed.
#[global] Hint Rewrite dev_verify_parent_hashes : dev.
Lemma dev_check_unmerged_climb : check_unmerged_climb_w dev = check_unmerged_climb.
Proof. unfold check_unmerged_climb_w, check_unmerged_climb. cbn [dev ar_add ar_sub ar_mul ar_shl ar_shr]. autorewrite with dev. reflexivity. Qed.
#[global] Hint Rewrite dev_check_unmerged_climb : dev.
Lemma dev_check_unmerged : check_unmerged_w dev = check_unmerged.
Proof. unfold check_unmerged_w, check_unmerged. cbn [dev ar_add ar_sub ar_mul ar_shl ar_shr]. autorewrite with dev. reflexivity. Qed.
#[global] Hint Rewrite dev_check_unmerged : dev.
Lemma dev_check_parents : check_parents_w dev = check_parents.
Proof. unfold check_parents_w, check_parents. cbn [dev ar_add ar_sub ar_mul ar_shl ar_shr]. autorewrite with dev. reflexivity. Qed.
#[global] Hint Rewrite dev_check_parents : dev.
Lemma dev_verify_integrity : verify_integrity_w dev = verify_integrity.
Proof. unfold verify_integrity_w, verify_integrity. cbn [dev ar_add ar_sub ar_mul ar_shl ar_shr]. autorewrite with dev. reflexivity. Qed.
#[global] Hint Rewrite dev_verify_integrity : dev.
Lemma dev_find_leaf : find_leaf_w dev = find_leaf.
Proof. unfold find_leaf_w, find_leaf. cbn [dev ar_add ar_sub ar_mul ar_shl ar_shr]. autorewrite with dev. reflexivity. Qed.
#[global] Hint Rewrite dev_find_leaf : dev.
Lemma dev_find_blank : find_blank_w dev = find_blank.
Proof. unfold find_blank_w, find_blank. cbn [dev ar_add ar_sub ar_mul ar_shl ar_shr]. autorewrite with dev. reflexivity. Qed.
#[global] Hint Rewrite dev_find_blank : dev.
Lemma dev_tree_add : tree_add_w dev = tree_add.
Proof. unfold tree_add_w, tree_add. cbn [dev ar_add ar_sub ar_mul ar_shl ar_shr]. autorewrite with dev. reflexivity. Qed.
#[global] Hint Rewrite dev_tree_add : dev.
Lemma dev_tree_update : tree_update_w dev = tree_update.
Proof. unfold tree_update_w, tree_update. cbn [dev ar_add ar_sub ar_mul ar_shl ar_shr]. autorewrite with dev. reflexivity. Qed.
#[global] Hint Rewrite dev_tree_update : dev.
Lemma dev_scan_down : scan_down_w dev = scan_down.
Proof. unfold scan_down_w, scan_down. cbn [dev ar_add ar_sub ar_mul ar_shl ar_shr]. autorewrite with dev. reflexivity. Qed.
#[global] Hint Rewrite dev_scan_down : dev.
Lemma dev_tree_remove : tree_remove_w dev = tree_remove.
Proof. unfold tree_remove_w, tree_remove. cbn [dev ar_add ar_sub ar_mul ar_shl ar_shr]. autorewrite with dev. reflexivity. Qed.
#[global] Hint Rewrite dev_tree_remove : dev.
Lemma dev_filtered_path_f : filtered_path_f_w dev = filtered_path_f.
Proof. unfold filtered_path_f_w, filtered_path_f. cbn [dev ar_add ar_sub ar_mul ar_shl ar_shr]. autorewrite with dev. reflexivity. Qed.
#[global] Hint Rewrite dev_filtered_path_f : dev.
Lemma dev_filtered_direct_path : filtered_direct_path_w dev = filtered_direct_path.
Proof. unfold filtered_direct_path_w, filtered_direct_path. cbn [dev ar_add ar_sub ar_mul ar_shl ar_shr]. autorewrite with dev. reflexivity. Qed.
#[global] Hint Rewrite dev_filtered_direct_path : dev.
Lemma dev_set_parent_hashes : set_parent_hashes_w dev = set_parent_hashes.
Proof. unfold set_parent_hashes_w, set_parent_hashes. cbn [dev ar_add ar_sub ar_mul ar_shl ar_shr]. autorewrite with dev. reflexivity. Qed.
#[global] Hint Rewrite dev_set_parent_hashes : dev.
Lemma dev_merge_update_path : merge_update_path_w dev = merge_update_path.
Proof. unfold merge_update_path_w, merge_update_path. cbn [dev ar_add ar_sub ar_mul ar_shl ar_shr]. autorewrite with dev. reflexivity. Qed.
#[global] Hint Rewrite dev_merge_update_path : dev.
Lemma dev_apply_updates : apply_updates_w dev = apply_updates.
Proof. unfold apply_updates_w, apply_updates. cbn [dev ar_add ar_sub ar_mul ar_shl ar_shr]. autorewrite with dev. reflexivity. Qed.
#[global] Hint Rewrite dev_apply_updates : dev.
Lemma dev_apply_removes : apply_removes_w dev = apply_removes.
Proof. unfold apply_removes_w, apply_removes. cbn [dev ar_add ar_sub ar_mul ar_shl ar_shr]. autorewrite with dev. reflexivity. Qed.
#[global] Hint Rewrite dev_apply_removes : dev.
Lemma dev_apply_adds : apply_adds_w dev = apply_adds.
Proof. unfold apply_adds_w, apply_adds. cbn [dev ar_add ar_sub ar_mul ar_shl ar_shr]. autorewrite with dev. reflexivity. Qed.
#[global] Hint Rewrite dev_apply_adds : dev.
Lemma dev_tree_apply : tree_apply_w dev = tree_apply.
Proof. unfold tree_apply_w, tree_apply. cbn [dev ar_add ar_sub ar_mul ar_shl ar_shr]. autorewrite with dev. reflexivity. Qed.
#[global] Hint Rewrite dev_tree_apply : dev.
Lemma dev_derive_children : derive_children_w dev = derive_children.
Proof. unfold derive_children_w, derive_children. cbn [dev ar_add ar_sub ar_mul ar_shl ar_shr]. autorewrite with dev. reflexivity. Qed.
#[global] Hint Rewrite dev_derive_children : dev.
Lemma dev_new_secret_tree : new_secret_tree_w dev = new_secret_tree.
Proof. unfold new_secret_tree_w, new_secret_tree. cbn [dev ar_add ar_sub ar_mul ar_shl ar_shr]. autorewrite with dev. reflexivity. Qed.
#[global] Hint Rewrite dev_new_secret_tree : dev.
Lemma dev_derive_next : derive_next_w dev = derive_next.
Proof. unfold derive_next_w, derive_next. cbn [dev ar_add ar_sub ar_mul ar_shl ar_shr]. autorewrite with dev. reflexivity. Qed.
#[global] Hint Rewrite dev_derive_next : dev.

(** * Wherever the dev profile does not panic, the release profile does the same *)

(** [m'] does what [m] does, unless [m] panics. *)
Definition up {X} (m m' : res X) : Prop := m = Panic \/ m = m'.
Definition up2 {X Y} (m m' : X * res Y) : Prop := snd m = Panic \/ m = m'.

Lemma up_refl {X} (m : res X) : up m m.
Proof. right; reflexivity. Qed.
Lemma up_bind {X Y} (m m' : res X) (k k' : X -> res Y) : up m m' -> (forall v, up (k v) (k' v)) -> up (bind m k) (bind m' k').
Proof. intros [->| ->] H; [left; reflexivity|]. destruct m'; cbn [bind]; [apply H|right; reflexivity..]. Qed.
Lemma up_ok_or_false {X} (m m' : res X) k k' : up m m' -> (forall v, up (k v) (k' v)) -> up (ok_or_false m k) (ok_or_false m' k').
Proof. intros [->| ->] H; [left; reflexivity|]. destruct m'; cbn [ok_or_false]; [apply H|right; reflexivity..]. Qed.
Lemma up_tbind {X} t (m m' : res X) k k' : up m m' -> (forall v, up2 (k v) (k' v)) -> up2 (tbind t m k) (tbind t m' k').
Proof. intros [->| ->] H; [left; reflexivity|]. destruct m'; cbn [tbind]; [apply H|right; reflexivity..]. Qed.

Lemma up_add a b : up (ar_add dev a b) (ar_add release a b).
Proof. cbn [dev release ar_add]. unfold add32, u32_max. destruct (N.leb_spec (a + b) 4294967295); [right; rewrite N.mod_small by lia; reflexivity|left; reflexivity]. Qed.
Lemma up_sub a b : up (ar_sub dev a b) (ar_sub release a b).
Proof. cbn [dev release ar_sub]. unfold sub32. destruct (N.ltb_spec a b); [left; reflexivity|]. destruct (N.leb_spec b a); [right; reflexivity|lia]. Qed.
Lemma up_mul a b : up (ar_mul dev a b) (ar_mul release a b).
Proof. cbn [dev release ar_mul]. unfold mul32, u32_max. destruct (N.leb_spec (a * b) 4294967295); [right; rewrite N.mod_small by lia; reflexivity|left; reflexivity]. Qed.
Lemma up_shl a b : up (ar_shl dev a b) (ar_shl release a b).
Proof. cbn [dev release ar_shl]. unfold shl32. destruct (N.leb_spec 32 b); [left; reflexivity|right; rewrite (N.mod_small b) by lia; reflexivity]. Qed.
Lemma up_shr a b : up (ar_shr dev a b) (ar_shr release a b).
Proof. cbn [dev release ar_shr]. unfold shr32. destruct (N.leb_spec 32 b); [left; reflexivity|right; rewrite (N.mod_small b) by lia; reflexivity]. Qed.

Create HintDb up.
#[global] Hint Resolve up_add up_sub up_mul up_shl up_shr : up.

Ltac up_step :=
  match goal with
  | |- up ?m ?m => apply up_refl
  | |- up2 ?m ?m => right; reflexivity
  | H : _ |- up _ _ => apply H
  | |- up (bind _ _) (bind _ _) => apply up_bind; [|intros ?]
  | |- up (ok_or_false _ _) (ok_or_false _ _) => apply up_ok_or_false; [|intros ?]
  | |- up2 (tbind _ _ _) (tbind _ _ _) => apply up_tbind; [|intros ?]
  | |- up (match ?a with _ => _ end) _ => destruct a
  | |- up2 (match ?a with _ => _ end) _ => destruct a
  | |- up _ _ => solve [auto with up nocore]
  end.

Lemma up_width (n : N) : up (width_w dev n) (width_w release n).
Proof. unfold width_w. repeat up_step. Qed.
#[global] Hint Resolve up_width : up.
Lemma up_root (n : N) : up (root_w dev n) (root_w release n).
Proof. unfold root_w. repeat up_step. Qed.
#[global] Hint Resolve up_root : up.
Lemma up_level_loop (fuel : nat) (x lvl : N) : up (level_loop_w dev fuel x lvl) (level_loop_w release fuel x lvl).
Proof. revert x lvl. induction fuel; intros x lvl; cbn [level_loop_w]; repeat up_step. Qed.
#[global] Hint Resolve up_level_loop : up.
Lemma up_level (x : N) : up (level_w dev x) (level_w release x).
Proof. unfold level_w. repeat up_step. Qed.
#[global] Hint Resolve up_level : up.
Lemma up_node_index (li : N) : up (node_index_w dev li) (node_index_w release li).
Proof. unfold node_index_w. repeat up_step. Qed.
#[global] Hint Resolve up_node_index : up.
Lemma up_left (x : N) : up (left_w dev x) (left_w release x).
Proof. unfold left_w. repeat up_step. Qed.
#[global] Hint Resolve up_left : up.
Lemma up_right (x : N) : up (right_w dev x) (right_w release x).
Proof. unfold right_w. repeat up_step. Qed.
#[global] Hint Resolve up_right : up.
Lemma up_children (x : N) : up (children_w dev x) (children_w release x).
Proof. unfold children_w. repeat up_step. Qed.
#[global] Hint Resolve up_children : up.
Lemma up_parent (n x : N) : up (parent_w dev n x) (parent_w release n x).
Proof. unfold parent_w. repeat up_step. Qed.
#[global] Hint Resolve up_parent : up.
Lemma up_sibling (n x : N) : up (sibling_w dev n x) (sibling_w release n x).
Proof. unfold sibling_w. repeat up_step. Qed.
#[global] Hint Resolve up_sibling : up.
Lemma up_climb (fuel : nat) (n x : N) : up (climb_w dev fuel n x) (climb_w release fuel n x).
Proof. revert n x. induction fuel; intros n x; cbn [climb_w]; repeat up_step. Qed.
#[global] Hint Resolve up_climb : up.
Lemma up_direct_path (n x : N) : up (direct_path_w dev n x) (direct_path_w release n x).
Proof. unfold direct_path_w. repeat up_step. Qed.
#[global] Hint Resolve up_direct_path : up.
Lemma up_siblings (n : N) (path : list N) : up (siblings_w dev n path) (siblings_w release n path).
Proof. revert n. induction path; intros n; cbn [siblings_w]; repeat up_step. Qed.
#[global] Hint Resolve up_siblings : up.
Lemma up_copath (n x : N) : up (copath_w dev n x) (copath_w release n x).
Proof. unfold copath_w. repeat up_step. Qed.
#[global] Hint Resolve up_copath : up.
Lemma up_get_leaf (t : tree) (li : N) : up (get_leaf_w dev t li) (get_leaf_w release t li).
Proof. unfold get_leaf_w. repeat up_step. Qed.
#[global] Hint Resolve up_get_leaf : up.
Lemma up_node_indices (l : list N) : up (node_indices_w dev l) (node_indices_w release l).
Proof. induction l; cbn [node_indices_w]; repeat up_step. Qed.
#[global] Hint Resolve up_node_indices : up.
Lemma up_resolve_f (fuel : nat) (t : tree) (x : N) : up (resolve_f_w dev fuel t x) (resolve_f_w release fuel t x).
Proof. revert t x. induction fuel; intros t x; cbn [resolve_f_w]; repeat up_step. Qed.
#[global] Hint Resolve up_resolve_f : up.
Lemma up_resolve (t : tree) (x : N) : up (resolve_w dev t x) (resolve_w release t x).
Proof. unfold resolve_w. repeat up_step. Qed.
#[global] Hint Resolve up_resolve : up.
Lemma up_leaves_from (fuel : nat) (t : tree) (li : N) : up (leaves_from_w dev fuel t li) (leaves_from_w release fuel t li).
Proof. revert t li. induction fuel; intros t li; cbn [leaves_from_w]; repeat up_step. Qed.
#[global] Hint Resolve up_leaves_from : up.
Lemma up_leaves (t : tree) : up (leaves_w dev t) (leaves_w release t).
Proof. unfold leaves_w. repeat up_step. Qed.
#[global] Hint Resolve up_leaves : up.
Lemma up_supported_creds (t : tree) : up (supported_creds_w dev t) (supported_creds_w release t).
Proof. unfold supported_creds_w. repeat up_step. Qed.
#[global] Hint Resolve up_supported_creds : up.
Lemma up_keys (t : tree) : up (keys_w dev t) (keys_w release t).
Proof. unfold keys_w. repeat up_step. Qed.
#[global] Hint Resolve up_keys : up.
Lemma up_tree_hash_f (fuel : nat) (P : provider) (cs : cipher_suite) (t : tree) (x : N) (excl : list N) : up (tree_hash_f_w dev fuel P cs t x excl) (tree_hash_f_w release fuel P cs t x excl).
Proof. revert t x excl. induction fuel; intros t x excl; cbn [tree_hash_f_w]; repeat up_step. Qed.
#[global] Hint Resolve up_tree_hash_f : up.
Lemma up_tree_hash (P : provider) (cs : cipher_suite) (t : tree) (x : N) (excl : list N) : up (tree_hash_w dev P cs t x excl) (tree_hash_w release P cs t x excl).
Proof. unfold tree_hash_w. repeat up_step. Qed.
#[global] Hint Resolve up_tree_hash : up.
Lemma up_root_tree_hash (P : provider) (cs : cipher_suite) (t : tree) : up (root_tree_hash_w dev P cs t) (root_tree_hash_w release P cs t).
Proof. unfold root_tree_hash_w. repeat up_step. Qed.
#[global] Hint Resolve up_root_tree_hash : up.
Lemma up_check_parent_hash (P : provider) (cs : cipher_suite) (t : tree) (x : N) (nd : option node) : up (check_parent_hash_w dev P cs t x nd) (check_parent_hash_w release P cs t x nd).
Proof. unfold check_parent_hash_w. repeat up_step. Qed.
#[global] Hint Resolve up_check_parent_hash : up.
Lemma up_verify_parent_hashes_from (P : provider) (cs : cipher_suite) (t : tree) (i : N) (l : list (option node)) : up (verify_parent_hashes_from_w dev P cs t i l) (verify_parent_hashes_from_w release P cs t i l).
Proof. revert t i. induction l; intros t i; cbn [verify_parent_hashes_from_w]; repeat up_step. Qed.
#[global] Hint Resolve up_verify_parent_hashes_from : up.
Lemma up_verify_parent_hashes (P : provider) (cs : cipher_suite) (t : tree) : up (verify_parent_hashes_w dev P cs t) (verify_parent_hashes_w release P cs t).
Proof. unfold verify_parent_hashes_w. repeat up_step. Qed.
#[global] Hint Resolve up_verify_parent_hashes : up.
Lemma up_check_unmerged_climb (fuel : nat) (t : tree) (n p li x : N) : up (check_unmerged_climb_w dev fuel t n p li x) (check_unmerged_climb_w release fuel t n p li x).
Proof. revert t n p li x. induction fuel; intros t n p li x; cbn [check_unmerged_climb_w]; repeat up_step. Qed.
#[global] Hint Resolve up_check_unmerged_climb : up.
Lemma up_check_unmerged (t : tree) (n p : N) (l : list N) : up (check_unmerged_w dev t n p l) (check_unmerged_w release t n p l).
Proof. revert t n p. induction l; intros t n p; cbn [check_unmerged_w]; repeat up_step. Qed.
#[global] Hint Resolve up_check_unmerged : up.
Lemma up_check_parents (t : tree) (n i : N) (eks : list bytes) (l : list (option node)) : up (check_parents_w dev t n i eks l) (check_parents_w release t n i eks l).
Proof. revert t n i eks. induction l; intros t n i eks; cbn [check_parents_w]; repeat up_step. Qed.
#[global] Hint Resolve up_check_parents : up.
Lemma up_verify_integrity (P : provider) (t : tree) (ctx : group_context) (now : N -> Z) : up (verify_integrity_w dev P t ctx now) (verify_integrity_w release P t ctx now).
Proof. unfold verify_integrity_w. repeat up_step. Qed.
#[global] Hint Resolve up_verify_integrity : up.
Lemma up_find_leaf (t : tree) (node : leaf_node) : up (find_leaf_w dev t node) (find_leaf_w release t node).
Proof. unfold find_leaf_w. repeat up_step. Qed.
#[global] Hint Resolve up_find_leaf : up.
Lemma up_find_blank (fuel : nat) (t : tree) (li : N) : up (find_blank_w dev fuel t li) (find_blank_w release fuel t li).
Proof. revert t li. induction fuel; intros t li; cbn [find_blank_w]; repeat up_step. Qed.
#[global] Hint Resolve up_find_blank : up.
Lemma up_tree_add (t : tree) (l : leaf_node) : up (tree_add_w dev t l) (tree_add_w release t l).
Proof. unfold tree_add_w. repeat up_step. Qed.
#[global] Hint Resolve up_tree_add : up.
Lemma up_tree_update (t : tree) (li : N) (l : leaf_node) : up (tree_update_w dev t li l) (tree_update_w release t li l).
Proof. unfold tree_update_w. repeat up_step. Qed.
#[global] Hint Resolve up_tree_update : up.
Lemma up_scan_down (k : nat) (t : tree) (lp : N) : up (scan_down_w dev k t lp) (scan_down_w release k t lp).
Proof. revert t lp. induction k; intros t lp; cbn [scan_down_w]; repeat up_step. Qed.
#[global] Hint Resolve up_scan_down : up.
Lemma up_tree_remove (t : tree) (li : N) : up (tree_remove_w dev t li) (tree_remove_w release t li).
Proof. unfold tree_remove_w. repeat up_step. Qed.
#[global] Hint Resolve up_tree_remove : up.
Lemma up_filtered_path_f (fuel : nat) (t : tree) (n x : N) : up (filtered_path_f_w dev fuel t n x) (filtered_path_f_w release fuel t n x).
Proof. revert t n x. induction fuel; intros t n x; cbn [filtered_path_f_w]; repeat up_step. Qed.
#[global] Hint Resolve up_filtered_path_f : up.
Lemma up_filtered_direct_path (t : tree) (x : N) : up (filtered_direct_path_w dev t x) (filtered_direct_path_w release t x).
Proof. unfold filtered_direct_path_w. repeat up_step. Qed.
#[global] Hint Resolve up_filtered_direct_path : up.
Lemma up_set_parent_hashes (P : provider) (cs : cipher_suite) (direct : list N) (sender : N) (t : tree) (prev : option bytes) (rpath : list N) : up2 (set_parent_hashes_w dev P cs direct sender t prev rpath) (set_parent_hashes_w release P cs direct sender t prev rpath).
Proof. revert t prev. induction rpath as [|ni rest IH]; intros t prev; cbn [set_parent_hashes_w]; [right; reflexivity|].
  destruct (tget t ni) as [[l|p]|]; [apply IH| |apply IH].
  destruct (up_children ni) as [->| ->]; [left; reflexivity|]. destruct (children_w release ni) as [[[l r]|]| | |]; [|right; reflexivity..].
  destruct (up_tree_hash P cs t (copath_child direct sender l r) []) as [->| ->]; [left; reflexivity|].
  destruct (tree_hash_w release P cs t (copath_child direct sender l r) []); [|right; reflexivity..]. cbv zeta.
  destruct (parent_hash _ _ _ _); [|right; reflexivity..]. apply IH. Qed.
#[global] Hint Resolve up_set_parent_hashes : up.
Lemma up_merge_update_path (P : provider) (cs : cipher_suite) (t : tree) (sender : N) (path : update_path) : up2 (merge_update_path_w dev P cs t sender path) (merge_update_path_w release P cs t sender path).
Proof. unfold merge_update_path_w. do 3 (apply up_tbind; [solve [auto with up nocore]|intros ?]). destruct (negb _); [right; reflexivity|].
  destruct (up_set_parent_hashes P cs v0 v (set_path_keys (fold_left blank v0 t) v1 (up_nodes path)) None (rev v1)) as [E| ->].
  - left. destruct (set_parent_hashes_w dev _ _ _ _ _ _ _) as [t' r]. cbn [snd] in E. subst r. reflexivity.
  - right. reflexivity. Qed.
#[global] Hint Resolve up_merge_update_path : up.
Lemma up_apply_updates (t : tree) (ps : list proposal) (senders : list N) (i : nat) : up (apply_updates_w dev t ps senders i) (apply_updates_w release t ps senders i).
Proof. revert t senders i. induction ps; intros t senders i; cbn [apply_updates_w]; repeat up_step. Qed.
#[global] Hint Resolve up_apply_updates : up.
Lemma up_apply_removes (t : tree) (ps : list proposal) : up (apply_removes_w dev t ps) (apply_removes_w release t ps).
Proof. revert t. induction ps; intros t; cbn [apply_removes_w]; repeat up_step. Qed.
#[global] Hint Resolve up_apply_removes : up.
Lemma up_apply_adds (t : tree) (ps : list proposal) : up (apply_adds_w dev t ps) (apply_adds_w release t ps).
Proof. revert t. induction ps; intros t; cbn [apply_adds_w]; repeat up_step. Qed.
#[global] Hint Resolve up_apply_adds : up.
Lemma up_tree_apply (t : tree) (ps : list proposal) (senders : list N) : up (tree_apply_w dev t ps senders) (tree_apply_w release t ps senders).
Proof. unfold tree_apply_w. repeat up_step. Qed.
#[global] Hint Resolve up_tree_apply : up.
Lemma up_derive_children (fuel : nat) (P : provider) (cs : cipher_suite) (t : secret_tree) (x : N) : up (derive_children_w dev fuel P cs t x) (derive_children_w release fuel P cs t x).
Proof. revert t x. induction fuel; intros t x; cbn [derive_children_w]; repeat up_step. Qed.
#[global] Hint Resolve up_derive_children : up.
Lemma up_new_secret_tree (P : provider) (cs : cipher_suite) (n : N) (secret : bytes) : up (new_secret_tree_w dev P cs n secret) (new_secret_tree_w release P cs n secret).
Proof. unfold new_secret_tree_w. repeat up_step. Qed.
#[global] Hint Resolve up_new_secret_tree : up.
Lemma up_derive_next (P : provider) (cs : cipher_suite) (r : ratchet_secret) : up (derive_next_w dev P cs r) (derive_next_w release P cs r).
Proof. unfold derive_next_w. repeat up_step. Qed.
#[global] Hint Resolve up_derive_next : up.
