(** What following a commit costs: carrying out its proposals, merging its update path, and deriving the secret tree of the new epoch.
    As in SpecCost.v, the functions below do what those of RatchetTree.v, TreeMath.v and SecretTree.v with the same names (without [c_])
    do, and count while they do it. That they do the same is a theorem (C108_same). *)
From Verif Require Export SpecCost SecretTree.
Local Open Scope N_scope.

(** tree_math/mod.rs:81-92 and the loops at ratchet_tree/mod.rs:755-764, 775-783, 791-799: every step upward is a visit. *)
Fixpoint c_climb (fuel : nat) (n x : N) : costly (list N) :=
  cbind (pay one_visit (free (parent n x))) (fun p =>
  match p with
  | None => free (Ok [])
  | Some p => match fuel with O => free Hang | S k => cbind (c_climb k n p) (fun l => free (Ok (p :: l))) end
  end).

(** ratchet_tree/mod.rs:734-744: every leaf looked at is a visit. *)
Fixpoint c_find_blank (fuel : nat) (t : tree) (li : N) : costly (N * N * bool) :=
  pay one_visit (cbind (free (node_index li)) (fun ni =>
  if tlen t <=? ni then free (Ok (li, ni, false)) else
  match tget t ni with
  | None => free (Ok (li, ni, true))
  | Some _ => match fuel with O => free Hang | S k => cbind (free (add32 li 1)) (fun li => c_find_blank k t li) end
  end)).
(** ratchet_tree/mod.rs:730-767 *)
Definition c_tree_add (t : tree) (l : leaf_node) : costly tree :=
  cbind (c_find_blank (length t) t 0) (fun '(li, ni, found) =>
  cbind (free (if found : bool then Ok (ni, t) else
               let* ni := add32 (tlen32 t) 1 in
               Ok (ni, t ++ repeat None (S (length t)))%list)) (fun '(ni, t) =>
  cbind (c_climb 33 (num_leaves t) ni) (fun path =>
  free (Ok (tset (fold_left (push_unmerged li) path t) ni (Some (Leaf l))))))).
(** ratchet_tree/mod.rs:770-784 *)
Definition c_tree_update (t : tree) (li : N) (l : leaf_node) : costly tree :=
  cbind (free (node_index li)) (fun ni =>
  let t := tset t ni (Some (Leaf l)) in
  cbind (c_climb 33 (num_leaves t) ni) (fun path => free (Ok (fold_left blank path t)))).
(** ratchet_tree/mod.rs:803-818: every leaf looked at is a visit. *)
Fixpoint c_scan_down (k : nat) (t : tree) (lp : N) : costly (option N) :=
  pay one_visit (cbind (free (node_index (N.of_nat k))) (fun ni =>
  match tget t ni with
  | Some _ => free (Ok (Some lp))
  | None =>
      let lp := if is_power_of_two ni then ni else lp in
      match k with O => free (Ok None) | S j => c_scan_down j t lp end
  end)).
(** ratchet_tree/mod.rs:787-823 *)
Definition c_tree_remove (t : tree) (li : N) : costly tree :=
  cbind (free (node_index li)) (fun ni =>
  let n := num_leaves t in
  cbind (c_climb 33 n ni) (fun path =>
  let t := fold_left blank (ni :: path) t in
  cbind (free (sub32 n 1)) (fun last =>
  cbind (c_scan_down (N.to_nat last) t (tlen t)) (fun lp =>
  free (Ok match lp with
           | None => []
           | Some lp => if lp <? tlen t then firstn (N.to_nat lp) t else t
           end))))).
(** ratchet_tree/mod.rs:945-966 *)
Fixpoint c_apply_updates (t : tree) (ps : list proposal) (senders : list N) (i : nat) : costly tree :=
  match ps with
  | [] => free (Ok t)
  | PUpdate l :: r =>
      match nth_error senders i with
      | None => free Panic
      | Some s => cbind (c_tree_update t s (upd_leaf l)) (fun t => c_apply_updates t r senders (S i))
      end
  | _ :: r => c_apply_updates t r senders (S i)
  end.
Fixpoint c_apply_removes (t : tree) (ps : list proposal) : costly tree :=
  match ps with
  | [] => free (Ok t)
  | PRemove m :: r => cbind (c_tree_remove t (rem_removed m)) (fun t => c_apply_removes t r)
  | _ :: r => c_apply_removes t r
  end.
Fixpoint c_apply_adds (t : tree) (ps : list proposal) : costly tree :=
  match ps with
  | [] => free (Ok t)
  | PAdd a :: r => cbind (c_tree_add t (kp_leaf (kp_payload (add_key_package a)))) (fun t => c_apply_adds t r)
  | _ :: r => c_apply_adds t r
  end.
Definition c_tree_apply (t : tree) (ps : list proposal) (senders : list N) : costly tree :=
  cbind (c_apply_updates t ps senders 0) (fun t => cbind (c_apply_removes t ps) (fun t => c_apply_adds t ps)).

(** ratchet_tree/mod.rs:825-848 *)
Fixpoint c_filtered_path_f (fuel : nat) (t : tree) (n x : N) : costly (list N) :=
  cbind (pay one_visit (free (parent n x))) (fun p =>
  match p with
  | None => free (Ok [])
  | Some p => cbind (free (sibling n x)) (fun s =>
      match s with
      | None => free (Err InvalidSibling)
      | Some s => cbind (c_resolve_f 33 t s) (fun r =>
          match fuel with
          | O => free Hang
          | S k => cbind (c_filtered_path_f k t n p) (fun path => free (Ok (if Nat.eqb (length r) 0 then path else p :: path)))
          end)
      end)
  end).
(** ratchet_tree/mod.rs:884-927. The tree, the result, and the cost. *)
Fixpoint c_set_parent_hashes (P : provider) (cs : cipher_suite) (direct : list N) (sender : N)
    (t : tree) (prev : option bytes) (rpath : list N) : tree * costly (option bytes) :=
  match rpath with
  | [] => (t, free (Ok prev))
  | ni :: rest =>
      match tget t ni with
      | Some (Parent p) =>
          match children ni with
          | Ok None => (t, free (Err InvalidChildren))
          | Ok (Some (l, r)) =>
              let th := c_tree_hash_f 33 P cs t (copath_child direct sender l r) [] in
              match fst th with
              | Ok h0 =>
                  let ph := match prev with Some h => h | None => [] end in
                  let q := MkParentNode (pn_encryption_key p) ph (pn_unmerged p) in
                  let t := tset t ni (Some (Parent q)) in
                  match parent_hash P cs q h0 with
                  | Ok h => let z := c_set_parent_hashes P cs direct sender t (Some h) rest in (fst z, pay (plus (snd th) one_hash) (snd z))
                  | Err e => (t, pay (plus (snd th) one_hash) (free (Err e)))
                  | Panic => (t, pay (plus (snd th) one_hash) (free Panic))
                  | Hang => (t, pay (plus (snd th) one_hash) (free Hang))
                  end
              | Err e => (t, pay (snd th) (free (Err e))) | Panic => (t, pay (snd th) (free Panic)) | Hang => (t, pay (snd th) (free Hang))
              end
          | Err e => (t, free (Err e)) | Panic => (t, free Panic) | Hang => (t, free Hang)
          end
      | _ => c_set_parent_hashes P cs direct sender t prev rest
      end
  end.
Definition ctbind {A} (t : tree) (m : costly A) (k : A -> tree * costly unit) : tree * costly unit :=
  match fst m with
  | Ok a => let z := k a in (fst z, pay (snd m) (snd z))
  | Err e => (t, pay (snd m) (free (Err e))) | Panic => (t, pay (snd m) (free Panic)) | Hang => (t, pay (snd m) (free Hang))
  end.
(** ratchet_tree/mod.rs:851-942 *)
Definition c_merge_update_path (P : provider) (cs : cipher_suite) (t : tree) (sender : N) (path : update_path) : tree * costly unit :=
  ctbind t (free (node_index sender)) (fun sni =>
  ctbind t (c_climb 33 (num_leaves t) sni) (fun direct =>
  let t := fold_left blank direct t in
  ctbind t (c_filtered_path_f 33 t (num_leaves t) sni) (fun fpath =>
  if negb (Nat.eqb (length fpath) (length (up_nodes path)))
  then (t, free (Err UpdatePathAndFilteredDirectPathHasDifferentNode)) else
  let t := set_path_keys t fpath (up_nodes path) in
  let z := c_set_parent_hashes P cs direct sni t None (rev fpath) in
  let t := fst z in
  ctbind t (snd z) (fun prev =>
  match lp_source (ln_payload (up_leaf path)), prev with
  | LSCommit ph, Some h =>
      if negb (bytes_eqb ph h) then (t, free (Err ParentHashMismatchForUpdatePathLeafNode))
      else (tset t sni (Some (Leaf (up_leaf path))), free (Ok tt))
  | _, _ => (t, free (Err ParentHashMismatchForUpdatePathLeafNode))
  end)))).

(** secret_tree/mod.rs:60-106: what is counted as a digest here is an expansion of a secret with a label. *)
Fixpoint c_derive_children (fuel : nat) (P : provider) (cs : cipher_suite) (t : secret_tree) (x : N) : costly secret_tree :=
  cbind (free (children x)) (fun c =>
  match c with
  | None => free (Ok t)
  | Some (l, r) =>
      match fuel with
      | O => free Hang
      | S fuel =>
          match sget t x with
          | None => free (Err InvalidParentNode)
          | Some s => cbind (free (p_hpke P cs)) (fun k =>
              let nh := k_extract_size k mod 65536 in
              cbind (pay one_hash (free (expand_with_label P cs s (str "tree") (str "left") nh))) (fun ls =>
              cbind (pay one_hash (free (expand_with_label P cs s (str "tree") (str "right") nh))) (fun rs =>
              let t := sset t l ls in
              let t := sset t r rs in
              cbind (c_derive_children fuel P cs t l) (fun t => c_derive_children fuel P cs t r))))
          end
      end
  end).
Definition c_new_secret_tree (P : provider) (cs : cipher_suite) (n : N) (secret : bytes) : costly secret_tree :=
  cbind (free (width n)) (fun w =>
  let t : secret_tree := repeat None (N.to_nat w) in
  cbind (free (root n)) (fun r =>
  let t := sset t r secret in
  c_derive_children 33 P cs t r)).
