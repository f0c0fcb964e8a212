(** Model of the methods of RatchetTree (ratchet_tree/mod.rs:307-967) and of the parent-hash methods of
    ratchet_tree/parent_node.rs. A tree is the array of optional nodes. Methods with [&mut self] return the
    new array. Loops that only follow [NumLeaves::parent] are written with [climb] (TreeMath.v): the path
    they follow does not depend on the tree's contents. *)
From Verif Require Export TreeMath LeafNode.
Local Open Scope N_scope.

(** Models ratchet_tree/mod.rs:256-257 (RatchetTree). *)
Notation tree := (list (option node)).

(** [self.0.len()], as at ratchet_tree/mod.rs:706. *)
Definition tlen (t : tree) : N := N.of_nat (length t).
(** [self.0.len() as u32], as at ratchet_tree/mod.rs:706. *)
Definition tlen32 (t : tree) : N := tlen t mod 4294967296.

(** Models ratchet_tree/mod.rs:705-707 (num_leaves). *)
Definition num_leaves (t : tree) : N := num_leaves_of_width (tlen32 t).

(** Models ratchet_tree/mod.rs:309-324 (get, get_mut). *)
Definition tget (t : tree) (i : N) : option node :=
  if i <? tlen t then nth (N.to_nat i) t None else None.

(** Models ratchet_tree/mod.rs:327-331 (set). *)
Definition tset (t : tree) (i : N) (v : option node) : tree :=
  if i <? tlen t then (firstn (N.to_nat i) t ++ v :: skipn (S (N.to_nat i)) t)%list else t.

(** Models ratchet_tree/mod.rs:334-340 (get_leaf). *)
Definition get_leaf (t : tree) (li : N) : res (option leaf_node) :=
  let* ni := node_index li in
  Ok match tget t ni with Some (Leaf l) => Some l | _ => None end.

(** [leaf_indices.map(node_index)], as in the loop at ratchet_tree/mod.rs:347-349. *)
Fixpoint node_indices (l : list N) : res (list N) :=
  match l with
  | [] => Ok []
  | li :: r => let* ni := node_index li in let* r := node_indices r in Ok (ni :: r)
  end.

(** Models ratchet_tree/mod.rs:343-363 (resolve). The recursion goes down one level at a time; [fuel]
    bounds its depth. *)
Fixpoint resolve_f (fuel : nat) (t : tree) (x : N) : res (list N) :=
  match tget t x with
  | Some (Parent p) => let* u := node_indices (pn_unmerged p) in Ok (x :: u)
  | Some (Leaf _) => Ok [x]
  | None =>
      let* c := children x in
      match c with
      | None => Ok []
      | Some (l, r) =>
          match fuel with
          | O => Hang
          | S k => let* a := resolve_f k t l in let* b := resolve_f k t r in Ok (a ++ b)%list
          end
      end
  end.
(** Models ratchet_tree/mod.rs:343-363 (resolve): at most 32 levels. *)
Definition resolve (t : tree) (x : N) : res (list N) := resolve_f 33 t x.

(** The loop header [for li in 0..self.num_leaves().0 { if let Some(node) = self.get_leaf(LeafIndex(li))]
    shared by ratchet_tree/mod.rs:369-370, 398-399, 438-439 and 711-712: the non-blank leaves with their
    indices, in order. [fuel] is the number of iterations. *)
Fixpoint leaves_from (fuel : nat) (t : tree) (li : N) : res (list (N * leaf_node)) :=
  match fuel with
  | O => Ok []
  | S k =>
      let* o := get_leaf t li in
      let* r := leaves_from k t (li + 1) in
      Ok match o with Some l => (li, l) :: r | None => r end
  end.
(** The whole loop of ratchet_tree/mod.rs:369-370, 398-399, 438-439 and 711-712. *)
Definition leaves (t : tree) : res (list (N * leaf_node)) := leaves_from (N.to_nat (num_leaves t)) t 0.

(** HashMap<CredentialType, usize> as an association list; models ratchet_tree/mod.rs:373-377. *)
Fixpoint bump (ct : credential_type) (m : list (credential_type * N)) : list (credential_type * N) :=
  match m with
  | [] => [(ct, 1)]
  | (c, n) :: r => if credential_type_eqb ct c then (c, n + 1) :: r else (c, n) :: bump ct r
  end.
(** Models ratchet_tree/mod.rs:366-390 (supported_creds). The result set is a list; its order, which is
    the map's iteration order in the code, is irrelevant to every use. *)
Definition supported_creds (t : tree) : res (list credential_type) :=
  let* ls := leaves t in
  let counts := fold_left (fun m (il : N * leaf_node) =>
      fold_left (fun m ct => bump ct m) (cap_credentials (lp_capabilities (ln_payload (snd il)))) m) ls [] in
  Ok (map fst (filter (fun cn : credential_type * N => snd cn =? N.of_nat (length ls)) counts)).

(** Models ratchet_tree/mod.rs:393-405 (keys). *)
Definition keys (t : tree) : res (list bytes * list bytes) :=
  let* ls := leaves t in
  Ok (map (fun il : N * leaf_node => lp_signature_key (ln_payload (snd il))) ls,
      map (fun il : N * leaf_node => lp_encryption_key (ln_payload (snd il))) ls).

(* ------------------------------------------------------------------------------------------- *)
(** * Hashes *)

(** Models ratchet_tree/mod.rs:592-604 (serialize_leaf_node_hash_input). *)
Definition leaf_hash_input (li : N) (l : option leaf_node) : res bytes :=
  put_u8 1 +++ put_u32 li +++ se_option se_leaf_node l.

(** Models ratchet_tree/mod.rs:606-619 (serialize_parent_node_hash_input). *)
Definition parent_node_hash_input (p : option parent_node) (lh rh : bytes) : res bytes :=
  put_u8 2 +++ se_option se_parent_node p +++ se_opaque lh +++ se_opaque rh.

(** Models ratchet_tree/mod.rs:533-542: the leaf to hash at a leaf position. *)
Definition hashed_leaf (n : option node) (excluded : bool) : res (option leaf_node) :=
  match n with
  | None => Ok None
  | Some nd => if excluded then Ok None else match nd with Leaf l => Ok (Some l) | Parent _ => Err InvalidLeafNode end
  end.

(** Models ratchet_tree/mod.rs:556-577: the parent to hash at a parent position. *)
Definition hashed_parent (n : option node) (excl : list N) : res (option parent_node) :=
  match n with
  | None => Ok None
  | Some (Parent p) =>
      Ok (Some (if negb (Nat.eqb (length (pn_unmerged p)) 0) && negb (Nat.eqb (length excl) 0)
                then MkParentNode (pn_encryption_key p) (pn_parent_hash p)
                       (filter (fun li => negb (mem N.eqb li excl)) (pn_unmerged p))
                else p))
  | Some (Leaf _) => Err InvalidParentNode
  end.

(** Models ratchet_tree/mod.rs:518-590 (compute_tree_hash); [excl] is the set of excluded leaves, [fuel]
    bounds the depth of the recursion. *)
Fixpoint tree_hash_f (fuel : nat) (P : provider) (cs : cipher_suite) (t : tree) (x : N) (excl : list N) : res bytes :=
  let* input :=
    match leaf_index x with
    | Some li => let* l := hashed_leaf (tget t x) (mem N.eqb li excl) in leaf_hash_input li l
    | None =>
        let* c := children x in
        match c with
        | None => Err InvalidChildren
        | Some (l, r) =>
            match fuel with
            | O => Hang
            | S k =>
                let* lh := tree_hash_f k P cs t l excl in
                let* rh := tree_hash_f k P cs t r excl in
                let* p := hashed_parent (tget t x) excl in
                parent_node_hash_input p lh rh
            end
        end
    end in
  let* h := p_hash P cs in Ok (h_digest h input).
(** Models ratchet_tree/mod.rs:518-590 (compute_tree_hash): at most 32 levels. *)
Definition tree_hash := tree_hash_f 33.

(** Models ratchet_tree/mod.rs:504-515 (compute_root_tree_hash). *)
Definition root_tree_hash (P : provider) (cs : cipher_suite) (t : tree) : res bytes :=
  let* r := root (num_leaves t) in tree_hash P cs t r [].

(** Models ratchet_tree/parent_node.rs:90-100 (serialize_parent_hash_input). *)
Definition parent_hash_input (key ph sibling_hash : bytes) : res bytes :=
  se_opaque key +++ se_opaque ph +++ se_opaque sibling_hash.

(** Models ratchet_tree/parent_node.rs:75-88 (compute_parent_hash). *)
Definition parent_hash (P : provider) (cs : cipher_suite) (p : parent_node) (sibling_hash : bytes) : res bytes :=
  let* input := parent_hash_input (pn_encryption_key p) (pn_parent_hash p) sibling_hash in
  let* h := p_hash P cs in Ok (h_digest h input).

(** Models ratchet_tree/mod.rs:687-703 (find_parent_hash). *)
Definition find_parent_hash (t : tree) (l : list N) (h : bytes) : bool :=
  existsb (fun x => match tget t x with
                    | Some (Leaf lf) => match lp_source (ln_payload lf) with LSCommit ph => bytes_eqb ph h | _ => false end
                    | Some (Parent p) => bytes_eqb (pn_parent_hash p) h
                    | None => false
                    end) l.

(** The idiom [if let Ok(x) = m { x } else { return false }] of ratchet_tree/mod.rs:642-674. *)
Definition ok_or_false {A} (m : res A) (k : A -> res bool) : res bool :=
  match m with Ok a => k a | Err _ => Ok false | Panic => Panic | Hang => Hang end.

(** The loop body of ratchet_tree/mod.rs:628-682 for the node [nd] at index [x]: [Ok true] goes on to the
    next node, [Ok false] is [return false]. *)
Definition check_parent_hash (P : provider) (cs : cipher_suite) (t : tree) (x : N) (nd : option node) : res bool :=
  match nd with
  | None => Ok true
  | Some nd =>
      let* c := children x in
      match c with
      | None => Ok true
      | Some (l, r) =>
          match nd with
          | Leaf _ => Ok true
          | Parent p =>
              ok_or_false (tree_hash P cs t l (pn_unmerged p)) (fun lh =>
              ok_or_false (tree_hash P cs t r (pn_unmerged p)) (fun rh =>
              ok_or_false (parent_hash P cs p rh) (fun lph =>
              ok_or_false (parent_hash P cs p lh) (fun rph =>
                let* resl := resolve t l in
                let* resr := resolve t r in
                Ok (negb (Bool.eqb (find_parent_hash t resl lph) (find_parent_hash t resr rph)))))))
          end
      end
  end.
(** Models the loop at ratchet_tree/mod.rs:627-684 from index [i] on; [i as u32] truncates. *)
Fixpoint verify_parent_hashes_from (P : provider) (cs : cipher_suite) (t : tree) (i : N) (l : list (option node)) : res bool :=
  match l with
  | [] => Ok true
  | nd :: r =>
      let* b := check_parent_hash P cs t (i mod 4294967296) nd in
      if b then verify_parent_hashes_from P cs t (i + 1) r else Ok false
  end.
(** Models ratchet_tree/mod.rs:622-685 (verify_parent_hashes). *)
Definition verify_parent_hashes (P : provider) (cs : cipher_suite) (t : tree) : res bool :=
  verify_parent_hashes_from P cs t 0 t.

(* ------------------------------------------------------------------------------------------- *)
(** * verify_integrity *)

(** Models the loop at ratchet_tree/mod.rs:438-456; returns the two sets of keys seen. [now li] is the time the clock gives when leaf [li] is
    checked: the code asks it at most once per leaf. *)
Fixpoint verify_leaves (P : provider) (cs : cipher_suite) (gid : bytes) (creds : list credential_type) (now : N -> Z)
    (sks eks : list bytes) (ls : list (N * leaf_node)) : res (list bytes * list bytes) :=
  match ls with
  | [] => Ok (sks, eks)
  | (li, l) :: r =>
      let* _ := leaf_verify P l (MkLeafOptions cs gid li creds sks eks (now li)) in
      verify_leaves P cs gid creds now (lp_signature_key (ln_payload l) :: sks)
        (lp_encryption_key (ln_payload l) :: eks) r
  end.

(** Models ratchet_tree/mod.rs:494-501 (has_unmerged_leaf). *)
Definition has_unmerged_leaf (p : parent_node) (li : N) : bool := mem N.eqb li (pn_unmerged p).

(** Models the loop at ratchet_tree/mod.rs:463-480: climb from [x] to [p]. *)
Fixpoint check_unmerged_climb (fuel : nat) (t : tree) (n p li x : N) : res unit :=
  let* y := parent n x in
  match y with
  | None => Err UnmergedLeafIsNotDescendantOfTheParentNode
  | Some y =>
      if y =? p then Ok tt else
      let* _ := match tget t y with
                | Some (Parent q) => if has_unmerged_leaf q li then Ok tt else Err NonBlankIntermediateNodeMissingUnmergedLeaf
                | _ => Ok tt
                end in
      match fuel with O => Hang | S k => check_unmerged_climb k t n p li y end
  end.
(** Models the loop at ratchet_tree/mod.rs:461-481. *)
Fixpoint check_unmerged (t : tree) (n p : N) (l : list N) : res unit :=
  match l with
  | [] => Ok tt
  | li :: r =>
      let* x := node_index li in
      let* _ := check_unmerged_climb 33 t n p li x in
      check_unmerged t n p r
  end.
(** Models the loop at ratchet_tree/mod.rs:458-488 from index [i] on. *)
Fixpoint check_parents (t : tree) (n i : N) (eks : list bytes) (l : list (option node)) : res unit :=
  match l with
  | [] => Ok tt
  | Some (Parent p) :: r =>
      let* _ := check_unmerged t n (i mod 4294967296) (pn_unmerged p) in
      if mem bytes_eqb (pn_encryption_key p) eks then Err DuplicateEncryptionKeyInRatchetTree else
      check_parents t n (i + 1) (pn_encryption_key p :: eks) r
  | _ :: r => check_parents t n (i + 1) eks r
  end.

(** Models ratchet_tree/mod.rs:414-491 (verify_integrity). *)
Definition verify_integrity (P : provider) (t : tree) (ctx : group_context) (now : N -> Z) : res unit :=
  let cs := gc_suite ctx in
  let* h := root_tree_hash P cs t in
  if negb (bytes_eqb h (gc_tree_hash ctx)) then Err TreeHashVerificationFailed else
  let* b := verify_parent_hashes P cs t in
  if negb b then Err ParentHashesVerificationFailed else
  let* creds := supported_creds t in
  let* ls := leaves t in
  let* (_, eks) := verify_leaves P cs (gc_group_id ctx) creds now [] [] ls in
  check_parents t (num_leaves t) 0 eks t.

(* ------------------------------------------------------------------------------------------- *)
(** * find_leaf *)

(** Models the body of the loop at ratchet_tree/mod.rs:711-725; [LeafIndex(0), false] at the end. *)
Fixpoint find_leaf_in (node : leaf_node) (ls : list (N * leaf_node)) : res (N * bool) :=
  match ls with
  | [] => Ok (0, false)
  | (li, n) :: r =>
      if negb (bytes_eqb (lp_encryption_key (ln_payload n)) (lp_encryption_key (ln_payload node)))
      then find_leaf_in node r
      else match se_leaf_node node, se_leaf_node n with
           | Ok a, Ok b => Ok (li, bytes_eqb a b)
           | Panic, _ | _, Panic => Panic
           | Hang, _ | _, Hang => Hang
           | _, _ => Ok (li, false)
           end
  end.
(** Models ratchet_tree/mod.rs:710-727 (find_leaf). *)
Definition find_leaf (t : tree) (node : leaf_node) : res (N * bool) :=
  let* ls := leaves t in find_leaf_in node ls.

(* ------------------------------------------------------------------------------------------- *)
(** * Evolution *)

(** Models the loop at ratchet_tree/mod.rs:734-744: [li], [ni] and [found] on exit. *)
Fixpoint find_blank (fuel : nat) (t : tree) (li : N) : res (N * N * bool) :=
  let* ni := node_index li in
  if tlen t <=? ni then Ok (li, ni, false) else
  match tget t ni with
  | None => Ok (li, ni, true)
  | Some _ => match fuel with O => Hang | S k => let* li := add32 li 1 in find_blank k t li end
  end.

(** Models ratchet_tree/mod.rs:761-763. *)
Definition push_unmerged (li : N) (t : tree) (p : N) : tree :=
  match tget t p with
  | Some (Parent q) =>
      tset t p (Some (Parent (MkParentNode (pn_encryption_key q) (pn_parent_hash q) (pn_unmerged q ++ [li])%list)))
  | _ => t
  end.

(** Models ratchet_tree/mod.rs:730-767 (add). [usize] arithmetic does not overflow on an array in memory. *)
Definition tree_add (t : tree) (l : leaf_node) : res tree :=
  let* (li, ni, found) := find_blank (length t) t 0 in
  let* (ni, t) :=
    if found : bool then Ok (ni, t) else
    let* ni := add32 (tlen32 t) 1 in
    Ok (ni, t ++ repeat None (S (length t)))%list in
  let* path := climb 33 (num_leaves t) ni in
  Ok (tset (fold_left (push_unmerged li) path t) ni (Some (Leaf l))).

(** [self.set(p, None)], as in ratchet_tree/mod.rs:782, 792, 863. *)
Definition blank (t : tree) (p : N) : tree := tset t p None.

(** Models ratchet_tree/mod.rs:770-784 (update). *)
Definition tree_update (t : tree) (li : N) (l : leaf_node) : res tree :=
  let* ni := node_index li in
  let t := tset t ni (Some (Leaf l)) in
  let* path := climb 33 (num_leaves t) ni in
  Ok (fold_left blank path t).

(** Models the loop at ratchet_tree/mod.rs:803-818 from leaf [k] down: [None] is [clear] and return. *)
Fixpoint scan_down (k : nat) (t : tree) (lp : N) : res (option N) :=
  let* ni := node_index (N.of_nat k) in
  match tget t ni with
  | Some _ => Ok (Some lp)
  | None =>
      let lp := if is_power_of_two ni then ni else lp in
      match k with O => Ok None | S j => scan_down j t lp end
  end.

(** Models ratchet_tree/mod.rs:787-823 (remove). *)
Definition tree_remove (t : tree) (li : N) : res tree :=
  let* ni := node_index li in
  let n := num_leaves t in
  let* path := climb 33 n ni in
  let t := fold_left blank (ni :: path) t in
  let* last := sub32 n 1 in
  let* lp := scan_down (N.to_nat last) t (tlen t) in
  Ok match lp with
     | None => []
     | Some lp => if lp <? tlen t then firstn (N.to_nat lp) t else t
     end.

(** Models the loop at ratchet_tree/mod.rs:829-845. *)
Fixpoint filtered_path_f (fuel : nat) (t : tree) (n x : N) : res (list N) :=
  let* p := parent n x in
  match p with
  | None => Ok []
  | Some p =>
      let* s := sibling n x in
      match s with
      | None => Err InvalidSibling
      | Some s =>
          let* r := resolve t s in
          match fuel with
          | O => Hang
          | S k => let* path := filtered_path_f k t n p in
                   Ok (if Nat.eqb (length r) 0 then path else p :: path)
          end
      end
  end.
(** Models ratchet_tree/mod.rs:825-848 (filtered_direct_path). *)
Definition filtered_direct_path (t : tree) (x : N) : res (list N) := filtered_path_f 33 t (num_leaves t) x.

(** Models ratchet_tree/mod.rs:870-879: write the keys of the update path. *)
Fixpoint set_path_keys (t : tree) (path : list N) (nodes : list update_path_node) : tree :=
  match path, nodes with
  | ni :: path, u :: nodes =>
      set_path_keys (tset t ni (Some (Parent (MkParentNode (upn_encryption_key u) [] [])))) path nodes
  | _, _ => t
  end.

(** Models the choice of the hashed child at ratchet_tree/mod.rs:893-903. *)
Definition copath_child (direct : list N) (sender l r : N) : N :=
  if (l =? sender) || mem N.eqb l direct then r else l.

(** Models the loop at ratchet_tree/mod.rs:884-927 over the reversed filtered path; [prev] is
    [prev_parent_hash]. Returns the tree as it stands when the loop ends or an error leaves it. *)
Fixpoint set_parent_hashes (P : provider) (cs : cipher_suite) (direct : list N) (sender : N)
    (t : tree) (prev : option bytes) (rpath : list N) : tree * res (option bytes) :=
  match rpath with
  | [] => (t, Ok prev)
  | ni :: rest =>
      match tget t ni with
      | Some (Parent p) =>
          match children ni with
          | Ok None => (t, Err InvalidChildren)
          | Ok (Some (l, r)) =>
              match tree_hash P cs t (copath_child direct sender l r) [] with
              | Ok th =>
                  let ph := match prev with Some h => h | None => [] end in
                  let q := MkParentNode (pn_encryption_key p) ph (pn_unmerged p) in
                  let t := tset t ni (Some (Parent q)) in
                  match parent_hash P cs q th with
                  | Ok h => set_parent_hashes P cs direct sender t (Some h) rest
                  | Err e => (t, Err e) | Panic => (t, Panic) | Hang => (t, Hang)
                  end
              | Err e => (t, Err e) | Panic => (t, Panic) | Hang => (t, Hang)
              end
          | Err e => (t, Err e) | Panic => (t, Panic) | Hang => (t, Hang)
          end
      | _ => set_parent_hashes P cs direct sender t prev rest
      end
  end.

(** The [?] of a method that changes the tree in place (ratchet_tree/mod.rs:715-900): runs [m]; if it is not [Ok], the call ends there with the tree [t]. *)
Definition tbind {A} (t : tree) (m : res A) (k : A -> tree * res unit) : tree * res unit :=
  match m with Ok a => k a | Err e => (t, Err e) | Panic => (t, Panic) | Hang => (t, Hang) end.

(** Models ratchet_tree/mod.rs:851-942 (merge_update_path): the tree afterwards, and the result. *)
Definition merge_update_path (P : provider) (cs : cipher_suite) (t : tree) (sender : N) (path : update_path) : tree * res unit :=
  tbind t (node_index sender) (fun sni =>
  tbind t (direct_path (num_leaves t) sni) (fun direct =>
  let t := fold_left blank direct t in
  tbind t (filtered_direct_path t sni) (fun fpath =>
  if negb (Nat.eqb (length fpath) (length (up_nodes path)))
  then (t, Err UpdatePathAndFilteredDirectPathHasDifferentNode) else
  let t := set_path_keys t fpath (up_nodes path) in
  let (t, prev) := set_parent_hashes P cs direct sni t None (rev fpath) in
  tbind t prev (fun prev =>
  match lp_source (ln_payload (up_leaf path)), prev with
  | LSCommit ph, Some h =>
      if negb (bytes_eqb ph h) then (t, Err ParentHashMismatchForUpdatePathLeafNode)
      else (tset t sni (Some (Leaf (up_leaf path))), Ok tt)
  | _, _ => (t, Err ParentHashMismatchForUpdatePathLeafNode)
  end)))).

(** Models ratchet_tree/mod.rs:947-951; [senders[i]] panics when there is no such element. *)
Fixpoint apply_updates (t : tree) (ps : list proposal) (senders : list N) (i : nat) : res tree :=
  match ps with
  | [] => Ok t
  | PUpdate l :: r =>
      match nth_error senders i with
      | None => Panic
      | Some s => let* t := tree_update t s (upd_leaf l) in apply_updates t r senders (S i)
      end
  | _ :: r => apply_updates t r senders (S i)
  end.
(** Models ratchet_tree/mod.rs:954-958. *)
Fixpoint apply_removes (t : tree) (ps : list proposal) : res tree :=
  match ps with
  | [] => Ok t
  | PRemove m :: r => let* t := tree_remove t (rem_removed m) in apply_removes t r
  | _ :: r => apply_removes t r
  end.
(** Models ratchet_tree/mod.rs:961-965. *)
Fixpoint apply_adds (t : tree) (ps : list proposal) : res tree :=
  match ps with
  | [] => Ok t
  | PAdd a :: r => let* t := tree_add t (kp_leaf (kp_payload (add_key_package a))) in apply_adds t r
  | _ :: r => apply_adds t r
  end.
(** Models ratchet_tree/mod.rs:945-966 (apply). *)
Definition tree_apply (t : tree) (ps : list proposal) (senders : list N) : res tree :=
  let* t := apply_updates t ps senders 0 in
  let* t := apply_removes t ps in
  apply_adds t ps.
