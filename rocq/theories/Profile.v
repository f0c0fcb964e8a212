(** The code whose results depend on the build profile. Rust checks the arithmetic of u32 in the dev profile and not in the
    release profile (/repo/Cargo.toml:7-8 changes only the optimisation level of the dev profile), so the functions of TreeMath.v,
    RatchetTree.v and SecretTree.v that add, subtract, multiply or shift appear here once more with the arithmetic as a parameter
    [A]; ProfileFacts.v shows that with the arithmetic of the dev profile they are the functions of those files. The other
    functions have no arithmetic that can overflow. *)
From Verif Require Export RatchetTree SecretTree.
Local Open Scope N_scope.

(** The u32 operations [+], [-], [*], [<<] and [>>] of tree_math/mod.rs:38-197, ratchet_tree/mod.rs:734-803 and
    secret_tree/mod.rs:203. *)
Record arith : Type := MkArith {
  ar_add : N -> N -> res N;
  ar_sub : N -> N -> res N;
  ar_mul : N -> N -> res N;
  ar_shl : N -> N -> res N;
  ar_shr : N -> N -> res N
}.

(** The dev profile, for the operations of tree_math/mod.rs:38-197: an operation that overflows panics. *)
Definition dev : arith := MkArith add32 sub32 mul32 shl32 shr32.

(** The release profile, for the operations of tree_math/mod.rs:38-197: results are taken modulo 2^32, and the distance of a
    shift modulo 32. *)
Definition release : arith :=
  MkArith (fun a b => Ok ((a + b) mod 4294967296))
          (fun a b => Ok (if b <=? a then a - b else a + 4294967296 - b))
          (fun a b => Ok ((a * b) mod 4294967296))
          (fun a s => Ok (N.shiftl a (s mod 32) mod 4294967296))
          (fun a s => Ok (N.shiftr a (s mod 32))).

Section Build.
Variable A : arith.

(** Models tree_math/mod.rs:43-49 (NumLeaves::width). *)
Definition width_w (n : N) : res N :=
  if n =? 0 then Ok 0 else
  let* m := ar_sub A n 1 in let* m := ar_mul A 2 m in ar_add A m 1.

(** Models tree_math/mod.rs:52-54 (NumLeaves::root). *)
Definition root_w (n : N) : res N :=
  let* w := width_w n in let* l := ilog2 w in let* s := ar_shl A 1 l in ar_sub A s 1.

(** Models the loop at tree_math/mod.rs:177-179. [fuel] bounds the iterations. *)
Fixpoint level_loop_w (fuel : nat) (x lvl : N) : res N :=
  let* s := ar_shr A x lvl in
  if N.land s 1 =? 1
  then match fuel with O => Hang | S k => let* lvl := ar_add A lvl 1 in level_loop_w k x lvl end
  else Ok lvl.

(** Models tree_math/mod.rs:172-181 (NodeIndex::level). *)
Definition level_w (x : N) : res N := if N.land x 1 =? 0 then Ok 0 else level_loop_w 33 x 0.

(** Models tree_math/mod.rs:195-197 (LeafIndex::node_index). *)
Definition node_index_w (li : N) : res N := ar_mul A 2 li.

(** Models tree_math/mod.rs:141-148 (NodeIndex::left). *)
Definition left_w (x : N) : res (option N) :=
  let* lvl := level_w x in
  if lvl =? 0 then Ok None else
  let* l := ar_sub A lvl 1 in let* b := ar_shl A 1 l in Ok (Some (N.lxor x b)).

(** Models tree_math/mod.rs:151-158 (NodeIndex::right). *)
Definition right_w (x : N) : res (option N) :=
  let* lvl := level_w x in
  if lvl =? 0 then Ok None else
  let* l := ar_sub A lvl 1 in let* b := ar_shl A 3 l in Ok (Some (N.lxor x b)).

(** Models tree_math/mod.rs:161-168 (NodeIndex::children). The second [ok] is ignored in the code;
    [right] is [None] only if [left] is. *)
Definition children_w (x : N) : res (option (N * N)) :=
  let* l := left_w x in
  match l with
  | None => Ok None
  | Some l => let* r := right_w x in Ok (Some (l, match r with Some r => r | None => 0 end))
  end.

(** Models tree_math/mod.rs:57-65 (NumLeaves::parent). *)
Definition parent_w (n x : N) : res (option N) :=
  let* r := root_w n in
  if x =? r then Ok None else
  let* lvl := level_w x in
  let* l1 := ar_add A lvl 1 in
  let* s := ar_shr A x l1 in
  let b := N.land s 1 in
  let* u := ar_shl A 1 lvl in
  let* v := ar_shl A b l1 in
  Ok (Some (N.lxor (N.lor x u) v)).

(** Models tree_math/mod.rs:68-78 (NumLeaves::sibling). *)
Definition sibling_w (n x : N) : res (option N) :=
  let* p := parent_w n x in
  match p with
  | None => Ok None
  | Some p => if x <? p then right_w p else left_w p
  end.

(** Models tree_math/mod.rs:81-92 (NumLeaves::direct_path): the loop, with [fuel] iterations allowed. *)
Fixpoint climb_w (fuel : nat) (n x : N) : res (list N) :=
  let* p := parent_w n x in
  match p with
  | None => Ok []
  | Some p => match fuel with O => Hang | S k => let* l := climb_w k n p in Ok (p :: l) end
  end.

(** Models tree_math/mod.rs:81-92 (NumLeaves::direct_path): a path has at most 32 steps. *)
Definition direct_path_w (n x : N) : res (list N) := climb_w 33 n x.

(** Models the loop at tree_math/mod.rs:104-110. *)
Fixpoint siblings_w (n : N) (path : list N) : res (list N) :=
  match path with
  | [] => Ok []
  | y :: r => let* s := sibling_w n y in
              match s with
              | None => Err InvalidSibling
              | Some s => let* l := siblings_w n r in Ok (s :: l)
              end
  end.

(** Models tree_math/mod.rs:95-113 (NumLeaves::copath). [removelast (x :: path)] is
    [path.insert(0, x); path.pop()]. *)
Definition copath_w (n x : N) : res (list N) :=
  let* path := direct_path_w n x in
  match path with [] => Ok [] | _ => siblings_w n (removelast (x :: path)) end.

(** Models ratchet_tree/mod.rs:334-340 (get_leaf). *)
Definition get_leaf_w (t : tree) (li : N) : res (option leaf_node) :=
  let* ni := node_index_w li in
  Ok match tget t ni with Some (Leaf l) => Some l | _ => None end.

(** [leaf_indices.map(node_index)], as in the loop at ratchet_tree/mod.rs:347-349. *)
Fixpoint node_indices_w (l : list N) : res (list N) :=
  match l with
  | [] => Ok []
  | li :: r => let* ni := node_index_w li in let* r := node_indices_w r in Ok (ni :: r)
  end.

(** Models ratchet_tree/mod.rs:343-363 (resolve). The recursion goes down one level at a time; [fuel]
    bounds its depth. *)
Fixpoint resolve_f_w (fuel : nat) (t : tree) (x : N) : res (list N) :=
  match tget t x with
  | Some (Parent p) => let* u := node_indices_w (pn_unmerged p) in Ok (x :: u)
  | Some (Leaf _) => Ok [x]
  | None =>
      let* c := children_w x in
      match c with
      | None => Ok []
      | Some (l, r) =>
          match fuel with
          | O => Hang
          | S k => let* a := resolve_f_w k t l in let* b := resolve_f_w k t r in Ok (a ++ b)%list
          end
      end
  end.

(** Models ratchet_tree/mod.rs:343-363 (resolve): at most 32 levels. *)
Definition resolve_w (t : tree) (x : N) : res (list N) := resolve_f_w 33 t x.

(** The loop header [for li in 0..self.num_leaves().0 { if let Some(node) = self.get_leaf(LeafIndex(li))]
    shared by ratchet_tree/mod.rs:369-370, 398-399, 438-439 and 711-712: the non-blank leaves with their
    indices, in order. [fuel] is the number of iterations. *)
Fixpoint leaves_from_w (fuel : nat) (t : tree) (li : N) : res (list (N * leaf_node)) :=
  match fuel with
  | O => Ok []
  | S k =>
      let* o := get_leaf_w t li in
      let* r := leaves_from_w k t (li + 1) in
      Ok match o with Some l => (li, l) :: r | None => r end
  end.

(** The whole loop of ratchet_tree/mod.rs:369-370, 398-399, 438-439 and 711-712. *)
Definition leaves_w (t : tree) : res (list (N * leaf_node)) := leaves_from_w (N.to_nat (num_leaves t)) t 0.

(** Models ratchet_tree/mod.rs:366-390 (supported_creds). The result set is a list; its order, which is
    the map's iteration order in the code, is irrelevant to every use. *)
Definition supported_creds_w (t : tree) : res (list credential_type) :=
  let* ls := leaves_w t in
  let counts := fold_left (fun m (il : N * leaf_node) =>
      fold_left (fun m ct => bump ct m) (cap_credentials (lp_capabilities (ln_payload (snd il)))) m) ls [] in
  Ok (map fst (filter (fun cn : credential_type * N => snd cn =? N.of_nat (length ls)) counts)).

(** Models ratchet_tree/mod.rs:393-405 (keys). *)
Definition keys_w (t : tree) : res (list bytes * list bytes) :=
  let* ls := leaves_w t in
  Ok (map (fun il : N * leaf_node => lp_signature_key (ln_payload (snd il))) ls,
      map (fun il : N * leaf_node => lp_encryption_key (ln_payload (snd il))) ls).

(** Models ratchet_tree/mod.rs:518-590 (compute_tree_hash); [excl] is the set of excluded leaves, [fuel]
    bounds the depth of the recursion. *)
Fixpoint tree_hash_f_w (fuel : nat) (P : provider) (cs : cipher_suite) (t : tree) (x : N) (excl : list N) : res bytes :=
  let* input :=
    match leaf_index x with
    | Some li => let* l := hashed_leaf (tget t x) (mem N.eqb li excl) in leaf_hash_input li l
    | None =>
        let* c := children_w x in
        match c with
        | None => Err InvalidChildren
        | Some (l, r) =>
            match fuel with
            | O => Hang
            | S k =>
                let* lh := tree_hash_f_w k P cs t l excl in
                let* rh := tree_hash_f_w k P cs t r excl in
                let* p := hashed_parent (tget t x) excl in
                parent_node_hash_input p lh rh
            end
        end
    end in
  let* h := p_hash P cs in Ok (h_digest h input).

(** Models ratchet_tree/mod.rs:518-590 (compute_tree_hash): at most 32 levels. *)
Definition tree_hash_w := tree_hash_f_w 33.

(** Models ratchet_tree/mod.rs:504-515 (compute_root_tree_hash). *)
Definition root_tree_hash_w (P : provider) (cs : cipher_suite) (t : tree) : res bytes :=
  let* r := root_w (num_leaves t) in tree_hash_w P cs t r [].

(** The loop body of ratchet_tree/mod.rs:628-682 for the node [nd] at index [x]: [Ok true] goes on to the
    next node, [Ok false] is [return false]. *)
Definition check_parent_hash_w (P : provider) (cs : cipher_suite) (t : tree) (x : N) (nd : option node) : res bool :=
  match nd with
  | None => Ok true
  | Some nd =>
      let* c := children_w x in
      match c with
      | None => Ok true
      | Some (l, r) =>
          match nd with
          | Leaf _ => Ok true
          | Parent p =>
              ok_or_false (tree_hash_w P cs t l (pn_unmerged p)) (fun lh =>
              ok_or_false (tree_hash_w P cs t r (pn_unmerged p)) (fun rh =>
              ok_or_false (parent_hash P cs p rh) (fun lph =>
              ok_or_false (parent_hash P cs p lh) (fun rph =>
                let* resl := resolve_w t l in
                let* resr := resolve_w t r in
                Ok (negb (Bool.eqb (find_parent_hash t resl lph) (find_parent_hash t resr rph)))))))
          end
      end
  end.

(** Models the loop at ratchet_tree/mod.rs:627-684 from index [i] on; [i as u32] truncates. *)
Fixpoint verify_parent_hashes_from_w (P : provider) (cs : cipher_suite) (t : tree) (i : N) (l : list (option node)) : res bool :=
  match l with
  | [] => Ok true
  | nd :: r =>
      let* b := check_parent_hash_w P cs t (i mod 4294967296) nd in
      if b then verify_parent_hashes_from_w P cs t (i + 1) r else Ok false
  end.

(** Models ratchet_tree/mod.rs:622-685 (verify_parent_hashes). *)
Definition verify_parent_hashes_w (P : provider) (cs : cipher_suite) (t : tree) : res bool :=
  verify_parent_hashes_from_w P cs t 0 t.

(** Models the loop at ratchet_tree/mod.rs:463-480: climb from [x] to [p]. *)
Fixpoint check_unmerged_climb_w (fuel : nat) (t : tree) (n p li x : N) : res unit :=
  let* y := parent_w n x in
  match y with
  | None => Err UnmergedLeafIsNotDescendantOfTheParentNode
  | Some y =>
      if y =? p then Ok tt else
      let* _ := match tget t y with
                | Some (Parent q) => if has_unmerged_leaf q li then Ok tt else Err NonBlankIntermediateNodeMissingUnmergedLeaf
                | _ => Ok tt
                end in
      match fuel with O => Hang | S k => check_unmerged_climb_w k t n p li y end
  end.

(** Models the loop at ratchet_tree/mod.rs:461-481. *)
Fixpoint check_unmerged_w (t : tree) (n p : N) (l : list N) : res unit :=
  match l with
  | [] => Ok tt
  | li :: r =>
      let* x := node_index_w li in
      let* _ := check_unmerged_climb_w 33 t n p li x in
      check_unmerged_w t n p r
  end.

(** Models the loop at ratchet_tree/mod.rs:458-488 from index [i] on. *)
Fixpoint check_parents_w (t : tree) (n i : N) (eks : list bytes) (l : list (option node)) : res unit :=
  match l with
  | [] => Ok tt
  | Some (Parent p) :: r =>
      let* _ := check_unmerged_w t n (i mod 4294967296) (pn_unmerged p) in
      if mem bytes_eqb (pn_encryption_key p) eks then Err DuplicateEncryptionKeyInRatchetTree else
      check_parents_w t n (i + 1) (pn_encryption_key p :: eks) r
  | _ :: r => check_parents_w t n (i + 1) eks r
  end.

(** Models ratchet_tree/mod.rs:414-491 (verify_integrity). *)
Definition verify_integrity_w (P : provider) (t : tree) (ctx : group_context) (now : N -> Z) : res unit :=
  let cs := gc_suite ctx in
  let* h := root_tree_hash_w P cs t in
  if negb (bytes_eqb h (gc_tree_hash ctx)) then Err TreeHashVerificationFailed else
  let* b := verify_parent_hashes_w P cs t in
  if negb b then Err ParentHashesVerificationFailed else
  let* creds := supported_creds_w t in
  let* ls := leaves_w t in
  let* (_, eks) := verify_leaves P cs (gc_group_id ctx) creds now [] [] ls in
  check_parents_w t (num_leaves t) 0 eks t.

(** Models ratchet_tree/mod.rs:710-727 (find_leaf). *)
Definition find_leaf_w (t : tree) (node : leaf_node) : res (N * bool) :=
  let* ls := leaves_w t in find_leaf_in node ls.

(** Models the loop at ratchet_tree/mod.rs:734-744: [li], [ni] and [found] on exit. *)
Fixpoint find_blank_w (fuel : nat) (t : tree) (li : N) : res (N * N * bool) :=
  let* ni := node_index_w li in
  if tlen t <=? ni then Ok (li, ni, false) else
  match tget t ni with
  | None => Ok (li, ni, true)
  | Some _ => match fuel with O => Hang | S k => let* li := ar_add A li 1 in find_blank_w k t li end
  end.

(** Models ratchet_tree/mod.rs:730-767 (add). [usize] arithmetic does not overflow on an array in memory. *)
Definition tree_add_w (t : tree) (l : leaf_node) : res tree :=
  let* (li, ni, found) := find_blank_w (length t) t 0 in
  let* (ni, t) :=
    if found : bool then Ok (ni, t) else
    let* ni := ar_add A (tlen32 t) 1 in
    Ok (ni, t ++ repeat None (S (length t)))%list in
  let* path := climb_w 33 (num_leaves t) ni in
  Ok (tset (fold_left (push_unmerged li) path t) ni (Some (Leaf l))).

(** Models ratchet_tree/mod.rs:770-784 (update). *)
Definition tree_update_w (t : tree) (li : N) (l : leaf_node) : res tree :=
  let* ni := node_index_w li in
  let t := tset t ni (Some (Leaf l)) in
  let* path := climb_w 33 (num_leaves t) ni in
  Ok (fold_left blank path t).

(** Models the loop at ratchet_tree/mod.rs:803-818 from leaf [k] down: [None] is [clear] and return. *)
Fixpoint scan_down_w (k : nat) (t : tree) (lp : N) : res (option N) :=
  let* ni := node_index_w (N.of_nat k) in
  match tget t ni with
  | Some _ => Ok (Some lp)
  | None =>
      let lp := if is_power_of_two ni then ni else lp in
      match k with O => Ok None | S j => scan_down_w j t lp end
  end.

(** Models ratchet_tree/mod.rs:787-823 (remove). *)
Definition tree_remove_w (t : tree) (li : N) : res tree :=
  let* ni := node_index_w li in
  let n := num_leaves t in
  let* path := climb_w 33 n ni in
  let t := fold_left blank (ni :: path) t in
  let* last := ar_sub A n 1 in
  let* lp := scan_down_w (N.to_nat last) t (tlen t) in
  Ok match lp with
     | None => []
     | Some lp => if lp <? tlen t then firstn (N.to_nat lp) t else t
     end.

(** Models the loop at ratchet_tree/mod.rs:829-845. *)
Fixpoint filtered_path_f_w (fuel : nat) (t : tree) (n x : N) : res (list N) :=
  let* p := parent_w n x in
  match p with
  | None => Ok []
  | Some p =>
      let* s := sibling_w n x in
      match s with
      | None => Err InvalidSibling
      | Some s =>
          let* r := resolve_w t s in
          match fuel with
          | O => Hang
          | S k => let* path := filtered_path_f_w k t n p in
                   Ok (if Nat.eqb (length r) 0 then path else p :: path)
          end
      end
  end.

(** Models ratchet_tree/mod.rs:825-848 (filtered_direct_path). *)
Definition filtered_direct_path_w (t : tree) (x : N) : res (list N) := filtered_path_f_w 33 t (num_leaves t) x.

(** Models the loop at ratchet_tree/mod.rs:884-927 over the reversed filtered path; [prev] is
    [prev_parent_hash]. Returns the tree as it stands when the loop ends or an error leaves it. *)
Fixpoint set_parent_hashes_w (P : provider) (cs : cipher_suite) (direct : list N) (sender : N)
    (t : tree) (prev : option bytes) (rpath : list N) : tree * res (option bytes) :=
  match rpath with
  | [] => (t, Ok prev)
  | ni :: rest =>
      match tget t ni with
      | Some (Parent p) =>
          match children_w ni with
          | Ok None => (t, Err InvalidChildren)
          | Ok (Some (l, r)) =>
              match tree_hash_w P cs t (copath_child direct sender l r) [] with
              | Ok th =>
                  let ph := match prev with Some h => h | None => [] end in
                  let q := MkParentNode (pn_encryption_key p) ph (pn_unmerged p) in
                  let t := tset t ni (Some (Parent q)) in
                  match parent_hash P cs q th with
                  | Ok h => set_parent_hashes_w P cs direct sender t (Some h) rest
                  | Err e => (t, Err e) | Panic => (t, Panic) | Hang => (t, Hang)
                  end
              | Err e => (t, Err e) | Panic => (t, Panic) | Hang => (t, Hang)
              end
          | Err e => (t, Err e) | Panic => (t, Panic) | Hang => (t, Hang)
          end
      | _ => set_parent_hashes_w P cs direct sender t prev rest
      end
  end.

(** Models ratchet_tree/mod.rs:851-942 (merge_update_path): the tree afterwards, and the result. *)
Definition merge_update_path_w (P : provider) (cs : cipher_suite) (t : tree) (sender : N) (path : update_path) : tree * res unit :=
  tbind t (node_index_w sender) (fun sni =>
  tbind t (direct_path_w (num_leaves t) sni) (fun direct =>
  let t := fold_left blank direct t in
  tbind t (filtered_direct_path_w t sni) (fun fpath =>
  if negb (Nat.eqb (length fpath) (length (up_nodes path)))
  then (t, Err UpdatePathAndFilteredDirectPathHasDifferentNode) else
  let t := set_path_keys t fpath (up_nodes path) in
  let (t, prev) := set_parent_hashes_w P cs direct sni t None (rev fpath) in
  tbind t prev (fun prev =>
  match lp_source (ln_payload (up_leaf path)), prev with
  | LSCommit ph, Some h =>
      if negb (bytes_eqb ph h) then (t, Err ParentHashMismatchForUpdatePathLeafNode)
      else (tset t sni (Some (Leaf (up_leaf path))), Ok tt)
  | _, _ => (t, Err ParentHashMismatchForUpdatePathLeafNode)
  end)))).

(** Models ratchet_tree/mod.rs:947-951; [senders[i]] panics when there is no such element. *)
Fixpoint apply_updates_w (t : tree) (ps : list proposal) (senders : list N) (i : nat) : res tree :=
  match ps with
  | [] => Ok t
  | PUpdate l :: r =>
      match nth_error senders i with
      | None => Panic
      | Some s => let* t := tree_update_w t s (upd_leaf l) in apply_updates_w t r senders (S i)
      end
  | _ :: r => apply_updates_w t r senders (S i)
  end.

(** Models ratchet_tree/mod.rs:954-958. *)
Fixpoint apply_removes_w (t : tree) (ps : list proposal) : res tree :=
  match ps with
  | [] => Ok t
  | PRemove m :: r => let* t := tree_remove_w t (rem_removed m) in apply_removes_w t r
  | _ :: r => apply_removes_w t r
  end.

(** Models ratchet_tree/mod.rs:961-965. *)
Fixpoint apply_adds_w (t : tree) (ps : list proposal) : res tree :=
  match ps with
  | [] => Ok t
  | PAdd a :: r => let* t := tree_add_w t (kp_leaf (kp_payload (add_key_package a))) in apply_adds_w t r
  | _ :: r => apply_adds_w t r
  end.

(** Models ratchet_tree/mod.rs:945-966 (apply). *)
Definition tree_apply_w (t : tree) (ps : list proposal) (senders : list N) : res tree :=
  let* t := apply_updates_w t ps senders 0 in
  let* t := apply_removes_w t ps in
  apply_adds_w t ps.

(** Models secret_tree/mod.rs:72-106 (derive_children). [fuel] bounds the recursion, which descends one level
    at a time; running out is [Hang]. *)
Fixpoint derive_children_w (fuel : nat) (P : provider) (cs : cipher_suite) (t : secret_tree) (x : N) : res secret_tree :=
  let* c := children_w x in
  match c with
  | None => Ok t
  | Some (l, r) =>
      match fuel with
      | O => Hang
      | S fuel =>
          match sget t x with
          | None => Err InvalidParentNode
          | Some s =>
              let* k := p_hpke P cs in
              let nh := k_extract_size k mod 65536 in
              let* ls := expand_with_label P cs s (str "tree") (str "left") nh in
              let* rs := expand_with_label P cs s (str "tree") (str "right") nh in
              let t := sset t l ls in
              let t := sset t r rs in
              let* t := derive_children_w fuel P cs t l in
              derive_children_w fuel P cs t r
          end
      end
  end.

(** Models secret_tree/mod.rs:60-70 (SecretTree::new). A node index has at most 32 levels below it. *)
Definition new_secret_tree_w (P : provider) (cs : cipher_suite) (n : N) (secret : bytes) : res secret_tree :=
  let* w := width_w n in
  let t : secret_tree := repeat None (N.to_nat w) in
  let* r := root_w n in
  let t := sset t r secret in
  derive_children_w 33 P cs t r.

(** Models secret_tree/mod.rs:189-207 (derive_next). *)
Definition derive_next_w (P : provider) (cs : cipher_suite) (r : ratchet_secret) : res ratchet_secret :=
  let* k := p_hpke P cs in
  let* s := derive_tree_secret P cs (rt_secret r) (str "secret") (rt_generation r) (k_extract_size k mod 65536) in
  let* g := ar_add A (rt_generation r) 1 in
  Ok (MkRatchet s g).

End Build.
