(** What checking a tree costs. The functions below do what those of RatchetTree.v with the same names (without [c_]) do, and count
    while they do it: digests computed, signatures verified, and nodes visited to find resolutions and to follow unmerged leaves
    upward. That they do the same is a theorem (C103_same). *)
From Verif Require Export RatchetTree SpecRatchet.
Local Open Scope N_scope.

Record cost : Type := Cost { hashes : N; checks : N; visits : N }.
Definition nothing : cost := Cost 0 0 0.
Definition plus (a b : cost) : cost := Cost (hashes a + hashes b) (checks a + checks b) (visits a + visits b).
Definition costly (A : Type) : Type := (res A * cost)%type.
(** Something that is not counted. *)
Definition free {A} (m : res A) : costly A := (m, nothing).
Definition cbind {A B} (m : costly A) (k : A -> costly B) : costly B :=
  match fst m with
  | Ok a => (fst (k a), plus (snd m) (snd (k a)))
  | Err e => (Err e, snd m) | Panic => (Panic, snd m) | Hang => (Hang, snd m)
  end.
(** Something that costs [c] more. *)
Definition pay {A} (c : cost) (m : costly A) : costly A := (fst m, plus c (snd m)).
Definition one_hash : cost := Cost 1 0 0.
Definition one_check : cost := Cost 0 1 0.
Definition one_visit : cost := Cost 0 0 1.

(** ratchet_tree/mod.rs:518-590 *)
Fixpoint c_tree_hash_f (fuel : nat) (P : provider) (cs : cipher_suite) (t : tree) (x : N) (excl : list N) : costly bytes :=
  cbind match leaf_index x with
        | Some li => free (let* l := hashed_leaf (tget t x) (mem N.eqb li excl) in leaf_hash_input li l)
        | None => cbind (free (children x)) (fun c =>
            match c with
            | None => free (Err InvalidChildren)
            | Some (l, r) =>
                match fuel with
                | O => free Hang
                | S k => cbind (c_tree_hash_f k P cs t l excl) (fun lh => cbind (c_tree_hash_f k P cs t r excl) (fun rh =>
                           free (let* p := hashed_parent (tget t x) excl in parent_node_hash_input p lh rh)))
                end
            end)
        end
        (fun input => pay one_hash (free (let* h := p_hash P cs in Ok (h_digest h input)))).
(** ratchet_tree/mod.rs:504-515 *)
Definition c_root_tree_hash (P : provider) (cs : cipher_suite) (t : tree) : costly bytes :=
  cbind (free (root (num_leaves t))) (fun r => c_tree_hash_f 33 P cs t r []).

(** ratchet_tree/mod.rs:343-363 *)
Fixpoint c_resolve_f (fuel : nat) (t : tree) (x : N) : costly (list N) :=
  pay one_visit
    match tget t x with
    | Some (Parent p) => free (let* u := node_indices (pn_unmerged p) in Ok (x :: u))
    | Some (Leaf _) => free (Ok [x])
    | None => cbind (free (children x)) (fun c =>
        match c with
        | None => free (Ok [])
        | Some (l, r) =>
            match fuel with
            | O => free Hang
            | S k => cbind (c_resolve_f k t l) (fun a => cbind (c_resolve_f k t r) (fun b => free (Ok (a ++ b)%list)))
            end
        end)
    end.

(** ratchet_tree/mod.rs:627-684 *)
Definition c_ok_or_false {A} (m : costly A) (k : A -> costly bool) : costly bool :=
  match fst m with Ok a => (fst (k a), plus (snd m) (snd (k a))) | Err _ => (Ok false, snd m) | Panic => (Panic, snd m) | Hang => (Hang, snd m) end.
Definition c_check_parent_hash (P : provider) (cs : cipher_suite) (t : tree) (x : N) (nd : option node) : costly bool :=
  match nd with
  | None => free (Ok true)
  | Some nd => cbind (free (children x)) (fun c =>
      match c with
      | None => free (Ok true)
      | Some (l, r) =>
          match nd with
          | Leaf _ => free (Ok true)
          | Parent p =>
              c_ok_or_false (c_tree_hash_f 33 P cs t l (pn_unmerged p)) (fun lh =>
              c_ok_or_false (c_tree_hash_f 33 P cs t r (pn_unmerged p)) (fun rh =>
              c_ok_or_false (pay one_hash (free (parent_hash P cs p rh))) (fun lph =>
              c_ok_or_false (pay one_hash (free (parent_hash P cs p lh))) (fun rph =>
                cbind (c_resolve_f 33 t l) (fun resl => cbind (c_resolve_f 33 t r) (fun resr =>
                free (Ok (negb (Bool.eqb (find_parent_hash t resl lph) (find_parent_hash t resr rph))))))))))
          end
      end)
  end.
Fixpoint c_verify_parent_hashes_from (P : provider) (cs : cipher_suite) (t : tree) (i : N) (l : list (option node)) : costly bool :=
  match l with
  | [] => free (Ok true)
  | nd :: r => cbind (c_check_parent_hash P cs t (i mod 4294967296) nd) (fun b =>
      if b : bool then c_verify_parent_hashes_from P cs t (i + 1) r else free (Ok false))
  end.

(** ratchet_tree/mod.rs:438-456; LeafNode::verify verifies one signature. *)
Fixpoint c_verify_leaves (P : provider) (cs : cipher_suite) (gid : bytes) (creds : list credential_type) (now : N -> Z)
    (sks eks : list bytes) (ls : list (N * leaf_node)) : costly (list bytes * list bytes) :=
  match ls with
  | [] => free (Ok (sks, eks))
  | (li, l) :: r => cbind (pay one_check (free (leaf_verify P l (MkLeafOptions cs gid li creds sks eks (now li))))) (fun _ =>
      c_verify_leaves P cs gid creds now (lp_signature_key (ln_payload l) :: sks) (lp_encryption_key (ln_payload l) :: eks) r)
  end.

(** ratchet_tree/mod.rs:458-488 *)
Fixpoint c_check_unmerged_climb (fuel : nat) (t : tree) (n p li x : N) : costly unit :=
  cbind (pay one_visit (free (parent n x))) (fun y =>
  match y with
  | None => free (Err UnmergedLeafIsNotDescendantOfTheParentNode)
  | Some y =>
      if y =? p then free (Ok tt) else
      cbind (free match tget t y with
                  | Some (Parent q) => if has_unmerged_leaf q li then Ok tt else Err NonBlankIntermediateNodeMissingUnmergedLeaf
                  | _ => Ok tt
                  end) (fun _ =>
      match fuel with O => free Hang | S k => c_check_unmerged_climb k t n p li y end)
  end).
Fixpoint c_check_unmerged (t : tree) (n p : N) (l : list N) : costly unit :=
  match l with
  | [] => free (Ok tt)
  | li :: r => cbind (free (node_index li)) (fun x => cbind (c_check_unmerged_climb 33 t n p li x) (fun _ => c_check_unmerged t n p r))
  end.
Fixpoint c_check_parents (t : tree) (n i : N) (eks : list bytes) (l : list (option node)) : costly unit :=
  match l with
  | [] => free (Ok tt)
  | Some (Parent p) :: r => cbind (c_check_unmerged t n (i mod 4294967296) (pn_unmerged p)) (fun _ =>
      if mem bytes_eqb (pn_encryption_key p) eks then free (Err DuplicateEncryptionKeyInRatchetTree) else
      c_check_parents t n (i + 1) (pn_encryption_key p :: eks) r)
  | _ :: r => c_check_parents t n (i + 1) eks r
  end.

(** ratchet_tree/mod.rs:414-491 *)
Definition c_verify_integrity (P : provider) (t : tree) (ctx : group_context) (now : N -> Z) : costly unit :=
  let cs := gc_suite ctx in
  cbind (c_root_tree_hash P cs t) (fun h =>
  if negb (bytes_eqb h (gc_tree_hash ctx)) then free (Err TreeHashVerificationFailed) else
  cbind (c_verify_parent_hashes_from P cs t 0 t) (fun b =>
  if negb b then free (Err ParentHashesVerificationFailed) else
  cbind (free (supported_creds t)) (fun creds =>
  cbind (free (leaves t)) (fun ls =>
  cbind (c_verify_leaves P cs (gc_group_id ctx) creds now [] [] ls) (fun ks =>
  c_check_parents t (num_leaves t) 0 (snd ks) t))))).

(** The entries of all lists of unmerged leaves in a tree. *)
Definition unmerged_entries (t : tree) : N :=
  fold_right N.add 0 (map (fun nd => match nd with Some (Parent p) => N.of_nat (length (pn_unmerged p)) | _ => 0 end) t).
