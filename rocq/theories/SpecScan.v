(** What looking up unmerged leaves costs when a tree is checked. The functions below do what those of RatchetTree.v with the same
    names (without [s_]) do, and count the comparisons made while a list of unmerged leaves is searched from its start for an entry
    (has_unmerged_leaf, ratchet_tree/mod.rs:494-501). That they do the same is a theorem (C103_scans_same). *)
From Verif Require Export RatchetTree SpecRatchet SpecCost.
Local Open Scope N_scope.

Definition scanning (A : Type) : Type := (res A * N)%type.
Definition unscanned {A} (m : res A) : scanning A := (m, 0).
Definition sbind {A B} (m : scanning A) (k : A -> scanning B) : scanning B :=
  match fst m with
  | Ok a => (fst (k a), snd m + snd (k a))
  | Err e => (Err e, snd m) | Panic => (Panic, snd m) | Hang => (Hang, snd m)
  end.

(** ratchet_tree/mod.rs:494-501: one comparison for each entry up to the one found, or for all of them. *)
Fixpoint s_search (li : N) (l : list N) : bool * N :=
  match l with
  | [] => (false, 0)
  | x :: r => if x =? li then (true, 1) else (fst (s_search li r), 1 + snd (s_search li r))
  end.

(** ratchet_tree/mod.rs:463-480 *)
Fixpoint s_check_unmerged_climb (fuel : nat) (t : tree) (n p li x : N) : scanning unit :=
  sbind (unscanned (parent n x)) (fun y =>
  match y with
  | None => unscanned (Err UnmergedLeafIsNotDescendantOfTheParentNode)
  | Some y =>
      if y =? p then unscanned (Ok tt) else
      sbind match tget t y with
            | Some (Parent q) => let found := s_search li (pn_unmerged q) in
                (if fst found then Ok tt else Err NonBlankIntermediateNodeMissingUnmergedLeaf, snd found)
            | _ => unscanned (Ok tt)
            end (fun _ =>
      match fuel with O => unscanned Hang | S k => s_check_unmerged_climb k t n p li y end)
  end).
(** ratchet_tree/mod.rs:461-481 *)
Fixpoint s_check_unmerged (t : tree) (n p : N) (l : list N) : scanning unit :=
  match l with
  | [] => unscanned (Ok tt)
  | li :: r => sbind (unscanned (node_index li)) (fun x => sbind (s_check_unmerged_climb 33 t n p li x) (fun _ => s_check_unmerged t n p r))
  end.
(** ratchet_tree/mod.rs:458-488 *)
Fixpoint s_check_parents (t : tree) (n i : N) (eks : list bytes) (l : list (option node)) : scanning unit :=
  match l with
  | [] => unscanned (Ok tt)
  | Some (Parent p) :: r => sbind (s_check_unmerged t n (i mod 4294967296) (pn_unmerged p)) (fun _ =>
      if mem bytes_eqb (pn_encryption_key p) eks then unscanned (Err DuplicateEncryptionKeyInRatchetTree) else
      s_check_parents t n (i + 1) (pn_encryption_key p :: eks) r)
  | _ :: r => s_check_parents t n (i + 1) eks r
  end.
(** ratchet_tree/mod.rs:414-491 *)
Definition s_verify_integrity (P : provider) (t : tree) (ctx : group_context) (now : N -> Z) : scanning unit :=
  let cs := gc_suite ctx in
  sbind (unscanned (root_tree_hash P cs t)) (fun h =>
  if negb (bytes_eqb h (gc_tree_hash ctx)) then unscanned (Err TreeHashVerificationFailed) else
  sbind (unscanned (verify_parent_hashes P cs t)) (fun b =>
  if negb b then unscanned (Err ParentHashesVerificationFailed) else
  sbind (unscanned (supported_creds t)) (fun creds =>
  sbind (unscanned (leaves t)) (fun ls =>
  sbind (unscanned (verify_leaves P cs (gc_group_id ctx) creds now [] [] ls)) (fun ks =>
  s_check_parents t (num_leaves t) 0 (snd ks) t))))).

(** The length of the longest list of unmerged leaves in a tree. *)
Definition longest_unmerged (t : tree) : N :=
  fold_right N.max 0 (map (fun nd => match nd with Some (Parent p) => N.of_nat (length (pn_unmerged p)) | _ => 0 end) t).
