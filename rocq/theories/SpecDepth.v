(** How deep calls nest. The functions below do what the recursive functions of RatchetTree.v and SecretTree.v with the same names
    ([d_] in front) do, and note how many calls of the function are open at the same time at most. There are three such functions in the code;
    everything else loops, or calls what is written before it. [fuel] is only there to make them total: it can be as large as one
    likes, as the theorems are for every [fuel]. *)
From Verif Require Export RatchetTree SecretTree.
Local Open Scope N_scope.

(** How a call ends, and how many calls were open at most. *)
Definition nested (A : Type) : Type := (res A * N)%type.
Definition deepest {A} (m : nested A) : N := snd m.
(** Without a call. *)
Definition flat {A} (m : res A) : nested A := (m, 0).
(** One call more is open. *)
Definition entering {A} (m : nested A) : nested A := (fst m, 1 + snd m).
Definition nbind {A B} (m : nested A) (k : A -> nested B) : nested B :=
  match fst m with
  | Ok a => let p := k a in (fst p, N.max (snd m) (snd p))
  | Err e => (Err e, snd m) | Panic => (Panic, snd m) | Hang => (Hang, snd m)
  end.

(** ratchet_tree/mod.rs:343-363 (resolve) *)
Fixpoint d_resolve_f (fuel : nat) (t : tree) (x : N) : nested (list N) :=
  entering match tget t x with
  | Some (Parent p) => flat (let* u := node_indices (pn_unmerged p) in Ok (x :: u))
  | Some (Leaf _) => flat (Ok [x])
  | None =>
      nbind (flat (children x)) (fun c =>
      match c with
      | None => flat (Ok [])
      | Some (l, r) =>
          match fuel with
          | O => flat Hang
          | S k => nbind (d_resolve_f k t l) (fun a => nbind (d_resolve_f k t r) (fun b => flat (Ok (a ++ b)%list)))
          end
      end)
  end.

(** ratchet_tree/mod.rs:518-590 (compute_tree_hash) *)
Fixpoint d_tree_hash_f (fuel : nat) (P : provider) (cs : cipher_suite) (t : tree) (x : N) (excl : list N) : nested bytes :=
  entering (nbind
    match leaf_index x with
    | Some li => flat (let* l := hashed_leaf (tget t x) (mem N.eqb li excl) in leaf_hash_input li l)
    | None =>
        nbind (flat (children x)) (fun c =>
        match c with
        | None => flat (Err InvalidChildren)
        | Some (l, r) =>
            match fuel with
            | O => flat Hang
            | S k =>
                nbind (d_tree_hash_f k P cs t l excl) (fun lh =>
                nbind (d_tree_hash_f k P cs t r excl) (fun rh =>
                flat (let* p := hashed_parent (tget t x) excl in parent_node_hash_input p lh rh)))
            end
        end)
    end
    (fun input => flat (let* h := p_hash P cs in Ok (h_digest h input)))).

(** secret_tree/mod.rs:72-106 (derive_children) *)
Fixpoint d_derive_children (fuel : nat) (P : provider) (cs : cipher_suite) (t : secret_tree) (x : N) : nested secret_tree :=
  entering (nbind (flat (children x)) (fun c =>
  match c with
  | None => flat (Ok t)
  | Some (l, r) =>
      match fuel with
      | O => flat Hang
      | S fuel =>
          match sget t x with
          | None => flat (Err InvalidParentNode)
          | Some s =>
              nbind (flat (let* k := p_hpke P cs in
                           let nh := k_extract_size k mod 65536 in
                           let* ls := expand_with_label P cs s (str "tree") (str "left") nh in
                           let* rs := expand_with_label P cs s (str "tree") (str "right") nh in
                           Ok (ls, rs))) (fun '(ls, rs) =>
              let t := sset t l ls in
              let t := sset t r rs in
              nbind (d_derive_children fuel P cs t l) (fun t => d_derive_children fuel P cs t r))
          end
      end
  end)).
