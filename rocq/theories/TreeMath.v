(** Model of rmls/src/utilities/tree_math/mod.rs. A NodeIndex, LeafIndex or NumLeaves is its u32, as an
    [N]; the pair [(index, ok)] that the code returns is an [option]. Arithmetic is u32 with overflow
    checks: an overflowing operation is [Panic]. *)
From Verif Require Export Base Wire.
Local Open Scope N_scope.

(** [u32::MAX], the bound of the arithmetic at tree_math/mod.rs:43-181. *)
Definition u32_max : N := 4294967295.

(** Rust u32 operations, as at tree_math/mod.rs:47-64: [+], [-], [*] with overflow checks; [<<] and [>>] panic when shifting by 32 or more, and
    [<<] drops the high bits. *)
Definition add32 (a b : N) : res N := if a + b <=? u32_max then Ok (a + b) else Panic.
(** Rust u32 [-], as at tree_math/mod.rs:47, 53. *)
Definition sub32 (a b : N) : res N := if a <? b then Panic else Ok (a - b).
(** Rust u32 [*], as at tree_math/mod.rs:47, 196. *)
Definition mul32 (a b : N) : res N := if a * b <=? u32_max then Ok (a * b) else Panic.
(** Rust u32 [<<], as at tree_math/mod.rs:53, 63. *)
Definition shl32 (a s : N) : res N := if 32 <=? s then Panic else Ok (N.shiftl a s mod 4294967296).
(** Rust u32 [>>], as at tree_math/mod.rs:62, 177. *)
Definition shr32 (a s : N) : res N := if 32 <=? s then Panic else Ok (N.shiftr a s).
(** u32::ilog2 (tree_math/mod.rs:53): panics on zero. *)
Definition ilog2 (a : N) : res N := if a =? 0 then Panic else Ok (N.log2 a).

(** Models tree_math/mod.rs:38-40 (NumLeaves::new). *)
Definition num_leaves_of_width (w : N) : N := if w =? 0 then 0 else (w - 1) / 2 + 1.

(** Models tree_math/mod.rs:43-49 (NumLeaves::width). *)
Definition width (n : N) : res N :=
  if n =? 0 then Ok 0 else
  let* m := sub32 n 1 in let* m := mul32 2 m in add32 m 1.

(** Models tree_math/mod.rs:52-54 (NumLeaves::root). *)
Definition root (n : N) : res N :=
  let* w := width n in let* l := ilog2 w in let* s := shl32 1 l in sub32 s 1.

(** Models the loop at tree_math/mod.rs:177-179. [fuel] bounds the iterations. *)
Fixpoint level_loop (fuel : nat) (x lvl : N) : res N :=
  let* s := shr32 x lvl in
  if N.land s 1 =? 1
  then match fuel with O => Hang | S k => let* lvl := add32 lvl 1 in level_loop k x lvl end
  else Ok lvl.
(** Models tree_math/mod.rs:172-181 (NodeIndex::level). *)
Definition level (x : N) : res N := if N.land x 1 =? 0 then Ok 0 else level_loop 33 x 0.

(** Models tree_math/mod.rs:128-130 (NodeIndex::is_leaf). *)
Definition is_leaf (x : N) : bool := x mod 2 =? 0.
(** Models tree_math/mod.rs:133-138 (NodeIndex::leaf_index). *)
Definition leaf_index (x : N) : option N := if is_leaf x then Some (N.shiftr x 1) else None.
(** Models tree_math/mod.rs:195-197 (LeafIndex::node_index). *)
Definition node_index (li : N) : res N := mul32 2 li.

(** Models tree_math/mod.rs:141-148 (NodeIndex::left). *)
Definition left (x : N) : res (option N) :=
  let* lvl := level x in
  if lvl =? 0 then Ok None else
  let* l := sub32 lvl 1 in let* b := shl32 1 l in Ok (Some (N.lxor x b)).
(** Models tree_math/mod.rs:151-158 (NodeIndex::right). *)
Definition right (x : N) : res (option N) :=
  let* lvl := level x in
  if lvl =? 0 then Ok None else
  let* l := sub32 lvl 1 in let* b := shl32 3 l in Ok (Some (N.lxor x b)).
(** Models tree_math/mod.rs:161-168 (NodeIndex::children). The second [ok] is ignored in the code;
    [right] is [None] only if [left] is. *)
Definition children (x : N) : res (option (N * N)) :=
  let* l := left x in
  match l with
  | None => Ok None
  | Some l => let* r := right x in Ok (Some (l, match r with Some r => r | None => 0 end))
  end.

(** Models tree_math/mod.rs:57-65 (NumLeaves::parent). *)
Definition parent (n x : N) : res (option N) :=
  let* r := root n in
  if x =? r then Ok None else
  let* lvl := level x in
  let* l1 := add32 lvl 1 in
  let* s := shr32 x l1 in
  let b := N.land s 1 in
  let* u := shl32 1 lvl in
  let* v := shl32 b l1 in
  Ok (Some (N.lxor (N.lor x u) v)).

(** Models tree_math/mod.rs:68-78 (NumLeaves::sibling). *)
Definition sibling (n x : N) : res (option N) :=
  let* p := parent n x in
  match p with
  | None => Ok None
  | Some p => if x <? p then right p else left p
  end.

(** Models tree_math/mod.rs:81-92 (NumLeaves::direct_path): the loop, with [fuel] iterations allowed. *)
Fixpoint climb (fuel : nat) (n x : N) : res (list N) :=
  let* p := parent n x in
  match p with
  | None => Ok []
  | Some p => match fuel with O => Hang | S k => let* l := climb k n p in Ok (p :: l) end
  end.
(** Models tree_math/mod.rs:81-92 (NumLeaves::direct_path): a path has at most 32 steps. *)
Definition direct_path (n x : N) : res (list N) := climb 33 n x.

(** Models the loop at tree_math/mod.rs:104-110. *)
Fixpoint siblings (n : N) (path : list N) : res (list N) :=
  match path with
  | [] => Ok []
  | y :: r => let* s := sibling n y in
              match s with
              | None => Err InvalidSibling
              | Some s => let* l := siblings n r in Ok (s :: l)
              end
  end.
(** Models tree_math/mod.rs:95-113 (NumLeaves::copath). [removelast (x :: path)] is
    [path.insert(0, x); path.pop()]. *)
Definition copath (n x : N) : res (list N) :=
  let* path := direct_path n x in
  match path with [] => Ok [] | _ => siblings n (removelast (x :: path)) end.
