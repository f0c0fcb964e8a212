(** Trees that can be written down. *)
From Verif Require Import RatchetTree SpecRatchet.
Local Open Scope N_scope.

(** Every node of the tree has an encoding: its keys, its credentials, its extensions are short enough. *)
Definition encodes (t : tree) : Prop := forall x nd, tget t x = Some nd ->
  exists b, match nd with Leaf l => se_leaf_node l | Parent p => se_parent_node p end = Ok b.

(** [t'] is [t] after update paths of the leaves of the list, in this order, each accepted. *)
Inductive commits (P : provider) (cs : cipher_suite) : tree -> list N -> tree -> Prop :=
| co_nil t : commits P cs t [] t
| co_cons t i u t1 is t2 : merge_update_path P cs t i u = (t1, Ok tt) -> commits P cs t1 is t2 -> commits P cs t (i :: is) t2.

(** One successful operation on a tree, every leaf it brings having an encoding. *)
Inductive sound_step (P : provider) (cs : cipher_suite) : tree -> tree -> Prop :=
| ss_add t l b t' : se_leaf_node l = Ok b -> has_room t -> tree_add t l = Ok t' -> sound_step P cs t t'
| ss_update t i l b t' : se_leaf_node l = Ok b -> tree_update t i l = Ok t' -> sound_step P cs t t'
| ss_remove t i t' : tree_remove t i = Ok t' -> sound_step P cs t t'
| ss_merge t i u b t' : se_leaf_node (up_leaf u) = Ok b -> merge_update_path P cs t i u = (t', Ok tt) -> sound_step P cs t t'.
(** A history of such operations. *)
Inductive sound_history (P : provider) (cs : cipher_suite) : tree -> tree -> Prop :=
| sh_nil t : sound_history P cs t t
| sh_cons t t1 t2 : sound_history P cs t t1 -> sound_step P cs t1 t2 -> sound_history P cs t t2.
