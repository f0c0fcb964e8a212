(** Property C109: values from later registries. The specification is SpecUnknown.v. *)
From Verif Require Import UnknownFacts.
From Verif Require Import Base Wire SpecLayout LeafNode RatchetTree SpecTree SpecRatchet ExProvider Verified SpecUnknown.
From Coq Require Import List NArith ZArith.
Import ListNotations.
Local Open Scope N_scope.
Local Open Scope list_scope.

(* ------------------------------------------------------------------------------------------- *)
(** * C109 *)

(** Capabilities that list any 16-bit numbers at all, in any of the five registries, are read, number by number; exactly those without a
    name are read as such. *)
Theorem C109_capabilities : forall v s e p c rest, code_points v -> code_points s -> code_points e -> code_points p -> code_points c ->
  exists caps, de_capabilities (vectorV uint16 v ++ vectorV uint16 s ++ vectorV uint16 e ++ vectorV uint16 p ++ vectorV uint16 c ++ rest) = Ok (caps, rest) /\
    read_as version_number new_version 1 v (cap_versions caps) /\ read_as suite_number new_suite 7 s (cap_suites caps) /\
    read_as extension_number new_extension_type 5 e (cap_extensions caps) /\ read_as proposal_number new_proposal_type 7 p (cap_proposals caps) /\
    read_as credential_number new_credential_type 2 c (cap_credentials caps).
Proof. exact decode_capabilities. Qed.
Print Assumptions C109_capabilities.

(** So are extensions with any type numbers and any contents. *)
Theorem C109_extensions : forall xs rest, Forall (fun x : N * bytes => fst x < 65536 /\ N.of_nat (length (snd x)) < 1073741824) xs ->
  N.of_nat (length (concat (map (fun x : N * bytes => uint16 (fst x) ++ opaqueV (snd x)) xs))) < 1073741824 ->
  exists l, de_extensions (vectorV (fun x : N * bytes => uint16 (fst x) ++ opaqueV (snd x)) xs ++ rest) = Ok (l, rest) /\
    read_as extension_number new_extension_type 5 (map fst xs) (map ext_type l) /\ map ext_data l = map snd xs.
Proof. exact decode_extensions. Qed.
Print Assumptions C109_extensions.

(** Looking up a type with a name gives the same with extensions without one among the others. *)
Theorem C109_lookup : forall l l' t, inserted new_extension l l' -> ~ new_extension_type t -> find_extension_data l' t = find_extension_data l t.
Proof. exact inserted_find. Qed.
Print Assumptions C109_lookup.

(** The credential types with a name that all members are found to support stay the same when members list others. *)
Theorem C109_credentials : forall t t' d, tsized t d -> tlen t < 4294967296 -> greased t t' ->
  exists cs cs', supported_creds t = Ok cs /\ supported_creds t' = Ok cs' /\ forall ct, ~ new_credential_type ct -> (In ct cs' <-> In ct cs).
Proof. exact greased_creds. Qed.
Print Assumptions C109_credentials.

(** A leaf that is accepted is accepted with such values too, if it is signed with them. *)
Theorem C109_leaf : forall P l l' cs gid i creds creds' sks eks now, wider_leaf l l' ->
  (forall ct, ~ new_credential_type ct -> In ct creds -> In ct creds') -> leaf_signed P cs l' gid i ->
  leaf_verify P l (MkLeafOptions cs gid i creds sks eks now) = Ok tt -> leaf_verify P l' (MkLeafOptions cs gid i creds' sks eks now) = Ok tt.
Proof. exact wider_verify. Qed.
Print Assumptions C109_leaf.

(** So is a whole tree, if its hashes and signatures are those of the tree with them. *)
Theorem C109_tree : forall P t t' ctx ctx' now d, tsized t d -> tlen t < 4294967296 -> (forall x nd, tget t x = Some nd -> in_tree d x) ->
  greased t t' -> gc_suite ctx' = gc_suite ctx -> gc_group_id ctx' = gc_group_id ctx ->
  root_tree_hash P (gc_suite ctx') t' = Ok (gc_tree_hash ctx') ->
  (forall k j p, tget t' (node_at (k + 1) j) = Some (Parent p) -> hash_valid P (gc_suite ctx') t' k j p) ->
  (forall i l, leaf_at t' i = Some l -> leaf_signed P (gc_suite ctx') l (gc_group_id ctx') i) ->
  verify_integrity P t ctx now = Ok tt -> verify_integrity P t' ctx' now = Ok tt.
Proof. exact greased_verified. Qed.
Print Assumptions C109_tree.

(** A proposal, or a credential, whose own type has no name is refused, whatever follows; it is not read as another. *)
Theorem C109_refused : (forall v rest, v < 65536 -> v = 0 \/ 7 < v -> de_proposal (uint16 v ++ rest) = Err (InvalidProposalTypeValue v)) /\
  (forall v rest, v < 65536 -> v = 0 \/ 2 < v -> de_credential (uint16 v ++ rest) = Err InvalidCredentialTypeValue).
Proof. exact (conj refuse_proposal refuse_credential). Qed.
Print Assumptions C109_refused.

(** A verified two-member tree, and the same with a value from a later registry in each of the five capability lists of both members, and a
    further extension. *)
Example C109_example : greased ex_verified ug_tree /\ gc_suite (ex_context ug_tree) = gc_suite (ex_context ex_verified) /\
  verify_integrity toy ex_verified (ex_context ex_verified) (fun _ => 5000%Z) = Ok tt /\
  root_tree_hash toy Suite1 ug_tree = Ok (gc_tree_hash (ex_context ug_tree)) /\
  (forall k j p, tget ug_tree (node_at (k + 1) j) = Some (Parent p) -> hash_valid toy Suite1 ug_tree k j p) /\
  (forall i l, leaf_at ug_tree i = Some l -> leaf_signed toy Suite1 l (str "group") i) /\
  verify_integrity toy ug_tree (ex_context ug_tree) (fun _ => 5000%Z) = Ok tt.
Proof. exact c109_example. Qed.
