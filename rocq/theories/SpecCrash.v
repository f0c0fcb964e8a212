(** The byte strings on which decoding a message or a tree panics, and where the lifetime of a key package's leaf is in a message. *)
From Verif Require Export SpecCodec SpecLayout.
Local Open Scope N_scope.

(** A leaf whose source is a key package (1) and of whose lifetime, at the end of the input, only the first integer is complete. *)
Definition bad_leaf (bs : bytes) : Prop := exists e s c cap pre tail,
  se_opaque e +++ se_opaque s +++ se_credential c +++ se_capabilities cap = Ok pre /\ wf_capabilities cap /\ bs = pre ++ x01 :: tail /\ (8 <= length tail < 16)%nat.
(** A parent node whose unmerged leaves do not fill a multiple of four bytes. *)
Definition bad_parent (bs : bytes) : Prop := exists k h v pre rest,
  se_opaque k +++ se_opaque h +++ se_opaque v = Ok pre /\ bs = pre ++ rest /\ (length v mod 4 <> 0)%nat.

(** Structures in which such a leaf comes last: a key package (after version, suite and init key); an Add (1) or Update (2) proposal; such a
    proposal in a commit (1: a proposal, not a reference). *)
Definition bad_key_package (bs : bytes) : Prop := exists v c k pre tail, v < 65536 /\ c < 65536 /\ se_opaque k = Ok pre /\ bs = be 2 v ++ be 2 c ++ pre ++ tail /\ bad_leaf tail.
Definition bad_proposal (bs : bytes) : Prop :=
  (exists tail, bs = be 2 1 ++ tail /\ bad_key_package tail) \/ (exists tail, bs = be 2 2 ++ tail /\ bad_leaf tail).
Definition bad_proposal_or_ref (bs : bytes) : Prop := exists tail, bs = x01 :: tail /\ bad_proposal tail.
(** A vector that begins with elements and ends with something bad. *)
Definition bad_vector {A} (wf : A -> Prop) (ser : A -> res bytes) (bad : bytes -> Prop) (bs : bytes) : Prop := exists l raw tail pre rest,
  Forall wf l /\ se_elems ser l = Ok raw /\ bad tail /\ se_opaque (raw ++ tail) = Ok pre /\ bs = pre ++ rest.
(** A commit with a bad proposal, or with a bad leaf in its path. *)
Definition bad_commit (bs : bytes) : Prop :=
  bad_vector wf_proposal_or_ref se_proposal_or_ref bad_proposal_or_ref bs \/
  exists l pre tail, Forall wf_proposal_or_ref l /\ se_vector se_proposal_or_ref l = Ok pre /\ bs = pre ++ x01 :: tail /\ bad_leaf tail.
(** A message: version 1 and a key package (5); or a public message (1), that is group, epoch, sender, authenticated data and a proposal (2)
    or commit (3). *)
Definition bad_message (bs : bytes) : Prop :=
  (exists tail, bs = be 2 1 ++ be 2 5 ++ tail /\ bad_key_package tail) \/
  exists g e s a pre tail, e < 2 ^ 64 /\ wf_sender s /\ se_opaque g +++ put_u64 e +++ se_sender s +++ se_opaque a = Ok pre /\ bs = be 2 1 ++ be 2 1 ++ pre ++ tail /\
    ((exists t, tail = x02 :: t /\ bad_proposal t) \/ (exists t, tail = x03 :: t /\ bad_commit t)).
(** A tree: a vector of optional nodes, with a present (1) leaf (1) or parent node (2) that is bad. *)
Definition bad_tree (bs : bytes) : Prop :=
  bad_vector (opt_P wf_node) (se_option se_node) (fun t => exists u, (t = x01 :: x01 :: u /\ bad_leaf u) \/ (t = x01 :: x02 :: u /\ bad_parent u)) bs.
