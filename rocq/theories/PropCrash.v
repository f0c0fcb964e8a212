(** C05, exactly: the byte strings on which decoding panics. *)
From Verif Require Import CodecFacts Examples CrashFacts SpecCrash.
Local Open Scope N_scope.

(** Decoding a message panics on exactly these byte strings: ... *)
Theorem C05_exact : forall bs, de_mls_message bs = Panic <-> bad_message bs.
Proof. exact message_bad. Qed.
Print Assumptions C05_exact.
(** ... decoding a tree panics on exactly these ... *)
Theorem C05_exact_tree : forall bs, de_ratchet_tree bs = Panic <-> bad_tree bs.
Proof. exact tree_bad. Qed.
Print Assumptions C05_exact_tree.
(** ... and so do the decoders of what messages are made of. *)
Theorem C05_exact_parts :
  (forall bs, de_key_package bs = Panic <-> bad_key_package bs) /\ (forall bs, de_proposal bs = Panic <-> bad_proposal bs) /\
  (forall bs, de_proposal_or_ref bs = Panic <-> bad_proposal_or_ref bs) /\ (forall bs, de_commit bs = Panic <-> bad_commit bs).
Proof. exact (conj key_package_bad (conj proposal_bad (conj proposal_or_ref_bad commit_bad))). Qed.
Print Assumptions C05_exact_parts.

(** A commit with one good proposal and, after it, an Add proposal that ends in the middle of the lifetime of its leaf. *)
Definition ex_bad_add : bytes := be 2 1 ++ be 2 1 ++ be 2 2 ++ [x00; x00; x00] ++ be 2 1 ++ [x00] ++ [x00; x00; x00; x00; x00] ++ [x01] ++ be 8 0 ++ [x00; x07].
Definition ex_bad_commit : bytes :=
  be 2 1 ++ be 2 1 ++ [x01; x67] ++ be 8 3 ++ [x01] ++ be 4 2 ++ [x00] ++ [x03] ++
  ok_or [] (se_opaque ([x02; x01; x99] ++ [x01] ++ ex_bad_add)) ++ [x00].
Example C05_example_commit : bad_message ex_bad_commit.
Proof. apply C05_exact. vm_compute. reflexivity. Qed.
(** The same proposal, whole. *)
Example C05_example_good : ~ bad_proposal (ex_bad_add ++ repeat x00 6).
Proof. intros H. apply C05_exact_parts in H. vm_compute in H. discriminate. Qed.
