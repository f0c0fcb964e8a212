(** Proofs about looking up a leaf (C33), the exact result. *)
From Verif Require Import SpecRatchet TreeInv TreeFacts TreeMore LeafFacts TreeOps.
Local Open Scope N_scope.

Lemma find_exact t d node i p : tsized t d -> tlen t < 4294967296 -> wf_leaf_node node -> (forall a l, leaf_at t a = Some l -> wf_leaf_node l) -> se_leaf_node node = Ok p ->
  (find_leaf t node = Ok (i, true) <->
   leaf_at t i = Some node /\ forall j l, leaf_at t j = Some l -> lp_encryption_key (ln_payload l) = lp_encryption_key (ln_payload node) -> i <= j).
Proof.
  intros S L W WF E. pose proof (small_usized t d S L) as U. split.
  - intros F. destruct (find_leaf_sound t d node i U W WF F) as [G _].
    split; [destruct (N.lt_ge_cases i 2147483648); [rewrite get_leaf_at in G by assumption; congruence|rewrite get_leaf_beyond in G by assumption; discriminate]|].
    unfold find_leaf in F. destruct (leaves_ok t d U) as (ls & EL & SS & H). rewrite EL in F. cbn [bind] in F.
    destruct (find_leaf_in_spec node ls _ SS F) as [[Q _]|(a & l & Q & I & K & M)]; [discriminate|]. injection Q as -> Q.
    intros j l' J. apply M, H, J.
  - intros [A M]. eapply find_leaf_complete; eassumption.
Qed.
Lemma find_missed t d node i p : tsized t d -> tlen t < 4294967296 -> se_leaf_node node = Ok p -> find_leaf t node = Ok (i, false) ->
  (i = 0 /\ forall j l, leaf_at t j = Some l -> lp_encryption_key (ln_payload l) <> lp_encryption_key (ln_payload node)) \/
  exists l, leaf_at t i = Some l /\ l <> node /\ lp_encryption_key (ln_payload l) = lp_encryption_key (ln_payload node) /\
    forall j l', leaf_at t j = Some l' -> lp_encryption_key (ln_payload l') = lp_encryption_key (ln_payload node) -> i <= j.
Proof.
  intros S L E F. pose proof (small_usized t d S L) as U. unfold find_leaf in F. destruct (leaves_ok t d U) as (ls & EL & SS & H). rewrite EL in F. cbn [bind] in F.
  destruct (find_leaf_in_spec node ls _ SS F) as [[Q K]|(a & l & Q & I & K & M)].
  - left. injection Q as ->. split; [reflexivity|]. intros j l J. apply (K j l), H, J.
  - right. injection Q as -> Q. exists l. split; [apply H, I|]. split; [|split; [exact K|intros j l' J; apply M, H, J]].
    intros ->. rewrite E in Q. assert (bytes_eqb p p = true) by (apply bytes_eqb_eq; reflexivity). congruence.
Qed.
