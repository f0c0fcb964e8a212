From Verif Require Import StaysFacts CommitFacts TreeInv HashFacts.
From Verif Require Import SpecStays SpecCommit.
Local Open Scope N_scope.

(** A commit the client accepts keeps the group joinable if, besides, the keys of its path are new and different and its leaf
    supports what is in use. *)
Lemma c95_commit P cs sa h k now t d ctx epoch b t' i c ps : p_sig P cs = Ok sa -> p_hash P cs = Ok h -> p_hpke P cs = Ok k -> good t d -> no_repetitions t ->
  gc_suite ctx = cs -> verify_integrity P t ctx now = Ok tt ->
  passive_commit P cs t ctx epoch b = Ok t' -> carries b i c ps ->
  (forall u, cm_path c = Some u ->
    (exists x, root_tree_hash P cs t' = Ok x) /\ ~ coincidence P cs t' i /\
    NoDup (encryption_key (up_leaf u) :: map upn_encryption_key (up_nodes u)) /\
    ~ used_key t (encryption_key (up_leaf u)) /\ (forall n, In n (up_nodes u) -> ~ used_key t (upn_encryption_key n)) /\
    NoDup (cap_credentials (lp_capabilities (ln_payload (up_leaf u)))) /\
    supports (up_leaf u) (type_of (up_leaf u)) /\ forall j m, j <> i -> leaf_at t j = Some m -> supports (up_leaf u) (type_of m)) ->
  joinable P cs (gc_group_id ctx) now t'.
Proof.
  intros A Hh K G NR Ec V H (v & m & rest & D & Sd & Cn & PS) X. apply (c94_accepted P cs sa h k t d ctx epoch b t' A Hh K (good_shaped t d G)) in H as (v' & m' & rest' & i' & l & c' & ps' & D' & CO).
  rewrite D in D'. apply Ok_inj in D'. injection D' as <- <- <-. pose proof (co_sender _ _ _ _ _ _ _ _ _ _ _ _ _ _ _ CO) as (Sd' & L). rewrite Sd in Sd'. injection Sd' as <-.
  pose proof (co_commit _ _ _ _ _ _ _ _ _ _ _ _ _ _ _ CO) as (Cn' & PS'). rewrite Cn in Cn'. injection Cn' as <-. pose proof (co_path _ _ _ _ _ _ _ _ _ _ _ _ _ _ _ CO) as PA.
  assert (M : exists j q, leaf_at t j = Some q) by eauto. apply (c95_history P cs (gc_group_id ctx) now t d ctx t' G NR M Ec eq_refl V).
  destruct (joinable_sound P cs (gc_group_id ctx) now t d ctx G NR Ec eq_refl V) as (So & _).
  destruct (cm_path c) as [u|]; [|destruct PA as (_ & _ & ->); apply fth_nil]. destruct (X u eq_refl) as ((x & RT) & NC & ND & FL & FN & NRl & SO & SA). pose proof PA as [V1 (creds & C & V2) V4 V5 V6 Mg].
  assert (I : i < 2 ^ d) by (apply (shaped_member_lt t d i (good_shaped t d G)), (shaped_leaf_at t d i (good_shaped t d G)); eauto).
  eapply fth_cons; [apply fth_nil|]. apply (ft_merge P cs _ now t i u t' x); try assumption.
  - apply (TreeFacts.c25 P cs t d i u t' (good_shaped t d G) I). exact Mg.
  - destruct (mg_path _ _ _ _ _ _ _ Mg) as (fp & ph & _ & _ & _ & _ & _ & Src & _). constructor; try assumption.
    + intros lt Q. rewrite Src in Q. discriminate.
    + intros j q N Lq. split; [|apply (SA j q N Lq)]. destruct (LeafFacts.c31 t d (g_size _ _ G) (g_small _ _ G) M NR) as (creds' & C' & CI). rewrite C in C'. apply Ok_inj in C'. subst creds'.
      apply (proj1 (CI _) V2 j q Lq).
    + intros j q N Lq Q. apply N. apply (so_signature_keys _ _ _ _ _ So j i q l Lq L). exact (V5 j q Lq Q).
Qed.
