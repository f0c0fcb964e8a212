(** C24, exactly: when the integrity check of a received tree panics. *)
From Verif Require Import SpecTree SpecRatchet SpecCalm Examples Verified CalmFacts SpecTreeCrash TreeCrashFacts.
Local Open Scope N_scope.

(** With a provider that returns, for every tree of a size the library produces: the check panics exactly if, with everything before in
    order (SpecTreeCrash.v), checking the hash of a parent resolves a node whose resolution holds a listed leaf of number 2^31 or more
    ([overflows]), or it comes to a parent that lists an unmerged leaf outside the tree ([crashes]). It never runs on for ever. *)
Theorem C24_panics : forall P t ctx now d, steady P (gc_suite ctx) -> tsized t d -> tlen t < 4294967296 -> (forall x nd, tget t x = Some nd -> in_tree d x) ->
  (verify_integrity P t ctx now = Panic <-> (exists k j p, overflows P t ctx k j p) \/ (exists x p pre u, crashes P t ctx now d x p pre u)) /\ verify_integrity P t ctx now <> Hang.
Proof. exact c24_panics. Qed.
Print Assumptions C24_panics.

(** Without numbers that large, only the second can happen. *)
Theorem C24_panics_small : forall P t ctx now d, steady P (gc_suite ctx) -> tsized t d -> tlen t < 4294967296 -> (forall x nd, tget t x = Some nd -> in_tree d x) ->
  (forall x p u, tget t x = Some (Parent p) -> In u (pn_unmerged p) -> u < 2147483648) ->
  (verify_integrity P t ctx now = Panic <-> exists x p pre u, crashes P t ctx now d x p pre u).
Proof. exact c24_panics_small. Qed.
Print Assumptions C24_panics_small.

(** The tree of [C24_refuted_panics]: two leaves, and a root that lists leaf 7. *)
Example C24_panics_example : steady toy Suite1 /\ tsized ex_outside 1 /\ (forall x nd, tget ex_outside x = Some nd -> in_tree 1 x) /\
  (forall x p u, tget ex_outside x = Some (Parent p) -> In u (pn_unmerged p) -> u < 2147483648) /\
  exists p, crashes toy ex_outside (ex_context ex_outside) (fun _ => 5000%Z) 1 1 p [] 7.
Proof.
  assert (S : steady toy Suite1).
  { split; intros; first [match goal with E : _ = Ok _ |- _ => vm_compute in E; injection E as <- end; cbn; unfold toy_strip; calm|cbn; unfold toy_strip; calm]. }
  assert (IN : forall x nd, tget ex_outside x = Some nd -> in_tree 1 x).
  { intros x nd T. destruct (N.lt_ge_cases x 3) as [L|L]; [exact L|]. rewrite tget_beyond in T by exact L. discriminate T. }
  assert (U : forall x p u, tget ex_outside x = Some (Parent p) -> In u (pn_unmerged p) -> x = 1 /\ u = 7).
  { intros x p u T I. pose proof (IN _ _ T) as L. unfold in_tree in L. change (2 ^ (1 + 1) - 1) with 3 in L.
    destruct (N.eq_dec x 0) as [->|]; [discriminate T|]. destruct (N.eq_dec x 1) as [->|]; [|assert (x = 2) as -> by lia; discriminate T].
    injection T as <-. destruct I as [<-|[]]. auto. }
  assert (B : forall x p u, tget ex_outside x = Some (Parent p) -> In u (pn_unmerged p) -> u < 2147483648).
  { intros x p u T I. destruct (U x p u T I) as [_ ->]. reflexivity. }
  assert (Z : tsized ex_outside 1) by (left; reflexivity).
  split; [exact S|]. split; [exact Z|]. split; [exact IN|]. split; [exact B|].
  pose proof (C24_panics_small toy ex_outside (ex_context ex_outside) (fun _ => 5000%Z) 1 S Z eq_refl IN B) as E.
  destruct (proj1 E ltac:(vm_compute; reflexivity)) as (x & p & pre & u & C). pose proof C as C'. destruct C' as [_ _ _ _ _ _ _ T (post & L) _ _].
  destruct (U x p u T) as [-> ->]; [rewrite L; apply in_or_app; right; left; reflexivity|].
  exists p. destruct pre as [|v pre]; [exact C|]. exfalso. injection T as <-. cbn in L. injection L as _ L. destruct pre; discriminate L.
Qed.
(** Four members; the right one of the parents below the root lists leaf 2^31. *)
Example C24_overflow_example : verify_integrity toy ex_wide (ex_context ex_wide) (fun _ => 5000%Z) = Panic /\ exists p, overflows toy ex_wide (ex_context ex_wide) 1 0 p.
Proof. exact ex_wide_overflows. Qed.
