(** In a group whose changes are checked, adding members who get along is a checked change. *)
From Verif Require Import SpecFull FullFacts SpecInvitable InvitableFacts GrownFacts.
From Verif Require Import StaysFacts TreeFacts TreeInv HashFacts MemberFacts LeafFacts KnowFacts ExStays Examples.
From Coq Require Import ZifyBool ZifyNat ZifyN Strings.Byte.
Local Open Scope N_scope.
Local Open Scope list_scope.
Import Coq.Strings.Byte.

(** After somebody was added, the keys are those from before and the new one. *)
Lemma added_keys t d t' d' i l k : good t d -> added t t' d' i l -> used_key t' k -> used_key t k \/ k = encryption_key l.
Proof.
  intros G (A1 & A2 & A3 & A4 & A5) (x & n & X & K). pose proof (get_leaf_tget _ _ _ A1) as Ti.
  destruct (N.eq_dec x (2 * i)) as [->|Nx]; [right; rewrite Ti in X; injection X as <-; symmetry; exact K|left]. destruct (on_path_dec d' i x) as [O|O].
  - destruct (tget t x) as [[lf|p]|] eqn:T.
    + exfalso. destruct O as (j & y & Lj & -> & _). replace j with (j - 1 + 1) in T by lia. exact (g_parent _ d G _ _ _ T).
    + rewrite (A3 x p O T) in X. injection X as <-. exists x, (Parent p). split; [exact T|]. rewrite <- K. destruct p. reflexivity.
    + rewrite (A4 x O T) in X. discriminate.
  - rewrite A5 in X by assumption. exists x, n. auto.
Qed.
Lemma comes_next P cs g now t d t' d' i p q : good t d -> blank_at t i -> added t t' d' i (kp_leaf (kp_payload p)) -> get_along p q -> comes P cs g now t q -> comes P cs g now t' q.
Proof.
  intros G B A (S1 & S2 & K1 & K2) (F & C). split; [|exact C]. intros j Bj.
  assert (J : j <> i). { intros ->. destruct A as (A1 & _). apply get_leaf_tget in A1. unfold blank_at in Bj. rewrite A1 in Bj. discriminate Bj. }
  assert (Bj' : blank_at t j). { destruct A as (_ & A2 & _). unfold blank_at in *. rewrite <- A2 by exact J. exact Bj. }
  assert (M : forall y m, leaf_at t' y = Some m -> m = kp_leaf (kp_payload p) \/ leaf_at t y = Some m).
  { intros y m Y. destruct (N.eq_dec y i) as [->|N].
    - left. destruct A as (A1 & _). apply get_leaf_tget in A1. unfold leaf_at in Y. rewrite A1 in Y. injection Y as <-. reflexivity.
    - right. destruct A as (_ & A2 & _). unfold leaf_at in *. rewrite A2 in Y by exact N. exact Y. }
  destruct (F j Bj') as [F1 F2 F3 F4 F5 F6 F7 F8]. constructor; try assumption.
  - intros y m N Y. destruct (M y m Y) as [->|Y']; [split; assumption|exact (F5 y m N Y')].
  - intros y m N Y. destruct (M y m Y) as [->|Y']; [exact K1|exact (F7 y m N Y')].
  - intros U. destruct (added_keys t d t' d' i _ _ G A U) as [U'|U']; [exact (F8 U')|exact (K2 (eq_sym U'))].
Qed.
Lemma places_room t d n : good t d -> places_for t d (S n) -> has_room t.
Proof.
  intros G R. exists d. destruct (g_size _ _ G) as [F|C]; [left; exact F|]. destruct R as [F|([|x free] & _ & L & H)]; [left; exact F|discriminate L|].
  right. split; [exact C|]. exists x. apply H. left. reflexivity.
Qed.
Lemma adds_fit P cs g now first : forall new t d t2, fit_history P cs g now [Some (Leaf first)] t -> good t d -> places_for t d (length new) ->
  Forall (comes P cs g now t) new -> ForallOrdPairs get_along new -> apply_adds t (map (fun p => PAdd (MkAdd p)) new) = Ok t2 -> fit_history P cs g now [Some (Leaf first)] t2.
Proof.
  induction new as [|p new IH]; intros t d t2 H G R C A E; cbn [map apply_adds] in E; [apply Ok_inj in E; subst t2; exact H|].
  apply bind_ok in E as (t1 & E & E2). cbn [add_key_package] in E. inversion C as [|? ? (CF & CC) C']; subst. inversion A as [|? ? A1 A2]; subst.
  pose proof (places_room t d _ G R) as HR.
  assert (X : exists d1 i, good t1 d1 /\ blank_at t i /\ added t t1 d1 i (kp_leaf (kp_payload p)) /\ places_for t1 d1 (length new)).
  { pose proof (good_usized t d G) as U. destruct (leftmost_blank t (2 ^ d)) as [AL|(i & Li & B & CB)].
    - destruct R as [R|([|x free] & _ & L & Q)]; [|discriminate L|exfalso; destruct (Q x (or_introl eq_refl)) as (Q1 & Q2); exact (AL x Q1 Q2)].
      pose proof (add_full_good t d _ t1 G R AL E) as G'. pose proof (usized_31 _ _ (good_usized _ _ G')) as L. destruct (add_full_added t d (kp_leaf (kp_payload p)) R ltac:(lia) AL) as (u & E1 & F' & Q).
      rewrite E in E1. apply Ok_inj in E1. subst u. exists (d + 1), (2 ^ d). split; [exact G'|]. split; [unfold blank_at; apply tget_beyond; red in R; pose proof (pow2_S d); lia|]. split; [exact Q|left; exact F'].
    - destruct (add_found_added t d i (kp_leaf (kp_payload p)) U Li B CB) as (u & E1 & L & Q). rewrite E in E1. apply Ok_inj in E1. subst u. exists d, i. split; [eapply add_found_good; eassumption|]. split; [exact B|]. split; [exact Q|].
      destruct R as [R|(free & ND & Lf & Hf)]; [left; red in R; red; congruence|right].
      assert (KB : forall x, x <> i -> blank_at t x -> blank_at t1 x). { intros x N Bx. destruct Q as (_ & Q2 & _). unfold blank_at in *. rewrite Q2 by exact N. exact Bx. }
      destruct (in_dec N.eq_dec i free) as [I|NI].
      + apply in_split in I as (f1 & f2 & ->). rewrite app_length in Lf. cbn [length] in Lf. exists (f1 ++ f2). pose proof (NoDup_remove_1 _ _ _ ND) as ND1. pose proof (NoDup_remove_2 _ _ _ ND) as ND2.
        split; [exact ND1|]. split; [rewrite app_length; lia|]. intros x Ix. assert (Ix' : In x (f1 ++ i :: f2)) by (apply in_app_or in Ix; apply in_or_app; cbn; tauto).
        destruct (Hf x Ix') as [X1 X2]. split; [exact X1|]. apply KB; [intros ->; tauto|exact X2].
      + destruct free as [|x0 free]; [discriminate|]. inversion ND; subst. exists free. split; [assumption|]. split; [cbn in Lf; lia|]. intros x Ix.
        destruct (Hf x (or_intror Ix)) as [X1 X2]. split; [exact X1|]. apply KB; [intros ->; apply NI; right; exact Ix|exact X2]. }
  destruct X as (d1 & i & G1 & B & AD & R1). apply (IH t1 d1 t2); [|exact G1|exact R1| |exact A2|exact E2].
  - apply (fth_cons _ _ _ _ _ t); [exact H|]. apply (ft_add _ _ _ _ t i (kp_leaf (kp_payload p)) t1 HR E B); [|exact (CF i B)|exact CC].
    destruct AD as (Q & _). apply get_leaf_tget in Q. unfold leaf_at. rewrite Q. reflexivity.
  - rewrite Forall_forall in *. intros q Iq. apply (comes_next P cs g now t d t1 d1 i p q G B AD); [exact (A1 q Iq)|exact (C' q Iq)].
Qed.
Lemma c134_add P cs g now first i new t d t2 : fit_history P cs g now [Some (Leaf first)] t -> good t d -> places_for t d (length new) ->
  Forall (comes P cs g now t) new -> ForallOrdPairs get_along new -> tree_apply t (changes [] new) (repeat i (length new)) = Ok t2 -> fit_history P cs g now [Some (Leaf first)] t2.
Proof.
  intros H G R C A E. unfold tree_apply in E. rewrite no_updates in E. cbn [bind] in E. unfold changes in E. cbn [map app] in E.
  assert (Q : forall l u, apply_removes u (map (fun p => PAdd (MkAdd p)) l) = Ok u) by (induction l as [|p l IH]; intros u; cbn [map apply_removes]; [reflexivity|apply IH]).
  rewrite Q in E. cbn [bind] in E. exact (adds_fit P cs g now first new t d t2 H G R C A E).
Qed.

(** Both at once: first the removals, then the additions. *)
Lemma skip_removes out ps : forall t, apply_adds t (map (fun x => PRemove (MkRemove x)) out ++ ps) = apply_adds t ps.
Proof. induction out as [|x out IH]; intros t; cbn [map app apply_adds]; [reflexivity|apply IH]. Qed.
Lemma skip_adds out new : forall t, apply_removes t (changes out new) = apply_removes t (changes out []).
Proof.
  unfold changes. induction out as [|x out IH]; intros t; cbn [map app apply_removes].
  - induction new as [|p new IHn]; cbn [map apply_removes]; [reflexivity|exact IHn].
  - destruct (tree_remove t (rem_removed (MkRemove x))) as [t'| | |]; cbn [bind]; try reflexivity. apply IH.
Qed.
Lemma c134_change P cs g now first i l out new t t1 d1 t2 : fit P cs g now [] 0 first -> fit_history P cs g now [Some (Leaf first)] t -> leaf_at t i = Some l -> sensible t i out [] ->
  tree_apply t (changes out []) (repeat i (length (changes out []))) = Ok t1 -> good t1 d1 -> places_for t1 d1 (length new) ->
  Forall (comes P cs g now t1) new -> ForallOrdPairs get_along new -> tree_apply t (changes out new) (repeat i (length (changes out new))) = Ok t2 ->
  fit_history P cs g now [Some (Leaf first)] t2 /\ tree_apply t1 (changes [] new) (repeat i (length new)) = Ok t2.
Proof.
  intros F H L S E1 G R C A E.
  assert (Q : tree_apply t1 (changes [] new) (repeat i (length new)) = Ok t2).
  { unfold tree_apply in *. rewrite no_updates in *. cbn [bind] in *. rewrite (skip_adds out new) in E. rewrite (skip_adds [] new). cbn [changes map app apply_removes bind].
    destruct (apply_removes t (changes out [])) as [u| | |]; cbn [bind] in E, E1; try discriminate E1. unfold changes in E, E1. rewrite skip_removes in E, E1. cbn [map apply_adds] in E1. apply Ok_inj in E1. subst u. exact E. }
  split; [|exact Q]. apply (c134_add P cs g now first i new t1 d1 t2); try assumption. exact (proj1 (c134_remove P cs g now first i l F out t t1 H L S E1)).
Qed.

(** ** The first member adds two others *)
Lemma ad_comes k : In k [x02; x03] -> comes hosting Suite1 (str "group") (fun _ => 0%Z) [Some (Leaf (ho_leaf x01))] (ho_package k).
Proof.
  intros K. split; [|intros h; destruct K as [<-|[<-|[]]]; discriminate]. intros i B. cbn [ho_package kp_payload kp_leaf]. split.
  - apply leaf_verify_signature_iff. destruct K as [<-|[<-|[]]]; vm_compute; reflexivity.
  - intros lt _ Q. lia.
  - intros e J. cbn in J. destruct J as [<-|[]]. vm_compute. auto.
  - vm_compute. auto.
  - intros j m _ J. apply single_leaf in J as (_ & ->). vm_compute. auto.
  - vm_compute. repeat constructor; cbn; intuition discriminate.
  - intros j m _ J. apply single_leaf in J as (_ & ->). destruct K as [<-|[<-|[]]]; discriminate.
  - apply es_fresh. destruct K as [<-|[<-|[]]]; reflexivity.
Qed.
Lemma c134_add_example : exists t2, tree_apply [Some (Leaf (ho_leaf x01))] (changes [] [ho_package x02; ho_package x03]) [0; 0] = Ok t2 /\
  fit_history hosting Suite1 (str "group") (fun _ => 0%Z) [Some (Leaf (ho_leaf x01))] t2 /\ leaf_at t2 2 = Some (ho_leaf x03).
Proof.
  exists ho_tree. split; [vm_compute; reflexivity|]. split; [|reflexivity].
  apply (c134_add hosting Suite1 (str "group") (fun _ => 0%Z) (ho_leaf x01) 0 [ho_package x02; ho_package x03] [Some (Leaf (ho_leaf x01))] 0); [apply fth_nil|apply good_single|left; reflexivity| | |vm_compute; reflexivity].
  - apply Forall_cons; [apply ad_comes; cbn; auto|]. apply Forall_cons; [apply ad_comes; cbn; auto|constructor].
  - constructor; [apply Forall_cons; [|constructor]|constructor; constructor]. split; [vm_compute; auto|]. split; [vm_compute; auto|]. split; discriminate.
Qed.
(** The first of three members removes the second and adds them again. *)
Definition ad_gap : tree := [Some (Leaf (ho_leaf x01)); None; None; None; Some (Leaf (ho_leaf x03)); None; None].
Lemma ad_again : comes hosting Suite1 (str "group") (fun _ => 0%Z) ad_gap (ho_package x02).
Proof.
  assert (M : forall j m, leaf_at ad_gap j = Some m -> m = ho_leaf x01 \/ m = ho_leaf x03).
  { intros j m L. destruct (N.eq_dec j 0) as [->|N0]; [injection L as <-; auto|]. destruct (N.eq_dec j 1) as [->|N1]; [discriminate L|]. destruct (N.eq_dec j 2) as [->|N2]; [injection L as <-; auto|].
    destruct (N.eq_dec j 3) as [->|N3]; [discriminate L|]. unfold leaf_at in L. rewrite tget_beyond in L by (cbn; lia). discriminate L. }
  split; [|intros h; discriminate]. intros i B. cbn [ho_package kp_payload kp_leaf]. split.
  - apply leaf_verify_signature_iff. vm_compute. reflexivity.
  - intros lt _ Q. lia.
  - intros e J. cbn in J. destruct J as [<-|[]]. vm_compute. auto.
  - vm_compute. auto.
  - intros j m _ J. destruct (M j m J) as [->| ->]; vm_compute; auto.
  - vm_compute. repeat constructor; cbn; intuition discriminate.
  - intros j m _ J. destruct (M j m J) as [->| ->]; discriminate.
  - apply es_fresh. reflexivity.
Qed.
Lemma c134_change_example : exists t1 t2, tree_apply ho_tree (changes [1] []) [0] = Ok t1 /\ leaf_at t1 1 = None /\ tree_apply ho_tree (changes [1] [ho_package x02]) [0; 0] = Ok t2 /\
  fit_history hosting Suite1 (str "group") (fun _ => 0%Z) [Some (Leaf (ho_leaf x01))] t2 /\ leaf_at t2 1 = Some (ho_leaf x02).
Proof.
  exists ad_gap, ho_tree. assert (E0 : tree_apply ho_tree (changes [1] []) [0] = Ok ad_gap) by (vm_compute; reflexivity).
  assert (E : tree_apply ho_tree (changes [1] [ho_package x02]) [0; 0] = Ok ho_tree) by (vm_compute; reflexivity).
  split; [exact E0|]. split; [reflexivity|]. split; [exact E|]. split; [|reflexivity]. destruct ho_grown as (F & H).
  assert (S : sensible ho_tree 0 [1] []) by (constructor; [cbn; intuition discriminate|intros x [<-|[]]; vm_compute; discriminate|repeat constructor; cbn; intuition discriminate|constructor]).
  destruct (grown _ _ _ _ _ _ F (proj1 (c134_remove hosting Suite1 (str "group") (fun _ => 0%Z) (ho_leaf x01) 0 (ho_leaf x01) F [1] ho_tree ad_gap H eq_refl S E0))) as (d & G & _).
  assert (d = 2) as -> by (apply (size_unique ad_gap); [exact (g_size _ _ G)|left; reflexivity]).
  refine (proj1 (c134_change hosting Suite1 (str "group") (fun _ => 0%Z) (ho_leaf x01) 0 (ho_leaf x01) [1] [ho_package x02] ho_tree ad_gap 2 ho_tree F H eq_refl S E0 G _ _ _ E)).
  - left. reflexivity.
  - apply Forall_cons; [exact ad_again|constructor].
  - constructor; constructor.
Qed.
