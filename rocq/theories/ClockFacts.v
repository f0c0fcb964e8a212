(** Proofs about lifetimes and the clock (SpecClock.v). *)
From Verif Require Import SpecClock LeafFacts TreeMore Verified Examples.
Local Open Scope N_scope.

Lemma same_lifetime lt now now' : same_side lt now now' ->
  ((0 <? now)%Z && negb (lifetime_verify lt now))%bool = ((0 <? now')%Z && negb (lifetime_verify lt now'))%bool.
Proof.
  intros [A B]. assert ((0 <? now)%Z = (0 <? now')%Z) as -> by (destruct (Z.ltb_spec 0 now), (Z.ltb_spec 0 now'); try reflexivity; lia).
  assert (lifetime_verify lt now = lifetime_verify lt now') as ->; [|reflexivity].
  pose proof (lifetime_iff lt now) as I. pose proof (lifetime_iff lt now') as I'.
  destruct (lifetime_verify lt now), (lifetime_verify lt now'); try reflexivity; intuition congruence.
Qed.
Lemma clock_leaf P l o now : (forall lt, lifetime_of l = Some lt -> same_side lt (lo_now o) now) -> leaf_verify P l (at_time o now) = leaf_verify P l o.
Proof.
  intros H. unfold leaf_verify, at_time. cbn [lo_suite lo_group_id lo_leaf_index lo_supported_creds lo_signature_keys lo_encryption_keys lo_now].
  unfold lifetime_of in H. destruct (lp_source (ln_payload l)) as [lt| |h]; try reflexivity.
  rewrite (same_lifetime lt (lo_now o) now) by (apply H; reflexivity). reflexivity.
Qed.
Lemma clock_later P l o now : leaf_verify P l o = Ok tt -> (forall lt, lifetime_of l = Some lt -> (0 < lo_now o <= now)%Z) -> leaf_verify P l (at_time o now) = Ok tt.
Proof.
  intros V H. apply leaf_verify_iff in V as (A & B & C & D & E & F). apply leaf_verify_iff. cbn. split; [exact A|]. split; [exact B|]. split; [|auto].
  intros lt S L. assert (X : lifetime_of l = Some lt) by (unfold lifetime_of; rewrite S; reflexivity). specialize (H lt X). destruct (C lt S); [lia|]. split; [lia|assumption].
Qed.
Lemma clock_short P l o lt : lifetime_of l = Some lt -> (0 < lo_now o)%Z -> not_after lt < not_before lt + 2160000000 -> leaf_verify P l o <> Ok tt.
Proof.
  intros S L W V. apply leaf_verify_iff in V as (_ & _ & C & _). unfold lifetime_of in S. destruct (lp_source (ln_payload l)) as [x| |h]; try discriminate S. injection S as ->.
  destruct (C lt eq_refl L) as [_ X]. lia.
Qed.

(** ** Trees *)
Lemma leaves_at t : forall fuel li ls, leaves_from fuel t li = Ok ls -> forall i l, In (i, l) ls -> leaf_at t i = Some l.
Proof.
  induction fuel as [|fuel IH]; intros li ls H i l I; cbn [leaves_from] in H; [injection H as <-; destruct I|].
  unfold get_leaf in H. unfold node_index, mul32 in H. destruct (_ <=? _); cbn [bind] in H; [|discriminate H].
  destruct (leaves_from fuel t (li + 1)) as [r|e| |] eqn:R; cbn [bind] in H; try discriminate H. injection H as <-.
  unfold leaf_at. destruct (tget t (2 * li)) as [[n|n]|] eqn:T; [destruct I as [I|I]; [injection I as <- <-; rewrite T; reflexivity|]| |]; exact (IH _ _ R _ _ I).
Qed.
Lemma clock_leaves P cs gid creds now now' : forall ls sks eks,
  (forall i l lt, In (i, l) ls -> lifetime_of l = Some lt -> same_side lt (now i) (now' i)) ->
  verify_leaves P cs gid creds now' sks eks ls = verify_leaves P cs gid creds now sks eks ls.
Proof.
  induction ls as [|[i l] ls IH]; intros sks eks H; [reflexivity|]. cbn [verify_leaves].
  change (MkLeafOptions cs gid i creds sks eks (now' i)) with (at_time (MkLeafOptions cs gid i creds sks eks (now i)) (now' i)).
  rewrite clock_leaf by (intros lt X; exact (H i l lt (or_introl eq_refl) X)).
  destruct (leaf_verify P l (MkLeafOptions cs gid i creds sks eks (now i))); cbn [bind]; try reflexivity. apply IH. intros j m lt I X. exact (H j m lt (or_intror I) X).
Qed.
Lemma clock_tree P t ctx now now' : (forall i l lt, leaf_at t i = Some l -> lifetime_of l = Some lt -> same_side lt (now i) (now' i)) ->
  verify_integrity P t ctx now' = verify_integrity P t ctx now.
Proof.
  intros H. unfold verify_integrity. destruct (root_tree_hash P (gc_suite ctx) t); cbn [bind]; try reflexivity. destruct (negb _); [reflexivity|].
  destruct (verify_parent_hashes _ _ _); cbn [bind]; try reflexivity. destruct (negb _); [reflexivity|].
  destruct (supported_creds t); cbn [bind]; try reflexivity. destruct (leaves t) as [ls|e| |] eqn:L; cbn [bind]; try reflexivity.
  rewrite (clock_leaves P _ _ _ now now'); [reflexivity|]. intros i l lt I X. exact (H i l lt (leaves_at _ _ _ _ L _ _ I) X).
Qed.
Lemma later_leaves P cs gid creds now now' : forall ls sks eks r,
  (forall i l lt, In (i, l) ls -> lifetime_of l = Some lt -> (0 < now i <= now' i)%Z) ->
  verify_leaves P cs gid creds now sks eks ls = Ok r -> verify_leaves P cs gid creds now' sks eks ls = Ok r.
Proof.
  induction ls as [|[i l] ls IH]; intros sks eks r H; [auto|]. cbn [verify_leaves].
  change (MkLeafOptions cs gid i creds sks eks (now' i)) with (at_time (MkLeafOptions cs gid i creds sks eks (now i)) (now' i)).
  destruct (leaf_verify P l (MkLeafOptions cs gid i creds sks eks (now i))) as [[]|e| |] eqn:V; cbn [bind]; try discriminate.
  rewrite (clock_later P l _ (now' i) V) by (intros lt X; exact (H i l lt (or_introl eq_refl) X)). cbn [bind]. apply IH. intros j m lt I X. exact (H j m lt (or_intror I) X).
Qed.
Lemma later_tree P t ctx now now' : verify_integrity P t ctx now = Ok tt ->
  (forall i l lt, leaf_at t i = Some l -> lifetime_of l = Some lt -> (0 < now i <= now' i)%Z) -> verify_integrity P t ctx now' = Ok tt.
Proof.
  intros V H. unfold verify_integrity in *. destruct (root_tree_hash P (gc_suite ctx) t); cbn [bind] in *; try discriminate V. destruct (negb _); [discriminate V|].
  destruct (verify_parent_hashes _ _ _); cbn [bind] in *; try discriminate V. destruct (negb _); [discriminate V|].
  destruct (supported_creds t); cbn [bind] in *; try discriminate V. destruct (leaves t) as [ls|e| |] eqn:L; cbn [bind] in *; try discriminate V.
  destruct (verify_leaves P (gc_suite ctx) (gc_group_id ctx) a1 now [] [] ls) as [r|e| |] eqn:W; cbn [bind] in V; try discriminate V.
  rewrite (later_leaves P _ _ _ now now' _ _ _ r); [exact V| |exact W]. intros i l lt I X. exact (H i l lt (leaves_at _ _ _ _ L _ _ I) X).
Qed.
Lemma leaves_each P cs gid creds now : forall ls sks eks r, verify_leaves P cs gid creds now sks eks ls = Ok r ->
  forall i l, In (i, l) ls -> exists o, lo_now o = now i /\ leaf_verify P l o = Ok tt.
Proof.
  induction ls as [|[j m] ls IH]; intros sks eks r H i l I; [destruct I|]. cbn [verify_leaves] in H.
  destruct (leaf_verify P m _) as [[]|e| |] eqn:V; cbn [bind] in H; try discriminate H.
  destruct I as [I|I]; [injection I as <- <-; eexists; split; [|exact V]; reflexivity|exact (IH _ _ _ H _ _ I)].
Qed.
Lemma tree_each P t ctx now d i l : usized t d -> verify_integrity P t ctx now = Ok tt -> leaf_at t i = Some l -> exists o, lo_now o = now i /\ leaf_verify P l o = Ok tt.
Proof.
  intros U V A. destruct (leaves_ok t d U) as (ls & L & _ & M). apply M in A. unfold verify_integrity in V. rewrite L in V.
  destruct (root_tree_hash P (gc_suite ctx) t); cbn [bind] in *; try discriminate V. destruct (negb _); [discriminate V|].
  destruct (verify_parent_hashes _ _ _); cbn [bind] in *; try discriminate V. destruct (negb _); [discriminate V|].
  destruct (supported_creds t); cbn [bind] in *; try discriminate V.
  destruct (verify_leaves P (gc_suite ctx) (gc_group_id ctx) a1 now [] [] ls) as [r|e| |] eqn:W; cbn [bind] in V; try discriminate V.
  exact (leaves_each _ _ _ _ _ _ _ _ _ W _ _ A).
Qed.
Lemma tree_short P t ctx now d i l lt : usized t d -> leaf_at t i = Some l -> lifetime_of l = Some lt -> (0 < now i)%Z ->
  not_after lt < not_before lt + 2160000000 -> verify_integrity P t ctx now <> Ok tt.
Proof.
  intros U A S L W V. destruct (tree_each _ _ _ _ _ _ _ U V A) as (o & O & X). rewrite <- O in L. exact (clock_short _ _ _ _ S L W X).
Qed.

(** From some time on the clock makes no difference. *)
Lemma settled t : exists T, forall now now', (forall i, (T <= now i)%Z) -> (forall i, (T <= now' i)%Z) ->
  forall i l lt, leaf_at t i = Some l -> lifetime_of l = Some lt -> same_side lt (now i) (now' i).
Proof.
  assert (X : exists T, (0 < T)%Z /\ forall l lt, In (Some (Leaf l)) t -> lifetime_of l = Some lt -> (Z.of_N (not_after lt) * 1000 < T)%Z).
  { induction t as [|n t (T & T0 & IH)]; [exists 1%Z; split; [lia|intros l lt []]|].
    destruct (match n with Some (Leaf l) => lifetime_of l | _ => None end) as [x|] eqn:Q.
    - exists (Z.max T (Z.of_N (not_after x) * 1000 + 1)). split; [lia|]. intros l lt [->|I] S; [rewrite Q in S; injection S as <-; lia|]. pose proof (IH l lt I S). lia.
    - exists T. split; [exact T0|]. intros l lt [->|I] S; [rewrite Q in S; discriminate|exact (IH l lt I S)]. }
  destruct X as (T & T0 & X). exists T. intros now now' B B' i l lt A S. unfold leaf_at in A.
  destruct (tget t (2 * i)) as [[m|m]|] eqn:E; try discriminate A. injection A as ->.
  assert (I : In (Some (Leaf l)) t).
  { unfold tget in E. destruct (2 * i <? tlen t) eqn:Z; [|discriminate E]. rewrite <- E. apply nth_In. unfold tlen in Z. lia. }
  pose proof (X l lt I S). specialize (B i). specialize (B' i). unfold same_side. lia.
Qed.
Lemma settled_tree P t ctx : exists T, forall now now', (forall i, (T <= now i)%Z) -> (forall i, (T <= now' i)%Z) ->
  verify_integrity P t ctx now' = verify_integrity P t ctx now.
Proof. destruct (settled t) as [T H]. exists T. intros now now' B B'. apply clock_tree. exact (H now now' B B'). Qed.

(** ** A leaf whose lifetime is from 2065 to 2134 *)
Definition ck_lifetime : lifetime := MkLifetime 3000000000 5200000000.
Definition ck_leaf : leaf_node := ex_signed x01 (LSKeyPackage ck_lifetime) (str "group") 0.
Definition ck_time : Z := 1700000000000000000%Z.
Lemma ck_now : leaf_verify toy ck_leaf (at_time (ex_options 0) ck_time) = Ok tt.
Proof. vm_compute. reflexivity. Qed.
Lemma ck_outside : exists P l o lt now, lifetime_of l = Some lt /\ (0 < now < in_seconds (not_before lt))%Z /\ leaf_verify P l (at_time o now) = Ok tt /\
  forall later, (in_seconds (not_after lt) < later)%Z -> leaf_verify P l (at_time o later) = Ok tt.
Proof.
  exists toy, ck_leaf, (ex_options 0), ck_lifetime, ck_time. split; [reflexivity|]. split; [vm_compute; auto|]. split; [exact ck_now|]. intros later L.
  apply (clock_later toy ck_leaf (at_time (ex_options 0) ck_time) later ck_now). intros lt _. unfold in_seconds, ck_lifetime, not_after in L. unfold at_time, lo_now, ck_time. lia.
Qed.
(** A year is too short a lifetime. *)
Definition ck_year : leaf_node := ex_signed x01 (LSKeyPackage (MkLifetime 1700000000 1731536000)) (str "group") 0.
Lemma ck_year_refused : during (MkLifetime 1700000000 1731536000) 1710000000000000000%Z /\
  leaf_verify toy ck_year (at_time (ex_options 0) 1710000000000000000%Z) = Err LifetimeVerificationFailed.
Proof. split; [vm_compute; split; discriminate|vm_compute; reflexivity]. Qed.
Definition ck_tree : tree := [Some (Leaf ck_leaf)].
Lemma ck_tree_ok : usized ck_tree 0 /\ leaf_at ck_tree 0 = Some ck_leaf /\ lifetime_of ck_leaf = Some ck_lifetime /\
  verify_integrity toy ck_tree (ex_context ck_tree) (fun _ => ck_time) = Ok tt /\
  verify_integrity toy ck_tree (ex_context ck_tree) (fun _ => 5200000000000%Z) = Err LifetimeVerificationFailed.
Proof. split; [left; split; [reflexivity|lia]|]. split; [reflexivity|]. split; [reflexivity|]. vm_compute. auto. Qed.
