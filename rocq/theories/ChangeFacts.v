(** Any member can change who is a member. *)
From Verif Require Import SpecChange SpecRatchet SpecMembers SpecMessages SpecSendable SpecCommit SpecProposals SpecAble SpecSecrets WireWF CodecLib PassiveCommit.
From Verif Require Import HeardFacts ApplyFacts ProposalFacts RosterFacts.
From Verif Require Import SecretFacts DigestFacts MessageFacts KeyFacts SendableFacts BuildableFacts AbleFacts AbleMore CommitFacts TreeFacts TreeInv HashFacts MemberFacts LeafFacts.
From Verif Require Import Examples ExProvider.
From Coq Require Import ZifyBool ZifyNat ZifyN.
Local Open Scope N_scope.
Local Open Scope list_scope.

Lemma ch_nth out new n p : nth_error (changes out new) n = Some p ->
  (exists x, nth_error out n = Some x /\ p = PRemove (MkRemove x)) \/ (exists q, (length out <= n)%nat /\ nth_error new (n - length out) = Some q /\ p = PAdd (MkAdd q)).
Proof.
  unfold changes. intros H. destruct (Nat.lt_ge_cases n (length out)) as [L|L].
  - rewrite nth_error_app1 in H by (rewrite map_length; exact L). left. rewrite nth_error_map in H. destruct (nth_error out n) as [x|]; [|discriminate H]. exists x. injection H as <-. auto.
  - rewrite nth_error_app2 in H by (rewrite map_length; exact L). right. rewrite map_length, nth_error_map in H. destruct (nth_error new _) as [q|]; [|discriminate H]. exists q. injection H as <-. auto.
Qed.
Lemma ch_in out new p : In p (changes out new) -> (exists x, In x out /\ p = PRemove (MkRemove x)) \/ (exists q, In q new /\ p = PAdd (MkAdd q)).
Proof. unfold changes. rewrite in_app_iff, !in_map_iff. intros [(x & <- & I)|(q & <- & I)]; eauto. Qed.
Lemma ch_removes out new : removes_of (changes out new) = out.
Proof.
  unfold changes. induction out as [|x out IH]; cbn [map app removes_of rem_removed]; [|rewrite IH; reflexivity]. induction new as [|p new IH]; [reflexivity|exact IH].
Qed.
Lemma ch_adds out new : adds_of (changes out new) = map (fun p => kp_leaf (kp_payload p)) new.
Proof.
  unfold changes. induction out as [|x out IH]; cbn [map app adds_of]; [|exact IH]. induction new as [|p new IH]; [reflexivity|]. cbn [map adds_of add_key_package]. rewrite IH. reflexivity.
Qed.
Lemma ch_removed out new x : removed_leaf (changes out new) x <-> In x out.
Proof.
  split.
  - intros (m & I & E). destruct (ch_in _ _ _ I) as [(y & Iy & Q)|(q & _ & Q)]; [|discriminate Q]. injection Q as ->. cbn [rem_removed] in E. subst y. exact Iy.
  - intros I. exists (MkRemove x). split; [|reflexivity]. unfold changes. rewrite in_app_iff. left. apply in_map_iff. eauto.
Qed.
Lemma ch_psk out new p : In p (changes out new) -> psk_of p = None.
Proof. intros I. destruct (ch_in _ _ _ I) as [(x & _ & ->)|(q & _ & ->)]; reflexivity. Qed.
Lemma ch_psks out new : psks_wf (changes out new).
Proof. intros p x I E. rewrite (ch_psk _ _ _ I) in E. discriminate E. Qed.

Lemma ch_valid t i out new : sensible t i out new -> valid_list (changes out new) (repeat i (length (changes out new))) i.
Proof.
  intros [O _ N K]. constructor.
  - rewrite repeat_length. reflexivity.
  - intros a b p s q u k (A & _) (B & _) PA PB. destruct (ch_nth _ _ _ _ A) as [(x & _ & ->)|(x & LA & Ea & ->)]; [discriminate PA|].
    destruct (ch_nth _ _ _ _ B) as [(y & _ & ->)|(y & LB & Eb & ->)]; [discriminate PB|]. cbn [added_key add_key_package] in PA, PB.
    assert (a - length out = b - length out)%nat; [|lia]. rewrite NoDup_nth_error in K. apply K.
    + rewrite map_length. apply nth_error_Some. rewrite Ea. discriminate.
    + rewrite !nth_error_map, Ea, Eb. cbn [option_map]. unfold signature_key. congruence.
  - intros a b p s q u x (A & _) (B & _) PA PB. destruct (ch_nth _ _ _ _ A) as [(y & Ea & ->)|(y & _ & _ & ->)]; [|discriminate PA].
    destruct (ch_nth _ _ _ _ B) as [(z & Eb & ->)|(z & _ & _ & ->)]; [|discriminate PB]. cbn [touched_leaf rem_removed] in PA, PB.
    rewrite NoDup_nth_error in N. apply N; [apply nth_error_Some; rewrite Ea; discriminate|congruence].
  - intros a p s (A & _). destruct (ch_nth _ _ _ _ A) as [(y & Ea & ->)|(y & _ & _ & ->)]; cbn [touched_leaf rem_removed]; [|discriminate].
    intros Q. injection Q as ->. apply O. exact (nth_error_In _ _ Ea).
  - intros a b p s q u x (A & _) _ PA. rewrite (ch_psk _ _ _ (nth_error_In _ _ A)) in PA. discriminate PA.
  - intros a p s x (A & _) PA. rewrite (ch_psk _ _ _ (nth_error_In _ _ A)) in PA. discriminate PA.
  - intros a b p s q u (A & _) _ PA. destruct (ch_nth _ _ _ _ A) as [(y & _ & ->)|(y & _ & _ & ->)]; discriminate PA.
  - intros a p s (A & _) PA. destruct (ch_nth _ _ _ _ A) as [(y & _ & ->)|(y & _ & _ & ->)]; discriminate PA.
  - intros a p s (A & _). destruct (ch_nth _ _ _ _ A) as [(y & _ & ->)|(y & _ & _ & ->)]; reflexivity.
Qed.

Lemma ch_names t i out new : sensible t i out new -> ~ blank_at t i -> names_members t (changes out new) (repeat i (length (changes out new))) i.
Proof.
  intros [_ M _ _] B. split; [exact B|]. intros n p s x (A & _) T. destruct (ch_nth _ _ _ _ A) as [(y & Ea & ->)|(y & _ & _ & ->)]; [|discriminate T].
  injection T as <-. apply M. exact (nth_error_In _ _ Ea).
Qed.
Lemma ch_changed t d i out new t' : shaped t d -> applied t (changes out new) (repeat i (length (changes out new))) t' -> changed t out new t'.
Proof.
  intros G [_ KE (pos & SS & LP & AT & VA & _ & BL)]. rewrite ch_adds, map_length in *.
  assert (NU : forall x l, ~ updated_leaf (changes out new) (repeat i (length (changes out new))) x l).
  { intros x l (n & u & (A & _) & _). destruct (ch_nth _ _ _ _ A) as [(y & _ & Q)|(y & _ & _ & Q)]; discriminate Q. }
  assert (K : forall x l, leaf_at t x = Some l -> ~ In x out -> leaf_at t' x = leaf_at t x).
  { intros x l L O. apply KE; [|apply NU]. split; [|rewrite ch_removed; exact O]. intros B. apply (leaf_blank t d x G) in B. congruence. }
  split; [intros x l L O; rewrite (K x l L O); exact L|]. exists pos. split; [exact SS|]. split; [exact LP|]. split.
  - intros n x p X Q. split; [apply (AT n x); [exact X|rewrite nth_error_map, Q; reflexivity]|].
    destruct (VA x (nth_error_In _ _ X)) as [B|R]; [left; apply (leaf_blank t d x G); exact B|right; apply ch_removed in R; exact R].
  - intros x l L. destruct (in_dec N.eq_dec x pos) as [I|I]; [left; exact I|right].
    assert (NV : ~ vacant t (changes out new) x). { intros V. specialize (BL x V I). unfold blank_at in BL. unfold leaf_at in L. rewrite BL in L. discriminate L. }
    assert (O : ~ In x out) by (intros O; apply NV; right; apply ch_removed; exact O).
    destruct (leaf_at t x) as [m|] eqn:E; [|exfalso; apply NV; left; apply (leaf_blank t d x G); exact E]. rewrite (K x m E O), E in L. auto.
Qed.

(** Some path will do. *)
Lemma some_path P cs sa h k t d ctx epoch mk i l j sk ad ps : p_sig P cs = Ok sa -> hashes P cs h -> tags P cs -> p_hpke P cs = Ok k -> good t d -> encodes t ->
  committer P cs t i l sk -> j <> i -> ~ blank_at t j -> expand_label k epoch (str "membership") [] (nh k) = Ok mk -> handy ctx ad ps ->
  valid_list ps (repeat i (length ps)) i -> (forall p, In p ps -> psk_of p = None) -> (exists t2, tree_apply t ps (repeat i (length ps)) = Ok t2) ->
  exists u b t', send_public P cs ctx sk mk (commit_of ctx i ad ps (Some u)) = Ok b /\ passive_commit P cs t ctx epoch b = Ok t' /\ good t' d /\ encodes t'.
Proof.
  intros A H TG K G EN C Ji Nj MK HY V NP TA. assert (Hi : i < 2 ^ d) by exact (member_small t d i l G (ct_member _ _ _ _ _ _ C)). pose proof (good_shaped t d G) as SH.
  pose proof (filtered_leaf t d i (good_small t d G) (good_usized t d G) Hi) as EF. pose proof (fpath_length t (N.to_nat d) 0 i) as LF. set (fp := fpath t (N.to_nat d) 0 i) in *.
  destruct (some_unused t d SH) as (key & LK & UK). set (ns := repeat (MkUpdatePathNode key []) (length fp)). pose proof (usized_31 t d (good_usized t d G)) as D.
  assert (W : within 134217728 (se_vector se_update_path_node ns)).
  { unfold se_vector. destruct (nodes_within key LK (length fp)) as (x & X & LX). fold ns in X. rewrite X. cbn [bind]. apply (within_le (1000 + 4)); [lia|]. apply within_opaque; lia. }
  destruct (c131_path P cs sa h k t d ctx epoch mk i l j sk key ns fp ad ps) as (l' & m & t1 & RN & SP & PC & MG & G1 & EN1); try assumption.
  - apply repeat_length.
  - rewrite LK. cbn. lia.
  - apply Forall_forall. intros n In_. apply repeat_spec in In_. subst n. cbn [upn_encryption_key]. split; [unfold fits30; rewrite LK; cbn; lia|exact UK].
  - exists (MkUpdatePath l' ns), m, t1. auto.
Qed.

Lemma c133_change P cs sa h k t d ctx epoch mk i l j sk ad out new : p_sig P cs = Ok sa -> hashes P cs h -> tags P cs -> p_hpke P cs = Ok k -> good t d -> encodes t ->
  committer P cs t i l sk -> j <> i -> ~ blank_at t j -> expand_label k epoch (str "membership") [] (nh k) = Ok mk -> handy ctx ad (changes out new) ->
  sensible t i out new -> 2 ^ d + N.of_nat (length new) <= 1073741824 -> room_for t d (changes out new) ->
  exists u b t1 t2 d2, send_public P cs ctx sk mk (commit_of ctx i ad (changes out new) (Some u)) = Ok b /\ passive_commit P cs t ctx epoch b = Ok t1 /\
    tree_apply t (changes out new) (repeat i (length (changes out new))) = Ok t2 /\ good t2 d2 /\ changed t out new t2.
Proof.
  intros A H TG K G EN C Ji Nj MK HY S R RF. pose proof (good_shaped t d G) as SH. pose proof (ch_valid t i out new S) as V.
  assert (NB : ~ blank_at t i). { intros B. apply (leaf_blank t d i SH) in B. rewrite (ct_member _ _ _ _ _ _ C) in B. discriminate B. }
  destruct (c69 t d (changes out new) (repeat i (length (changes out new))) i) as (t2 & d2 & T & _ & G2 & AP); try assumption.
  - apply ch_psks.
  - apply c48_iff; [apply ch_psks|exact V].
  - exact (ch_names t i out new S NB).
  - rewrite ch_adds, map_length. exact R.
  - destruct (some_path P cs sa h k t d ctx epoch mk i l j sk ad (changes out new)) as (u & b & t1 & SP & PC & _); try assumption.
    + exact (ch_psk out new).
    + exists t2. exact T.
    + exists u, b, t1, t2, d2. split; [exact SP|]. split; [exact PC|]. split; [exact T|]. split; [exact (G2 G)|exact (ch_changed t d i out new t2 SH AP)].
Qed.
(** Removing needs no room. *)
Lemma c133_remove P cs sa h k t d ctx epoch mk i l j sk ad out : p_sig P cs = Ok sa -> hashes P cs h -> tags P cs -> p_hpke P cs = Ok k -> good t d -> encodes t ->
  committer P cs t i l sk -> j <> i -> ~ blank_at t j -> expand_label k epoch (str "membership") [] (nh k) = Ok mk -> handy ctx ad (changes out []) ->
  sensible t i out [] -> d <= 30 ->
  exists u b t1 t2 d2, send_public P cs ctx sk mk (commit_of ctx i ad (changes out []) (Some u)) = Ok b /\ passive_commit P cs t ctx epoch b = Ok t1 /\
    tree_apply t (changes out []) (repeat i (length (changes out []))) = Ok t2 /\ good t2 d2 /\
    forall x l, leaf_at t2 x = Some l <-> leaf_at t x = Some l /\ ~ In x out.
Proof.
  intros A H TG K G EN C Ji Nj MK HY S D. pose proof (good_shaped t d G) as SH. pose proof (ch_valid t i out [] S) as V.
  assert (NB : ~ blank_at t i). { intros B. apply (leaf_blank t d i SH) in B. rewrite (ct_member _ _ _ _ _ _ C) in B. discriminate B. }
  destruct (c69_no_adds t d (changes out []) (repeat i (length (changes out []))) i) as (t2 & d2 & T & _ & G2 & AP); try assumption.
  - apply ch_psks.
  - apply c48_iff; [apply ch_psks|exact V].
  - exact (ch_names t i out [] S NB).
  - apply ch_adds.
  - destruct (some_path P cs sa h k t d ctx epoch mk i l j sk ad (changes out [])) as (u & b & t1 & SP & PC & _); try assumption.
    + exact (ch_psk out []).
    + exists t2. exact T.
    + exists u, b, t1, t2, d2. split; [exact SP|]. split; [exact PC|]. split; [exact T|]. split; [exact (G2 G)|].
      destruct (ch_changed t d i out [] t2 SH AP) as (Q1 & (pos & _ & LP & _ & Q2)). destruct pos; [|discriminate LP]. intros x m. split; [intros L; destruct (Q2 x m L) as [[]|Q]; exact Q|intros (L & O); exact (Q1 x m L O)].
Qed.
(** Adding needs no path, and works for a member who is alone, too. *)
Lemma c133_add P cs sa h k t d ctx epoch mk i l sk ad new : p_sig P cs = Ok sa -> p_hash P cs = Ok h -> tags P cs -> p_hpke P cs = Ok k -> good t d ->
  leaf_at t i = Some l -> signs P cs sk -> key_pair_ok P cs sk (signature_key l) -> expand_label k epoch (str "membership") [] (nh k) = Ok mk -> handy ctx ad (changes [] new) ->
  sensible t i [] new -> new <> [] -> 2 ^ d + N.of_nat (length new) <= 1073741824 -> room_for t d (changes [] new) ->
  exists b t2 d2, send_public P cs ctx sk mk (commit_of ctx i ad (changes [] new) None) = Ok b /\ passive_commit P cs t ctx epoch b = Ok t /\
    tree_apply t (changes [] new) (repeat i (length (changes [] new))) = Ok t2 /\ good t2 d2 /\ changed t [] new t2.
Proof.
  intros A H TG K G L SG KP MK HY S NE R RF. pose proof (good_shaped t d G) as SH. pose proof (ch_valid t i [] new S) as V.
  assert (NB : ~ blank_at t i). { intros B. apply (leaf_blank t d i SH) in B. congruence. }
  destruct (c69 t d (changes [] new) (repeat i (length (changes [] new))) i) as (t2 & d2 & T & _ & G2 & AP); try assumption.
  - apply ch_psks.
  - apply c48_iff; [apply ch_psks|exact V].
  - exact (ch_names t i [] new S NB).
  - rewrite ch_adds, map_length. exact R.
  - destruct (c131_plain P cs sa h k t d ctx epoch mk i l sk ad (changes [] new)) as (b & SP & PC); try assumption.
    + exact (ch_psk [] new).
    + exists t2. exact T.
    + destruct new; [contradiction|discriminate].
    + intros p I. destruct (ch_in _ _ _ I) as [(x & [] & _)|(q & _ & ->)]. intros [].
    + exists b, t2, d2. split; [exact SP|]. split; [exact PC|]. split; [exact T|]. split; [exact (G2 G)|exact (ch_changed t d i [] new t2 SH AP)].
Qed.

(** ** The third of three members removes the first and adds a fourth *)
Definition cg_new : key_package := MkKeyPackage (MkKeyPackageTBS MLS10 Suite1 [x04; x55] (hd_leaf x04) []) [x66].
Lemma cg_handy out new : In (out, new) [([0], [cg_new]); ([0; 1], []); ([], [cg_new])] -> handy (hd_ctx 0) [x77] (changes out new).
Proof.
  intros I. constructor; [exact (hy_context _ _ _ (hd_handy 0 ltac:(lia)))|cbn; lia|]. destruct I as [E|[E|[E|[]]]]; injection E as <- <-; (split; [|eexists; split; [vm_compute; reflexivity|vm_compute; discriminate]]);
    unfold changes; cbn [map app]; repeat (apply Forall_cons; [unfold wf_proposal, wf_remove_proposal, cg_new, wf_add_proposal, wf_key_package, wf_key_package_tbs, wf_leaf_node, wf_leaf_payload, wf_capabilities, wf_leaf_node_source, wf_lifetime, wf_extensions, wf_extension; ex_wf|]); apply Forall_nil.
Qed.
Lemma cg_sensible out new : In (out, new) [([0], [cg_new]); ([0; 1], []); ([], [cg_new])] -> sensible hd_three 2 out new.
Proof.
  intros I. destruct I as [E|[E|[E|[]]]]; injection E as <- <-; constructor; try (cbn; intuition discriminate); try (repeat constructor; cbn; intuition discriminate);
    intros x J; cbn in J; repeat (destruct J as [<-|J]); try contradiction; vm_compute; discriminate.
Qed.
Lemma c133_example : exists mk u b t1 t2, expand_label modest_hpke (str "first") (str "membership") [] (nh modest_hpke) = Ok mk /\
  send_public modest Suite1 (hd_ctx 0) [x03; x21] mk (commit_of (hd_ctx 0) 2 [x77] (changes [0] [cg_new]) (Some u)) = Ok b /\ passive_commit modest Suite1 hd_three (hd_ctx 0) (str "first") b = Ok t1 /\
  tree_apply hd_three (changes [0] [cg_new]) [2; 2] = Ok t2 /\ changed hd_three [0] [cg_new] t2.
Proof.
  destruct (hd_member "first") as (mk & MK). exists mk.
  destruct (c133_change modest Suite1 modest_sig hd_hash modest_hpke hd_three 2 (hd_ctx 0) (str "first") mk 2 (hd_leaf x03) 0 [x03; x21] [x77] [0] [cg_new])
    as (u & b & t1 & t2 & d2 & S & R & T & _ & C); [reflexivity| |exact modest_tags|reflexivity|exact hd_good|exact hd_encodes|apply hd_committer; reflexivity|discriminate|vm_compute; discriminate|exact MK|apply cg_handy; cbn; auto|apply cg_sensible; cbn; auto|vm_compute; discriminate| |].
  - split; [reflexivity|]. intros b. cbn [h_digest hd_hash]. pose proof (firstn_le_length 4 b). lia.
  - left. split; [reflexivity|]. right. exists 2. split; [|vm_compute; discriminate]. split; [vm_compute; discriminate|]. rewrite ch_removed. cbn. intuition discriminate.
  - exists u, b, t1, t2. auto.
Qed.
Lemma c133_remove_example : exists mk u b t1 t2, expand_label modest_hpke (str "first") (str "membership") [] (nh modest_hpke) = Ok mk /\
  send_public modest Suite1 (hd_ctx 0) [x03; x21] mk (commit_of (hd_ctx 0) 2 [x77] (changes [0; 1] []) (Some u)) = Ok b /\ passive_commit modest Suite1 hd_three (hd_ctx 0) (str "first") b = Ok t1 /\
  tree_apply hd_three (changes [0; 1] []) [2; 2] = Ok t2 /\ forall x l, leaf_at t2 x = Some l <-> leaf_at hd_three x = Some l /\ ~ In x [0; 1].
Proof.
  destruct (hd_member "first") as (mk & MK). exists mk.
  destruct (c133_remove modest Suite1 modest_sig hd_hash modest_hpke hd_three 2 (hd_ctx 0) (str "first") mk 2 (hd_leaf x03) 0 [x03; x21] [x77] [0; 1])
    as (u & b & t1 & t2 & d2 & S & R & T & _ & C); [reflexivity| |exact modest_tags|reflexivity|exact hd_good|exact hd_encodes|apply hd_committer; reflexivity|discriminate|vm_compute; discriminate|exact MK|apply cg_handy; cbn; auto|apply cg_sensible; cbn; auto|vm_compute; discriminate|].
  - split; [reflexivity|]. intros b. cbn [h_digest hd_hash]. pose proof (firstn_le_length 4 b). lia.
  - exists u, b, t1, t2. auto.
Qed.
Lemma c133_add_example : exists mk b t2, expand_label modest_hpke (str "first") (str "membership") [] (nh modest_hpke) = Ok mk /\
  send_public modest Suite1 (hd_ctx 0) [x03; x21] mk (commit_of (hd_ctx 0) 2 [x77] (changes [] [cg_new]) None) = Ok b /\ passive_commit modest Suite1 hd_three (hd_ctx 0) (str "first") b = Ok hd_three /\
  tree_apply hd_three (changes [] [cg_new]) [2] = Ok t2 /\ changed hd_three [] [cg_new] t2.
Proof.
  destruct (hd_member "first") as (mk & MK). exists mk.
  destruct (c133_add modest Suite1 modest_sig hd_hash modest_hpke hd_three 2 (hd_ctx 0) (str "first") mk 2 (hd_leaf x03) [x03; x21] [x77] [cg_new])
    as (b & t2 & d2 & S & R & T & _ & C); [reflexivity|reflexivity|exact modest_tags|reflexivity|exact hd_good|reflexivity|apply modest_signs|apply modest_keys|exact MK|apply cg_handy; cbn; auto|apply cg_sensible; cbn; auto|discriminate|vm_compute; discriminate| |].
  - left. split; [reflexivity|]. left. reflexivity.
  - exists b, t2. auto.
Qed.
