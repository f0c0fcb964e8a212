(** In a group that grew by checked changes everybody can commit. *)
From Verif Require Import SpecChange SpecStays SpecSendable SpecCommit SpecProposals SpecAble SpecSecrets WireWF PassiveCommit.
From Verif Require Import SpecInvitable InvitableFacts GrownFacts.
From Verif Require Import TreeHash DigestFacts AbleFacts HeardFacts ChangeFacts StaysFacts TreeFacts TreeInv HashFacts MemberFacts LeafFacts SendableFacts ExStays Examples ExProvider.
From Coq Require Import ZifyBool ZifyNat ZifyN.
Local Open Scope N_scope.
Local Open Scope list_scope.

Lemma grown P cs g now first t : fit P cs g now [] 0 first -> fit_history P cs g now [Some (Leaf first)] t ->
  exists d, good t d /\ sound P cs g now t /\ verify_parent_hashes P cs t = Ok true /\ exists i l, leaf_at t i = Some l.
Proof.
  intros F H. assert (V : verify_parent_hashes P cs [Some (Leaf first)] = Ok true).
  { apply (c70_leaves P cs _ 0 (good_single first)). intros x q Q. destruct (N.eq_dec x 0) as [->|N]; [discriminate|]. rewrite tget_beyond in Q by (cbn; lia). discriminate. }
  destruct (fit_keeps P cs g _ _ t H 0 (good_single first) (fit_single P cs g _ first F) V) as (d & G & S & V' & M & _); [exists 0, first; reflexivity|]. exists d. auto.
Qed.
Lemma c134_everybody P cs g now first t i l sk : fit P cs g now [] 0 first -> fit_history P cs g now [Some (Leaf first)] t ->
  leaf_at t i = Some l -> signs P cs sk -> key_pair_ok P cs sk (signature_key l) -> wf_leaf_node l -> within 134217728 (lasting l) -> committer P cs t i l sk.
Proof.
  intros F H L SG KP W Z. destruct (grown P cs g now first t F H) as (d & G & S & _ & M). constructor; try assumption.
  - destruct (c31 t d (g_size _ _ G) (g_small _ _ G) M (so_no_repetition _ _ _ _ _ S)) as (creds & C & CI). exists creds. split; [exact C|]. apply CI. intros j m Lm. exact (so_credentials _ _ _ _ _ S j m i l Lm L).
  - intros e. apply (so_extensions _ _ _ _ _ S i l e L).
Qed.
Lemma fresh_unused t k : ~ used_key t k -> unused t k.
Proof.
  intros N j m L E. apply N. exists (2 * j), (Leaf m). split; [|exact E]. unfold leaf_at in L. destruct (tget t (2 * j)) as [[l|p]|]; try discriminate L. injection L as ->. reflexivity.
Qed.
Lemma root_made P cs h t d : hashes P cs h -> good t d -> encodes t -> exists x, root_tree_hash P cs t = Ok x.
Proof.
  intros (H & HS) G EN. pose proof (good_usized t d G) as U. rewrite (root_hash_node P cs t d U). eexists.
  apply (c106_exact P cs h t [] d 0 H); [intros b; specialize (HS b); unfold fits30; lia|exact (usized_31 t d U)|exact (good_hashable t d d 0 G EN)].
Qed.

Lemma c134_commit P cs sa h k now first t ctx epoch mk i l j sk ek ns fp ad ps : p_sig P cs = Ok sa -> hashes P cs h -> tags P cs -> p_hpke P cs = Ok k ->
  fit P cs (gc_group_id ctx) now [] 0 first -> fit_history P cs (gc_group_id ctx) now [Some (Leaf first)] t -> encodes t ->
  leaf_at t i = Some l -> signs P cs sk -> key_pair_ok P cs sk (signature_key l) -> wf_leaf_node l -> within 134217728 (lasting l) ->
  j <> i -> ~ blank_at t j -> expand_label k epoch (str "membership") [] (nh k) = Ok mk -> handy ctx ad ps ->
  valid_list ps (repeat i (length ps)) i -> (forall p, In p ps -> psk_of p = None) -> (exists t2, tree_apply t ps (repeat i (length ps)) = Ok t2) ->
  filtered_direct_path t (2 * i) = Ok fp -> length ns = length fp -> within 134217728 (se_vector se_update_path_node ns) ->
  N.of_nat (length ek) < 65536 -> Forall (fun n => fits30 (upn_encryption_key n)) ns ->
  NoDup (ek :: map upn_encryption_key ns) -> ~ used_key t ek -> (forall n, In n ns -> ~ used_key t (upn_encryption_key n)) ->
  exists l' b t', renewed l ek l' /\ send_public P cs ctx sk mk (commit_of ctx i ad ps (Some (MkUpdatePath l' ns))) = Ok b /\
    passive_commit P cs t ctx epoch b = Ok t' /\ encodes t' /\
    (~ coincidence P cs t' i -> fit_history P cs (gc_group_id ctx) now [Some (Leaf first)] t').
Proof.
  intros A H TG K F HI EN L SG KP W Z JI NB MK HY VL NP TA FP LN VS LE FN ND UE UN.
  destruct (grown P cs _ now first t F HI) as (d & G & S & _ & M). pose proof (c134_everybody P cs _ now first t i l sk F HI L SG KP W Z) as C.
  destruct (c131_signed P cs sa h k t d ctx epoch mk i l j sk ek ns fp ad ps A H TG K G EN C JI NB MK HY VL NP TA FP LN VS LE (fresh_unused t ek UE)) as (l' & b & t' & R & SP & PC & MG & G' & EN' & LS).
  { apply Forall_forall. intros n I. rewrite Forall_forall in FN. split; [exact (FN n I)|exact (fresh_unused t _ (UN n I))]. }
  exists l', b, t'. split; [exact R|]. split; [exact SP|]. split; [exact PC|]. split; [exact EN'|]. intros NC.
  destruct (root_made P cs h t' d H G' EN') as (x & RT). pose proof (member_small t d i l G L) as Hi. destruct R as (R1 & R2 & R3 & R4 & R5 & (ph & R6)).
  assert (TY : type_of l' = type_of l) by (unfold type_of; rewrite R3; reflexivity). assert (SU : forall ct, supports l' ct <-> supports l ct) by (intros ct; unfold supports; rewrite R4; reflexivity).
  apply (fth_cons _ _ _ _ _ t); [exact HI|]. apply (ft_merge _ _ _ _ t i (MkUpdatePath l' ns) t' x); cbn [up_leaf up_nodes].
  - exact (proj2 (c25 P cs t d i _ t' (good_shaped t d G) Hi) MG).
  - exact RT.
  - exact NC.
  - constructor.
    + exact LS.
    + intros lt Q. rewrite R6 in Q. discriminate Q.
    + rewrite R4, R5. intros e. apply (so_extensions _ _ _ _ _ S i l e L).
    + rewrite TY. apply SU. exact (so_credentials _ _ _ _ _ S i l i l L L).
    + intros q m _ Lm. rewrite TY. split; [exact (so_credentials _ _ _ _ _ S q m i l Lm L)|apply SU; exact (so_credentials _ _ _ _ _ S i l q m L Lm)].
    + rewrite R4. exact (so_no_repetition _ _ _ _ _ S i l L).
    + intros q m N Lm E. rewrite R2 in E. apply N. exact (so_signature_keys _ _ _ _ _ S q i m l Lm L E).
    + rewrite R1. exact UE.
  - rewrite R1. exact ND.
  - exact UN.
Qed.
(** Fresh keys never run out. *)
Lemma es_keys_length t : (length (es_keys t) <= length t)%nat.
Proof. unfold es_keys. induction t as [|[n|] t IH]; cbn [flat_map app length]; lia. Qed.
Lemma fresh_list (L : list bytes) : forall m, N.of_nat (length L) + N.of_nat m < 8589934592 -> exists ks, length ks = m /\ NoDup ks /\ forall k, In k ks -> length k = 8%nat /\ ~ In k L.
Proof.
  induction m as [|m IH]; intros B; [exists []; split; [reflexivity|]; split; [constructor|intros k []]|].
  destruct IH as (ks & LK & ND & A); [lia|]. destruct (some_other (L ++ ks)) as (n & _ & N); [rewrite app_length, LK; lia|]. rewrite in_app_iff in N.
  exists (be 8 n :: ks). split; [cbn [length]; rewrite LK; reflexivity|]. split; [constructor; [tauto|exact ND]|]. intros k [<-|I]; [split; [apply be_length|tauto]|exact (A k I)].
Qed.
Lemma node_keys_within ks : (forall k, In k ks -> length k = 8%nat) -> within (20 * N.of_nat (length ks)) (se_elems se_update_path_node (map (fun k => MkUpdatePathNode k []) ks)).
Proof.
  induction ks as [|k ks IH]; intros A; cbn [map se_elems]; [exists []; split; [reflexivity|cbn; lia]|].
  pose proof (nodes_within k (A k (or_introl eq_refl)) 1) as Q. cbn [repeat se_elems] in Q.
  eapply within_le; [|apply within_seq; [apply (within_left _ _ _ Q)|apply IH; intros q I; apply A; right; exact I]]. cbn [length]. lia.
Qed.
Lemma c134_keys t d i : good t d -> i < 2 ^ d -> exists ek ns fp, filtered_direct_path t (2 * i) = Ok fp /\ length ns = length fp /\ within 134217728 (se_vector se_update_path_node ns) /\
  N.of_nat (length ek) < 65536 /\ Forall (fun n => fits30 (upn_encryption_key n)) ns /\
  NoDup (ek :: map upn_encryption_key ns) /\ ~ used_key t ek /\ (forall n, In n ns -> ~ used_key t (upn_encryption_key n)).
Proof.
  intros G Hi. pose proof (filtered_leaf t d i (good_small t d G) (good_usized t d G) Hi) as EF. pose proof (fpath_length t (N.to_nat d) 0 i) as LF. set (fp := fpath t (N.to_nat d) 0 i) in *.
  pose proof (usized_31 t d (good_usized t d G)) as D. 
  destruct (fresh_list (es_keys t) (S (length fp))) as (ks & LK & ND & A).
  { pose proof (es_keys_length t). pose proof (g_small _ _ G). unfold tlen in *. lia. }
  destruct ks as [|ek ks]; [discriminate LK|]. injection LK as LK.
  assert (NU : forall k, In k (ek :: ks) -> ~ used_key t k) by (intros k I U; apply (proj2 (A k I)); apply es_used; exact U).
  exists ek, (map (fun k => MkUpdatePathNode k []) ks), fp. split; [exact EF|]. split; [rewrite map_length; exact LK|]. split.
  - unfold se_vector. destruct (node_keys_within ks) as (x & X & LX); [intros k I; apply (A k (or_intror I))|]. rewrite X. cbn [bind]. apply (within_le (1000 + 4)); [lia|]. apply within_opaque; lia.
  - split; [rewrite (proj1 (A ek (or_introl eq_refl))); reflexivity|]. split; [|split; [|split]].
    + apply Forall_forall. intros n I. apply in_map_iff in I as (k & <- & I). cbn [upn_encryption_key]. unfold fits30. rewrite (proj1 (A k (or_intror I))). reflexivity.
    + rewrite map_map. cbn [upn_encryption_key]. rewrite map_id. exact ND.
    + apply NU. left. reflexivity.
    + intros n I. apply in_map_iff in I as (k & <- & I). apply NU. right. exact I.
Qed.

(** Removing members is a checked change. *)
Lemma no_updates out new : forall senders n t, apply_updates t (changes out new) senders n = Ok t.
Proof.
  intros senders n t. revert n. unfold changes. induction out as [|x out IH]; intros n; cbn [map app apply_updates]; [|apply IH].
  revert n. induction new as [|p new IH]; intros n; cbn [map apply_updates]; [reflexivity|apply IH].
Qed.
Lemma c134_remove P cs g now first i l : fit P cs g now [] 0 first -> forall out t t2, fit_history P cs g now [Some (Leaf first)] t ->
  leaf_at t i = Some l -> sensible t i out [] -> tree_apply t (changes out []) (repeat i (length (changes out []))) = Ok t2 ->
  fit_history P cs g now [Some (Leaf first)] t2 /\ leaf_at t2 i = Some l.
Proof.
  intros F out t t2 H L S T. unfold tree_apply in T. rewrite no_updates in T. cbn [bind] in T.
  assert (Q : forall out t u, fit_history P cs g now [Some (Leaf first)] t -> leaf_at t i = Some l -> sensible t i out [] -> apply_removes t (changes out []) = Ok u ->
    fit_history P cs g now [Some (Leaf first)] u /\ leaf_at u i = Some l /\ apply_adds u (changes out []) = Ok u).
  { clear out t t2 H L S T. induction out as [|x out IH]; intros t u H L [O M N K] T; cbn [changes map app apply_removes] in T.
    - apply Ok_inj in T. subst u. auto.
    - apply bind_ok in T as (t' & R & T). destruct (grown P cs g now first t F H) as (d & G & _). cbn [rem_removed] in R.
      assert (X : exists m, leaf_at t x = Some m). { destruct (leaf_at t x) as [m|] eqn:E; [eauto|]. exfalso. apply (M x (or_introl eq_refl)). apply (RosterFacts.leaf_blank t d x (good_shaped t d G)). exact E. }
      destruct X as (m & X). destruct (c18 t d x (g_size _ _ G) (g_small _ _ G) (member_small t d x m G X)) as (t'' & R' & _ & _ & KE & _). rewrite R in R'. apply Ok_inj in R'. subst t''.
      assert (L' : leaf_at t' i = Some l) by (rewrite (KE i); [exact L|intros ->; apply O; left; reflexivity]).
      assert (NE : t' <> []) by (intros ->; unfold leaf_at in L'; rewrite tget_beyond in L' by (cbn; lia); discriminate L').
      inversion N as [|? ? NX ND]; subst.
      destruct (IH t' u) as (Q1 & Q2 & Q3); [apply (fth_cons _ _ _ _ _ t); [exact H|apply (ft_remove _ _ _ _ t x); assumption]|exact L'| |exact T|].
      + constructor; [intros I; apply O; right; exact I| |exact ND|exact K]. intros y I B. apply (M y (or_intror I)). unfold blank_at in *.
        assert (E : leaf_at t' y = leaf_at t y) by (apply KE; intros ->; exact (NX I)). apply (RosterFacts.leaf_blank t d y (good_shaped t d G)). rewrite <- E. unfold leaf_at. rewrite B. reflexivity.
      + split; [exact Q1|]. split; [exact Q2|exact Q3]. }
  destruct (bind_ok _ _ _ T) as (u & R & A). destruct (Q out t u H L S R) as (Q1 & Q2 & Q3). rewrite Q3 in A. apply Ok_inj in A. subst t2. auto.
Qed.

(** ** The second of three members commits *)
Lemma fu_encodes : encodes ho_tree.
Proof.
  intros x nd E. assert (C : x = 0 \/ x = 1 \/ x = 2 \/ x = 3 \/ x = 4 \/ x = 5 \/ x = 6 \/ 7 <= x) by lia.
  destruct C as [->|[->|[->|[->|[->|[->|[->|C]]]]]]]; try (cbv in E; discriminate E); try (injection E as <-; eexists; vm_compute; reflexivity).
  rewrite tget_beyond in E by exact C. discriminate E.
Qed.
Lemma c134_example : exists mk l' ek ns b t', expand_label modest_hpke (str "epoch") (str "membership") [] (nh modest_hpke) = Ok mk /\ renewed (ho_leaf x02) ek l' /\
  send_public hosting Suite1 ho_ctx [x02; x21] mk (commit_of ho_ctx 1 [] [] (Some (MkUpdatePath l' ns))) = Ok b /\ passive_commit hosting Suite1 ho_tree ho_ctx (str "epoch") b = Ok t' /\
  (~ coincidence hosting Suite1 t' 1 -> fit_history hosting Suite1 (str "group") (fun _ => 0%Z) [Some (Leaf (ho_leaf x01))] t').
Proof.
  destruct (hd_member "epoch") as (mk & MK). exists mk. destruct ho_grown as (F & H). destruct (grown _ _ _ _ _ _ F H) as (d & G & _). assert (L : leaf_at ho_tree 1 = Some (ho_leaf x02)) by reflexivity.
  destruct (c134_keys ho_tree d 1 G (member_small _ _ _ _ G L)) as (ek & ns & fp & FP & LN & W & LE & FN & ND & UE & UN).
  destruct (c134_commit hosting Suite1 modest_sig ho_hash modest_hpke (fun _ => 0%Z) (ho_leaf x01) ho_tree ho_ctx (str "epoch") mk 1 (ho_leaf x02) 0 [x02; x21] ek ns fp [] []) as (l' & b & t' & R & S & Q & _ & X);
    [reflexivity|exact (ho_hashes _ _ _ _ hosting_hosts)|exact (ho_tags _ _ _ _ hosting_hosts)|reflexivity|exact F|exact H|exact fu_encodes|exact L|exact (modest_signs _)|exact (modest_keys Suite1 _)|apply ho_leaf_wf| |discriminate|vm_compute; discriminate|exact MK| | | | |exact FP|exact LN|exact W|exact LE|exact FN|exact ND|exact UE|exact UN|].
  - eexists. split; [vm_compute; reflexivity|vm_compute; discriminate].
  - constructor; [|cbn; lia|split; [constructor|eexists; split; [vm_compute; reflexivity|vm_compute; discriminate]]].
    split; [repeat split; [exists 1; split; reflexivity|constructor]|]. eexists. split; [vm_compute; reflexivity|vm_compute; discriminate].
  - constructor; intros; cbn [length repeat] in *; try reflexivity; exfalso; match goal with Y : at_ _ _ ?n _ _ |- _ => destruct Y as (Y & _); destruct n; discriminate Y end.
  - intros p [].
  - exists ho_tree. reflexivity.
  - exists l', ek, ns, b, t'. auto.
Qed.
Lemma c134_remove_example : exists t2, tree_apply ho_tree (changes [0] []) [1] = Ok t2 /\ fit_history hosting Suite1 (str "group") (fun _ => 0%Z) [Some (Leaf (ho_leaf x01))] t2 /\ leaf_at t2 0 = None.
Proof.
  destruct (tree_apply ho_tree (changes [0] []) [1]) as [t2|e| |] eqn:E; [|vm_compute in E; discriminate E..]. exists t2. split; [reflexivity|]. destruct ho_grown as (F & H). split.
  - apply (c134_remove hosting Suite1 (str "group") (fun _ => 0%Z) (ho_leaf x01) 1 (ho_leaf x02) F [0] ho_tree t2 H eq_refl); [|exact E].
    constructor; [cbn; intuition discriminate|intros x [<-|[]]; vm_compute; discriminate|repeat constructor; cbn; intuition discriminate|constructor].
  - vm_compute in E. injection E as <-. reflexivity.
Qed.
