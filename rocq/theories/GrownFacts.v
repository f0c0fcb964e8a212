(** A group that grew from one member by checked changes can welcome whom it added. *)
From Verif Require Import SpecInvitable SpecStays InvitableFacts StaysFacts StaysCommit ExStays Examples SendableFacts HeardFacts TreeFacts PassiveFacts TreeInv TreeMore MemberFacts LeafFacts HashFacts KnowFacts JoinFacts ReplicaFacts Verified ExPassive.
From Coq Require Import ZifyBool ZifyNat ZifyN Strings.Byte.
Local Open Scope N_scope.
Local Open Scope list_scope.
Import Coq.Strings.Byte.

Lemma grown_host P cs first t ctx joiner psk ids psks exts i sk :
  fit P cs (gc_group_id ctx) (fun _ => 0%Z) [] 0 first -> fit_history P cs (gc_group_id ctx) (fun _ => 0%Z) [Some (Leaf first)] t ->
  wf_tree t -> gc_suite ctx = cs -> root_tree_hash P cs t = Ok (gc_tree_hash ctx) ->
  wf_group_context ctx /\ within 268435456 (se_group_context ctx) -> wf_extensions exts /\ within 268435456 (se_extensions exts) ->
  extract_psk_secret P cs ids psks = Ok psk /\ Forall wf_psk_id ids ->
  i < 4294967296 /\ signs P cs sk /\ (exists l, leaf_at t i = Some l /\ key_pair_ok P cs sk (lp_signature_key (ln_payload l))) ->
  host P cs t ctx joiner psk ids psks exts i sk.
Proof.
  intros F H W E RT C X K S. set (g := gc_group_id ctx) in *.
  assert (V : verify_parent_hashes P cs [Some (Leaf first)] = Ok true).
  { apply (c70_leaves P cs _ 0 (good_single first)). intros x q Q. destruct (N.eq_dec x 0) as [->|N]; [discriminate|]. rewrite tget_beyond in Q by (cbn; lia). discriminate. }
  destruct (fit_keeps P cs g _ _ t H 0 (good_single first) (fit_single P cs g _ first F) V) as (d' & G' & S' & V' & (j & m & M') & TH); [exists 0, first; reflexivity|].
  constructor; try assumption.
  - exists first. split; [exact TH|]. intros ->. unfold leaf_at in M'. rewrite tget_beyond in M' by (cbn; lia). discriminate.
  - apply (sound_member P cs g _ t d' G' S' V'); eauto.
Qed.

Lemma c132_grown P cs k h first t ctx joiner psk ids psks exts i sk known tree raw n gs : hosts P cs k h ->
  fit P cs (gc_group_id ctx) (fun _ => 0%Z) [] 0 first -> fit_history P cs (gc_group_id ctx) (fun _ => 0%Z) [Some (Leaf first)] t ->
  wf_tree t -> gc_suite ctx = cs -> root_tree_hash P cs t = Ok (gc_tree_hash ctx) ->
  wf_group_context ctx /\ within 268435456 (se_group_context ctx) -> wf_extensions exts /\ within 268435456 (se_extensions exts) ->
  extract_psk_secret P cs ids psks = Ok psk /\ Forall wf_psk_id ids ->
  i < 4294967296 /\ signs P cs sk /\ (exists l, leaf_at t i = Some l /\ key_pair_ok P cs sk (lp_signature_key (ln_payload l))) ->
  keeps known ids psks -> se_ratchet_tree t = Ok raw -> tree_given exts tree raw ->
  Forall (fun g => welcome_guest P cs t g /\ within n (se_group_secrets (MkGroupSecrets joiner (gt_path g) ids))) gs -> NoDup (map (fun g => generate_ref P (gt_package g)) gs) ->
  n < 536870912 -> N.of_nat (length gs) * (n + 300000) < 536870912 ->
  exists gi wb, gi_context gi = ctx /\ gi_extensions gi = exts /\ gi_signer gi = i /\
    forall g, In g gs -> exists kpb t' e, se_mls_message (MkMLSMessage MLS10 (WMKeyPackage (gt_package g))) = Ok kpb /\
      passive_join P cs known kpb (gt_private g) wb tree = Ok (MkJoined t' gi joiner psk e) /\
      copy_of t t' /\ (forall x, tget t' x = tget t x) /\ extract_epoch_secret P ctx joiner psk = Ok e.
Proof.
  intros HO F H W E RT C X K S. intros KN SR TG FG ND LN LG.
  exact (c132_all P cs k h t ctx joiner psk ids psks exts i sk known tree raw n gs HO (grown_host P cs first t ctx joiner psk ids psks exts i sk F H W E RT C X K S) KN SR TG FG ND LN LG).
Qed.

(** ** The three members again *)
Definition ho_two : tree := [Some (Leaf (ho_leaf x01)); None; Some (Leaf (ho_leaf x02))].
Lemma ho_fit t i k : In k [x01; x02; x03] -> i < 3 -> (forall j m, leaf_at t j = Some m -> exists q, In q [x01; x02; x03] /\ q <> k /\ m = ho_leaf q) -> ~ used_key t [k; x11; x12] ->
  fit hosting Suite1 (str "group") (fun _ => 0%Z) t i (ho_leaf k).
Proof.
  intros K I L U. split.
  - apply leaf_verify_signature_iff. destruct K as [<-|[<-|[<-|[]]]]; vm_compute; reflexivity.
  - intros lt _ Q. lia.
  - intros e J. cbn in J. destruct J as [<-|[]]. vm_compute. auto.
  - vm_compute. auto.
  - intros j m _ J. destruct (L j m J) as (q & _ & _ & ->). vm_compute. auto.
  - vm_compute. repeat constructor; cbn; intuition discriminate.
  - intros j m _ J. destruct (L j m J) as (q & _ & N & ->). cbn. congruence.
  - exact U.
Qed.
Lemma ho_grown : fit hosting Suite1 (str "group") (fun _ => 0%Z) [] 0 (ho_leaf x01) /\ fit_history hosting Suite1 (str "group") (fun _ => 0%Z) [Some (Leaf (ho_leaf x01))] ho_tree.
Proof.
  split.
  - apply ho_fit; [cbn; auto|lia| |apply es_fresh; reflexivity]. intros j m L. unfold leaf_at in L. rewrite tget_beyond in L by (cbn; lia). discriminate.
  - apply (fth_cons _ _ _ _ _ ho_two).
    + apply (fth_cons _ _ _ _ _ [Some (Leaf (ho_leaf x01))]); [apply fth_nil|]. apply (ft_add _ _ _ _ _ 1 (ho_leaf x02)); try reflexivity.
      * exists 0. left. reflexivity.
      * apply ho_fit; [cbn; auto|lia| |apply es_fresh; reflexivity]. intros j m L. apply single_leaf in L as (_ & ->). exists x01. split; [cbn; auto|split; [discriminate|reflexivity]].
      * intros h Q. discriminate Q.
    + apply (ft_add _ _ _ _ _ 2 (ho_leaf x03)); try reflexivity.
      * exists 1. left. reflexivity.
      * apply ho_fit; [cbn; auto|lia| |apply es_fresh; reflexivity]. intros j m L. destruct (N.eq_dec j 0) as [->|N0]; [injection L as <-; exists x01; split; [cbn; auto|split; [discriminate|reflexivity]]|].
        destruct (N.eq_dec j 1) as [->|N1]; [injection L as <-; exists x02; split; [cbn; auto|split; [discriminate|reflexivity]]|].
        unfold leaf_at in L. rewrite tget_beyond in L by (cbn; lia). discriminate.
      * intros h Q. discriminate Q.
Qed.
