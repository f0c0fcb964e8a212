(** Where decoding panics: the three decoders that read more than they checked for, and what contains them. *)
From Verif Require Export TreeCodec.
Local Open Scope N_scope.

Lemma bind_panic {A B} (m : res A) (f : A -> res B) :
  bind m f = Panic <-> m = Panic \/ exists a, m = Ok a /\ f a = Panic.
Proof.
  destruct m; cbn; split; intros H; try discriminate; eauto.
  - destruct H as [H|(a' & H & K)]; [discriminate|]. congruence.
  - destruct H as [H|(a' & H & K)]; discriminate.
  - destruct H as [H|(a' & H & K)]; discriminate.
Qed.

Lemma lifetime_panics bs : de_lifetime bs = Panic <-> (8 <= length bs < 16)%nat.
Proof.
  unfold de_lifetime. split.
  - intros H. destruct (Nat.lt_ge_cases (length bs) 8) as [L|L]; [rewrite need_short in H by lia; discriminate|].
    split; [exact L|]. rewrite need_ok in H by lia. cbn [bind] in H. unfold get_u64 in H.
    destruct (get_be 8 bs) as [[v r]| | |] eqn:E; cbn [bind] in H; try discriminate.
    + apply get_be_ok in E as [-> _]. destruct (get_be 8 r) as [[w r']| | |] eqn:E'; cbn [bind] in H; try discriminate.
      rewrite app_length, be_length. destruct (Nat.lt_ge_cases (length r) 8) as [L'|L']; [lia|].
      pose proof (safe_get_be true 8 r L') as S. rewrite E' in S. discriminate S.
    + pose proof (safe_get_be true 8 bs L) as S. rewrite E in S. discriminate S.
  - intros [L1 L2]. rewrite need_ok by lia. cbn [bind]. unfold get_u64.
    destruct (get_be 8 bs) as [[v r]| | |] eqn:E; cbn [bind].
    + apply get_be_ok in E as [-> _]. rewrite app_length, be_length in L2.
      rewrite get_be_short by lia. reflexivity.
    + unfold get_be in E. destruct (Nat.ltb_spec (length bs) 8); discriminate.
    + reflexivity.
    + unfold get_be in E. destruct (Nat.ltb_spec (length bs) 8); discriminate.
Qed.

Lemma proposal_type_panics bs : de_proposal_type bs = Panic <-> length bs = 1%nat.
Proof.
  unfold de_proposal_type, need, get_u16, get_be.
  destruct (Nat.ltb_spec (length bs) 1), (Nat.ltb_spec (length bs) 2); cbn [bind];
    split; intros; try discriminate; try lia; reflexivity.
Qed.

Lemma unmerged_leaf_panics bs : de_unmerged_leaf bs = Panic <-> (1 <= length bs < 4)%nat.
Proof.
  unfold de_unmerged_leaf, need, get_u32, get_be.
  destruct (Nat.ltb_spec (length bs) 1), (Nat.ltb_spec (length bs) 4); cbn [bind];
    split; intros; try discriminate; try lia; reflexivity.
Qed.

Lemma unmerged_loop_panics fuel : forall bs, (length bs <= fuel)%nat ->
  (vec_loop de_unmerged_leaf fuel bs = Panic <-> (length bs mod 4 <> 0)%nat).
Proof.
  induction fuel as [|fuel IH]; intros [|b bs] L; cbn [vec_loop].
  - split; [discriminate|]. intros H; exfalso; apply H; reflexivity.
  - cbn in L; lia.
  - split; [discriminate|]. intros H; exfalso; apply H; reflexivity.
  - set (l := b :: bs) in *.
    destruct (Nat.lt_ge_cases (length l) 4) as [S|S].
    + assert (E : de_unmerged_leaf l = Panic) by (apply unmerged_leaf_panics; cbn in *; lia).
      rewrite E. cbn [bind]. split; [|reflexivity]. intros _. rewrite Nat.mod_small by exact S. cbn. lia.
    + unfold de_unmerged_leaf. rewrite need_ok by lia. cbn [bind]. unfold get_u32.
      pose proof (safe_get_be true 4 l S) as SF.
      destruct (get_be 4 l) as [[v r]| | |] eqn:E; try discriminate SF; try contradiction.
      2:{ unfold get_be in E. destruct (Nat.ltb_spec (length l) 4); discriminate. }
      cbn [bind]. apply get_be_ok in E as [El _]. rewrite El, app_length, be_length.
      assert (Lr : (length r <= fuel)%nat).
      { assert (length l = 4 + length r)%nat by (rewrite El, app_length, be_length; reflexivity). lia. }
      specialize (IH r Lr). rewrite <- Nat.add_mod_idemp_l by lia. rewrite Nat.mod_same, Nat.add_0_l by lia.
      rewrite <- IH. rewrite bind_panic. split; [intros [H|(a & _ & H)]; [exact H|discriminate]|auto].
Qed.

(** The vector of unmerged leaves panics exactly when its declared byte length is not a multiple of 4. *)
Lemma unmerged_vector_panics bs : de_vector de_unmerged_leaf bs = Panic <->
  exists v rest, de_opaque bs = Ok (v, rest) /\ (length v mod 4 <> 0)%nat.
Proof.
  unfold de_vector, de_opaque. pose proof (safe_varint true bs) as S.
  destruct (de_varint bs) as [[n r]|e| |]; cbn [bind]; try discriminate S; try contradiction.
  - destruct (N.ltb_spec (N.of_nat (length r)) n) as [L|L].
    + split; [discriminate|]. intros (v & rest & H & _). discriminate.
    + pose proof (safe_copy true n r L) as Sc.
      destruct (copy_to_bytes n r) as [[v rest]|e| |]; cbn [bind]; try discriminate Sc; try contradiction.
      * pose proof (unmerged_loop_panics (length v) v (le_n _)) as P.
        destruct (vec_loop de_unmerged_leaf (length v) v); cbn [bind].
        -- split; [discriminate|]. intros (v' & rest' & H & K). inversion H; subst. apply P in K. discriminate.
        -- split; [discriminate|]. intros (v' & rest' & H & K). inversion H; subst. apply P in K. discriminate.
        -- split; [|reflexivity]. intros _. exists v, rest. split; [reflexivity|]. apply P. reflexivity.
        -- split; [discriminate|]. intros (v' & rest' & H & K). inversion H; subst. apply P in K. discriminate.
      * split; [discriminate|]. intros (v' & rest' & H & K). discriminate.
  - split; [discriminate|]. intros (v & rest & H & _). discriminate.
Qed.

Lemma strict_not_panic {A} (de : bytes -> res (A * bytes)) bs : desafe true de -> de bs <> Panic.
Proof. intros S E. specialize (S bs). rewrite E in S. discriminate S. Qed.

Lemma parent_node_panics bs : de_parent_node bs = Panic <->
  exists k h v pre rest, se_opaque k +++ se_opaque h +++ se_opaque v = Ok pre /\ bs = pre ++ rest /\
    (length v mod 4 <> 0)%nat.
Proof.
  unfold de_parent_node. aliases. split.
  - intros H. apply bind_panic in H as [H|([k r] & Hk & H)]; [exfalso; eapply strict_not_panic; eauto; apply _|].
    apply bind_panic in H as [H|([h r'] & Hh & H)]; [exfalso; eapply strict_not_panic; eauto; apply _|].
    apply bind_panic in H as [H|([u r''] & Hu & H)]; [|discriminate].
    apply unmerged_vector_panics in H as (v & rest & Hv & M).
    apply (codec_can codec_opaque) in Hk as (_ & pk & Ek & ->).
    apply (codec_can codec_opaque) in Hh as (_ & ph & Eh & ->).
    apply (codec_can codec_opaque) in Hv as (_ & pv & Ev & ->).
    exists k, h, v. eexists; exists rest. split; [seq_intro|]. split; [rewrite <- !app_assoc; reflexivity|exact M].
  - intros (k & h & v & pre & rest & E & -> & M). split_seq. rewrite <- !app_assoc. repeat rt_step.
    apply bind_panic. left. apply unmerged_vector_panics. exists v, rest. split; [|exact M].
    apply (codec_rt codec_opaque); auto.
Qed.

Lemma leaf_node_panics bs : de_leaf_node bs = Panic <->
  exists e s c cap pre tail,
    se_opaque e +++ se_opaque s +++ se_credential c +++ se_capabilities cap = Ok pre /\ wf_capabilities cap /\
    bs = pre ++ x01 :: tail /\ (8 <= length tail < 16)%nat.
Proof.
  unfold de_leaf_node, de_leaf_payload. aliases. split.
  - intros H. apply bind_panic in H as [H|([p r] & _ & H)].
    2:{ apply bind_panic in H as [H|([? ?] & _ & H)]; [exfalso; eapply strict_not_panic; eauto; apply _|discriminate]. }
    apply bind_panic in H as [H|([e r] & He & H)]; [exfalso; eapply strict_not_panic; eauto; apply _|].
    apply bind_panic in H as [H|([s r2] & Hs & H)]; [exfalso; eapply strict_not_panic; eauto; apply _|].
    apply bind_panic in H as [H|([c r3] & Hc & H)]; [exfalso; eapply strict_not_panic; eauto; apply _|].
    apply bind_panic in H as [H|([cap r4] & Hcap & H)]; [exfalso; eapply strict_not_panic; eauto; apply _|].
    apply bind_panic in H as [H|([src r5] & Hsrc & H)].
    2:{ apply bind_panic in H as [H|([? ?] & _ & H)]; [exfalso; eapply strict_not_panic; eauto; apply _|discriminate]. }
    apply (codec_can codec_opaque) in He as (_ & pe & Ee & ->).
    apply (codec_can codec_opaque) in Hs as (_ & ps & Es & ->).
    apply (codec_can codec_credential) in Hc as (_ & pc & Ec & ->).
    apply (codec_can codec_capabilities) in Hcap as (W & pcap & Ecap & ->).
    unfold de_leaf_node_source in H. destruct r4 as [|b tail]; [discriminate|].
    rewrite read_u8_cons in H. cbn [bind] in H.
    destruct (N.eq_dec (b2n b) 1) as [E1|E1].
    + rewrite E1 in H. apply bind_panic in H as [H|([? ?] & _ & H)]; [|discriminate].
      apply lifetime_panics in H.
      assert (b = x01) by (apply b2n_inj; exact E1). subst b.
      exists e, s, c, cap. eexists; exists tail. split; [seq_intro|].
      split; [exact W|]. split; [rewrite <- !app_assoc; reflexivity|exact H].
    + exfalso. destruct (N.eq_dec (b2n b) 3) as [E3|E3].
      * rewrite E3 in H. apply bind_panic in H as [H|([? ?] & _ & H)]; [|discriminate].
        eapply strict_not_panic; eauto; apply _.
      * destruct (N.eq_dec (b2n b) 2) as [E2|E2]; [rewrite E2 in H; discriminate|].
        u8_cases H; auto.
  - intros (e & s & c & cap & pre & tail & E & W & -> & L). split_seq. rewrite <- !app_assoc. repeat rt_step.
    unfold de_leaf_node_source. rewrite read_u8_cons. cbn [bind].
    assert (P : de_lifetime tail = Panic) by (apply lifetime_panics; exact L).
    change (b2n x01) with 1. cbv beta iota. rewrite P. reflexivity.
Qed.

(** Message kinds that contain no leaf node or parent node. *)
Lemma mls_message_safe_kinds m bs : In m [2; 3; 4] -> (* private message, welcome, group info *)
  de_mls_message (be 2 1 ++ be 2 m ++ bs) <> Panic.
Proof.
  intros Hm. unfold de_mls_message. rewrite (codec_rt codec_u16 1 (be 2 1)) by (reflexivity).
  cbn [bind version_of_u16 is_mls10 negb]. unfold de_wire_message, de_wire_format.
  rewrite need_ok by (rewrite app_length, be_length; lia). cbn [bind].
  rewrite (codec_rt codec_u16 m (be 2 m)); [|cbn in Hm; unfold is_u16; lia|reflexivity]. cbn [bind].
  intros H. apply (proj1 (bind_panic _ _)) in H as [H|([x r] & _ & H)]; [|discriminate].
  cbn in Hm. destruct Hm as [<-|[<-|[<-|[]]]]; cbn in H;
    (apply bind_panic in H as [H|([? ?] & _ & H)]; [eapply strict_not_panic; eauto; apply _|discriminate]).
Qed.
