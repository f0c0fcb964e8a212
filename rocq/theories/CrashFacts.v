(** Proofs about the byte strings on which decoding panics. *)
From Verif Require Import CodecLib WireCodecs TreeCodec CodecPanics SpecCrash.
Local Open Scope N_scope.

Ltac calm H := first [apply bind_panic in H as [H|([? ?] & _ & H)]; [exfalso; eapply strict_not_panic; [|exact H]; apply _|] | idtac].

Section Vector.
  Context {A : Type} (wf : A -> Prop) (ser : A -> res bytes) (de : bytes -> res (A * bytes)) (C : codec wf ser de) (NE : ser_ne ser).
  Lemma loop_panics : forall fuel bs, (length bs <= fuel)%nat ->
    (vec_loop de fuel bs = Panic <-> exists l raw tail, Forall wf l /\ se_elems ser l = Ok raw /\ bs = raw ++ tail /\ tail <> [] /\ de tail = Panic).
  Proof.
    induction fuel as [|fuel IH]; intros bs L.
    - destruct bs as [|b bs]; [|cbn in L; lia]. cbn. split; [discriminate|]. intros (l & raw & tail & _ & _ & E & N & _). symmetry in E. apply app_eq_nil in E as [_ E]. contradiction.
    - destruct bs as [|b bs]; [cbn; split; [discriminate|]; intros (l & raw & tail & _ & _ & E & N & _); symmetry in E; apply app_eq_nil in E as [_ E]; contradiction|].
      remember (b :: bs) as bs0 eqn:Q. assert (NN : bs0 <> []) by (rewrite Q; discriminate).
      assert (U : vec_loop de (S fuel) bs0 = (let* (a, r) := de bs0 in let* l := vec_loop de fuel r in Ok (a :: l))) by (rewrite Q; reflexivity).
      rewrite U. clear U Q b bs. split.
      + intros H. apply bind_panic in H as [H|([a r] & D & H)].
        * exists [], [], bs0. repeat split; [constructor|exact NN|exact H].
        * apply bind_panic in H as [H|(l & _ & H)]; [|discriminate]. pose proof (codec_progress C NE _ _ _ D) as PR.
          apply IH in H as (l & raw & tail & W & SE & -> & N & P); [|lia]. apply (codec_can C) in D as (Wa & p & Sp & ->).
          exists (a :: l), (p ++ raw)%list, tail. split; [constructor; assumption|]. split; [apply seqw_intro; assumption|]. rewrite <- app_assoc. auto.
      + intros (l & raw & tail & W & SE & -> & N & P). apply bind_panic. destruct W as [|a l Wa W].
        * injection SE as <-. left. exact P.
        * cbn [se_elems] in SE. apply seqw_ok in SE as (p & q & Sp & Sq & ->). rewrite <- app_assoc in *. right. exists (a, (q ++ tail)%list). rewrite (codec_rt C a p _ Wa Sp). split; [reflexivity|].
          apply bind_panic. left. apply IH; [|exists l, q, tail; auto]. pose proof (NE a p Sp). rewrite app_length in L. lia.
  Qed.
  Lemma vector_panics (bad : bytes -> Prop) : (forall t, de t = Panic <-> bad t) -> (forall t, bad t -> t <> []) ->
    forall bs, de_vector de bs = Panic <-> bad_vector wf ser bad bs.
  Proof.
    intros B BN bs. unfold de_vector. split.
    - intros H. apply bind_panic in H as [H|([n r] & D & H)]; [exfalso; eapply strict_not_panic; [|exact H]; apply _|].
      apply (codec_can codec_varint) in D as (W & h & Hh & ->). destruct (N.ltb_spec (N.of_nat (length r)) n) as [L|L]; [discriminate|].
      apply bind_panic in H as [H|([v r'] & Hv & H)]; [pose proof (safe_copy true n r L) as S; rewrite H in S; discriminate S|]. apply copy_ok in Hv as [-> <-].
      apply bind_panic in H as [H|(l & _ & H)]; [|discriminate]. apply loop_panics in H as (l & raw & tail & Wl & SE & -> & N & P); [|lia].
      destruct (se_opaque_short (raw ++ tail)) as (h' & Hh' & E); [exact W|]. assert (h = h') by congruence. subst h'.
      exists l, raw, tail, (h ++ (raw ++ tail))%list, r'. split; [exact Wl|]. split; [exact SE|]. split; [apply B, P|]. split; [exact E|]. rewrite !app_assoc. reflexivity.
    - intros (l & raw & tail & pre & rest & Wl & SE & P & E & ->). apply se_opaque_ok in E as (S & h & Hh & ->).
      rewrite <- app_assoc, (codec_rt codec_varint _ _ _ S Hh). cbn [bind]. destruct (N.ltb_spec (N.of_nat (length ((raw ++ tail) ++ rest))) (N.of_nat (length (raw ++ tail)))) as [L|_]; [rewrite (app_length (raw ++ tail)) in L; lia|].
      rewrite copy_app. cbn [bind]. apply bind_panic. left. apply loop_panics; [lia|]. exists l, raw, tail. split; [exact Wl|]. split; [exact SE|]. split; [reflexivity|]. split; [apply BN, P|apply B, P].
  Qed.
End Vector.

Lemma bad_leaf_cons t : bad_leaf t -> t <> [].
Proof. intros (e & s & c & cap & pre & tail & _ & _ & -> & _) E. apply app_eq_nil in E as [_ E]. discriminate. Qed.
Lemma leaf_bad bs : de_leaf_node bs = Panic <-> bad_leaf bs.
Proof. apply leaf_node_panics. Qed.
Lemma parent_bad bs : de_parent_node bs = Panic <-> bad_parent bs.
Proof. apply parent_node_panics. Qed.

Lemma key_package_bad bs : de_key_package bs = Panic <-> bad_key_package bs.
Proof.
  unfold de_key_package, de_key_package_tbs. aliases. split.
  - intros H. apply bind_panic in H as [H|([? ?] & _ & H)].
    2:{ apply bind_panic in H as [H|([? ?] & _ & H)]; [exfalso; eapply strict_not_panic; eauto; apply _|discriminate]. }
    destruct (Nat.lt_ge_cases (length bs) 4) as [L|L]; [rewrite need_short in H by lia; discriminate|]. rewrite need_ok in H by lia. cbn [bind] in H.
    apply bind_panic in H as [H|([v r] & Hv & H)]; [unfold get_u16, get_be in H; destruct (Nat.ltb_spec (length bs) 2); [lia|discriminate]|]. apply get_be_ok in Hv as [-> Lv].
    rewrite app_length, be_length in L.
    apply bind_panic in H as [H|([c r2] & Hc & H)]; [unfold get_u16, get_be in H; destruct (Nat.ltb_spec (length r) 2); [lia|discriminate]|]. apply get_be_ok in Hc as [-> Lc].
    apply bind_panic in H as [H|([k r3] & Hk & H)]; [exfalso; eapply strict_not_panic; eauto; apply _|]. apply (codec_can codec_opaque) in Hk as (_ & pk & Ek & ->).
    apply bind_panic in H as [H|([? ?] & _ & H)].
    2:{ apply bind_panic in H as [H|([? ?] & _ & H)]; [exfalso; eapply strict_not_panic; eauto; apply _|discriminate]. }
    apply leaf_bad in H. exists v, c, k, pk, r3. auto.
  - intros (v & c & k & pre & tail & Lv & Lc & Ek & -> & B). rewrite need_ok by (rewrite !app_length, !be_length; lia). cbn [bind].
    assert (G : forall n r, n < 65536 -> get_u16 (be 2 n ++ r) = Ok (n, r)).
    { intros n r Ln. pose proof (codec_rt codec_u16 n (be 2 n) r Ln eq_refl) as Q. unfold read_u16 in Q. rewrite need_ok in Q by (rewrite app_length, be_length; lia). exact Q. }
    rewrite !G by assumption. cbn [bind]. rewrite G by assumption. cbn [bind]. rewrite (codec_rt codec_opaque k pre _ I Ek). cbn [bind].
    apply leaf_bad in B. rewrite B. reflexivity.
Qed.

Ltac strict_ H := exfalso; eapply strict_not_panic; [|exact H]; apply _.
Lemma read_u16_be v r : v < 65536 -> read_u16 (be 2 v ++ r) = Ok (v, r).
Proof. intros L. exact (codec_rt codec_u16 v (be 2 v) r L eq_refl). Qed.

Lemma proposal_bad bs : de_proposal bs = Panic <-> bad_proposal bs.
Proof.
  unfold de_proposal. split.
  - intros H. apply bind_panic in H as [H|([t r] & Ht & H)]; [strict_ H|]. apply (codec_can codec_u16) in Ht as (Lt & p & Ep & ->). injection Ep as <-.
    unfold proposal_type_of_u16 in H. destruct (N.eq_dec t 1) as [->|N1].
    { left. exists r. split; [reflexivity|]. apply bind_panic in H as [H|([? ?] & _ & H)]; [|discriminate]. unfold de_add_proposal in H. apply bind_panic in H as [H|([? ?] & _ & H)]; [|discriminate]. apply key_package_bad, H. }
    destruct (N.eq_dec t 2) as [->|N2].
    { right. exists r. split; [reflexivity|]. apply bind_panic in H as [H|([? ?] & _ & H)]; [|discriminate]. unfold de_update_proposal in H. apply bind_panic in H as [H|([? ?] & _ & H)]; [|discriminate]. apply leaf_bad, H. }
    exfalso. destruct t as [|[[[|[]|]|[|[]|]|]|[[]|[]|]|]]; try congruence; cbv beta iota in H; try discriminate; apply bind_panic in H as [H|([? ?] & _ & H)]; try discriminate; strict_ H.
  - intros [(t & -> & B)|(t & -> & B)]; rewrite read_u16_be by lia; cbn [bind].
    + change (proposal_type_of_u16 1) with PtAdd. cbv iota. unfold de_add_proposal. apply key_package_bad in B. rewrite B. reflexivity.
    + change (proposal_type_of_u16 2) with PtUpdate. cbv iota. unfold de_update_proposal. apply leaf_bad in B. rewrite B. reflexivity.
Qed.
Lemma proposal_or_ref_bad bs : de_proposal_or_ref bs = Panic <-> bad_proposal_or_ref bs.
Proof.
  unfold de_proposal_or_ref. split.
  - intros H. destruct bs as [|b r]; [rewrite read_u8_nil in H; discriminate|]. rewrite read_u8_cons in H. cbn [bind] in H.
    destruct (N.eq_dec (b2n b) 1) as [E|N1]; [|destruct (N.eq_dec (b2n b) 2) as [E|N2]].
    + rewrite E in H. cbv beta iota in H. change 1 with (b2n x01) in E. apply b2n_inj in E as ->. apply bind_panic in H as [H|([? ?] & _ & H)]; [|discriminate]. exists r. split; [reflexivity|]. apply proposal_bad, H.
    + rewrite E in H. cbv beta iota in H. apply bind_panic in H as [H|([? ?] & _ & H)]; [strict_ H|discriminate].
    + exfalso. destruct (b2n b) as [|[[]|[]|]]; try congruence; discriminate.
  - intros (t & -> & B). rewrite read_u8_cons. cbn [bind]. change (b2n x01) with 1. cbv iota. apply proposal_bad in B. rewrite B. reflexivity.
Qed.
Lemma bad_proposal_or_ref_cons t : bad_proposal_or_ref t -> t <> [].
Proof. intros (u & -> & _). discriminate. Qed.

Lemma option_panics {A} (de : bytes -> res (A * bytes)) bs : de_option de bs = Panic <-> exists t, bs = x01 :: t /\ de t = Panic.
Proof.
  unfold de_option. split.
  - intros H. apply bind_panic in H as [H|([b r] & Hb & H)]; [strict_ H|]. apply (codec_can codec_optflag) in Hb as (_ & p & Ep & ->). destruct b; [|discriminate].
    injection Ep as <-. apply bind_panic in H as [H|([? ?] & _ & H)]; [|discriminate]. exists r. auto.
  - intros (t & -> & B). change (x01 :: t) with ([x01] ++ t). rewrite (codec_rt codec_optflag true [x01] t I eq_refl). cbn [bind]. rewrite B. reflexivity.
Qed.
Lemma commit_bad bs : de_commit bs = Panic <-> bad_commit bs.
Proof.
  assert (V : forall bs, de_vector de_proposal_or_ref bs = Panic <-> bad_vector wf_proposal_or_ref se_proposal_or_ref bad_proposal_or_ref bs).
  { apply vector_panics; [apply codec_proposal_or_ref|apply _|exact proposal_or_ref_bad|exact bad_proposal_or_ref_cons]. }
  assert (CV : codec (Forall wf_proposal_or_ref) (se_vector se_proposal_or_ref) (de_vector de_proposal_or_ref)) by apply _.
  unfold de_commit. split.
  - intros H. apply bind_panic in H as [H|([l r] & Hl & H)]; [left; apply V, H|]. right.
    apply (codec_can CV) in Hl as (W & pre & E & ->).
    apply bind_panic in H as [H|([? ?] & _ & H)]; [|discriminate]. apply option_panics in H as (t & -> & H). unfold de_update_path in H.
    apply bind_panic in H as [H|([? ?] & _ & H)]; [apply leaf_bad in H; exists l, pre, t; auto|].
    apply bind_panic in H as [H|([? ?] & _ & H)]; [strict_ H|discriminate].
  - intros [B|(l & pre & t & W & E & -> & B)].
    + apply V in B. rewrite B. reflexivity.
    + rewrite (codec_rt CV l pre _ W E). cbn [bind]. apply bind_panic. left. apply option_panics. exists t. split; [reflexivity|]. unfold de_update_path. apply leaf_bad in B. rewrite B. reflexivity.
Qed.
Lemma content_bad bs : de_content bs = Panic <-> (exists t, bs = x02 :: t /\ bad_proposal t) \/ (exists t, bs = x03 :: t /\ bad_commit t).
Proof.
  unfold de_content, de_content_type. destruct bs as [|b r].
  { split; [discriminate|]. intros [(t & H & _)|(t & H & _)]; discriminate. }
  rewrite need_ok by (cbn; lia). cbn [bind]. rewrite ?read_u8_cons. cbn [bind]. split.
  - intros H. destruct (N.eq_dec (b2n b) 1) as [E|N1]; [|destruct (N.eq_dec (b2n b) 2) as [E|N2]; [|destruct (N.eq_dec (b2n b) 3) as [E|N3]]].
    + rewrite E in H. cbn [bind] in H. apply bind_panic in H as [H|([? ?] & _ & H)]; [strict_ H|discriminate].
    + rewrite E in H. cbn [bind] in H. change 2 with (b2n x02) in E. apply b2n_inj in E as ->. apply bind_panic in H as [H|([? ?] & _ & H)]; [|discriminate]. left. exists r. split; [reflexivity|]. apply proposal_bad, H.
    + rewrite E in H. cbn [bind] in H. change 3 with (b2n x03) in E. apply b2n_inj in E as ->. apply bind_panic in H as [H|([? ?] & _ & H)]; [|discriminate]. right. exists r. split; [reflexivity|]. apply commit_bad, H.
    + exfalso. destruct (b2n b) as [|[[]|[]|]]; try congruence; discriminate.
  - intros [(t & E & B)|(t & E & B)]; injection E as -> ->.
    + change (b2n x02) with 2. cbn [bind]. apply proposal_bad in B. rewrite B. reflexivity.
    + change (b2n x03) with 3. cbn [bind]. apply commit_bad in B. rewrite B. reflexivity.
Qed.
Lemma public_message_bad bs : de_public_message bs = Panic <->
  exists g e s a pre tail, e < 2 ^ 64 /\ wf_sender s /\ se_opaque g +++ put_u64 e +++ se_sender s +++ se_opaque a = Ok pre /\ bs = pre ++ tail /\
    ((exists t, tail = x02 :: t /\ bad_proposal t) \/ (exists t, tail = x03 :: t /\ bad_commit t)).
Proof.
  unfold de_public_message, de_framed_content. split.
  - intros H. apply bind_panic in H as [H|([c r0] & _ & H)].
    2:{ apply bind_panic in H as [H|([? ?] & _ & H)]; [strict_ H|]. destruct (fc_sender c); try discriminate. apply bind_panic in H as [H|([? ?] & _ & H)]; [strict_ H|discriminate]. }
    apply bind_panic in H as [H|([g r] & Hg & H)]; [strict_ H|]. apply (codec_can codec_opaque) in Hg as (_ & pg & Eg & ->).
    apply bind_panic in H as [H|([e r1] & He & H)]; [strict_ H|]. apply (codec_can codec_u64) in He as (Le & pe & Ee & ->).
    apply bind_panic in H as [H|([s r2] & Hs & H)]; [strict_ H|]. apply (codec_can codec_sender) in Hs as (Ws & ps & Es & ->).
    apply bind_panic in H as [H|([a r3] & Ha & H)]; [strict_ H|]. apply (codec_can codec_opaque) in Ha as (_ & pa & Ea & ->).
    apply bind_panic in H as [H|([? ?] & _ & H)]; [|discriminate]. apply content_bad in H.
    exists g, e, s, a, (pg ++ pe ++ ps ++ pa)%list, r3. split; [exact Le|]. split; [exact Ws|]. split; [repeat apply seqw_intro; assumption|]. rewrite <- !app_assoc. auto.
  - intros (g & e & s & a & pre & tail & Le & Ws & E & -> & B). apply seqw_ok in E as (pg & q & Eg & E & ->). apply seqw_ok in E as (pe & q' & Ee & E & ->). apply seqw_ok in E as (ps & pa & Es & Ea & ->).
    rewrite <- !app_assoc. rewrite (codec_rt codec_opaque g pg _ I Eg). cbn [bind]. rewrite (codec_rt codec_u64 e pe _ Le Ee). cbn [bind].
    rewrite (codec_rt codec_sender s ps _ Ws Es). cbn [bind]. rewrite (codec_rt codec_opaque a pa _ I Ea). cbn [bind]. apply content_bad in B. rewrite B. reflexivity.
Qed.
Lemma message_bad bs : de_mls_message bs = Panic <-> bad_message bs.
Proof.
  unfold de_mls_message, de_wire_message. split.
  - intros H. apply bind_panic in H as [H|([v r] & Hv & H)]; [strict_ H|]. apply (codec_can codec_u16) in Hv as (Lv & p & Ep & ->). injection Ep as <-.
    destruct (N.eq_dec v 1) as [->|NV].
    2:{ exfalso. unfold version_of_u16 in H. destruct v as [|[]]; try congruence; discriminate. }
    change (version_of_u16 1) with MLS10 in H. cbn [is_mls10 negb] in H. apply bind_panic in H as [H|([? ?] & _ & H)]; [|discriminate].
    apply bind_panic in H as [H|([] & _ & H)]; [unfold need in H; destruct (length r <? 1)%nat; discriminate|].
    apply bind_panic in H as [H|([w r1] & Hw & H)]; [strict_ H|]. apply (codec_can codec_wire_format) in Hw as (_ & p & Ep & ->).
    destruct w; apply bind_panic in H as [H|([? ?] & _ & H)]; try discriminate; try (strict_ H).
    + injection Ep as <-. apply public_message_bad in H as (g & e & s & a & pre & tail & A1 & A2 & A3 & -> & B). right. exists g, e, s, a, pre, tail. repeat split; auto.
    + injection Ep as <-. apply key_package_bad in H. left. exists r1. auto.
  - intros [(t & -> & B)|(g & e & s & a & pre & t & A1 & A2 & A3 & -> & B)]; rewrite read_u16_be by lia; cbn [bind]; change (version_of_u16 1) with MLS10; cbn [is_mls10 negb]; rewrite need_ok by (rewrite app_length, be_length; lia); cbn [bind].
    + rewrite (codec_rt codec_wire_format WFKeyPackage (be 2 5) _ I eq_refl). cbn [bind]. apply key_package_bad in B. rewrite B. reflexivity.
    + rewrite (codec_rt codec_wire_format WFPublicMessage (be 2 1) _ I eq_refl). cbn [bind]. assert (P : de_public_message (pre ++ t) = Panic) by (apply public_message_bad; exists g, e, s, a, pre, t; auto 10). rewrite P. reflexivity.
Qed.

Lemma node_bad bs : de_node bs = Panic <-> (exists u, bs = x01 :: u /\ bad_leaf u) \/ (exists u, bs = x02 :: u /\ bad_parent u).
Proof.
  unfold de_node, de_node_type. destruct bs as [|b r].
  { split; [discriminate|]. intros [(t & H & _)|(t & H & _)]; discriminate. }
  rewrite need_ok by (cbn; lia). cbn [bind]. rewrite ?read_u8_cons. cbn [bind]. split.
  - intros H. destruct (N.eq_dec (b2n b) 1) as [E|N1]; [|destruct (N.eq_dec (b2n b) 2) as [E|N2]].
    + rewrite E in H. cbn [bind] in H. change 1 with (b2n x01) in E. apply b2n_inj in E as ->. apply bind_panic in H as [H|([? ?] & _ & H)]; [|discriminate]. left. exists r. split; [reflexivity|]. apply leaf_bad, H.
    + rewrite E in H. cbn [bind] in H. change 2 with (b2n x02) in E. apply b2n_inj in E as ->. apply bind_panic in H as [H|([? ?] & _ & H)]; [|discriminate]. right. exists r. split; [reflexivity|]. apply parent_bad, H.
    + exfalso. destruct (b2n b) as [|[[]|[]|]]; try congruence; discriminate.
  - intros [(t & E & B)|(t & E & B)]; injection E as -> ->.
    + change (b2n x01) with 1. cbn [bind]. apply leaf_bad in B. rewrite B. reflexivity.
    + change (b2n x02) with 2. cbn [bind]. apply parent_bad in B. rewrite B. reflexivity.
Qed.
Lemma tree_bad bs : de_ratchet_tree bs = Panic <-> bad_tree bs.
Proof.
  assert (V : forall bs, de_vector (de_option de_node) bs = Panic <-> bad_tree bs).
  { apply vector_panics; [apply _|apply _| |].
    - intros t. rewrite option_panics. split.
      + intros (u & -> & H). apply node_bad in H as [(w & -> & B)|(w & -> & B)]; exists w; auto.
      + intros (u & [[-> B]|[-> B]]); eexists; (split; [reflexivity|]); apply node_bad; [left|right]; eauto.
    - intros t (u & [[-> _]|[-> _]]); discriminate. }
  unfold de_ratchet_tree. rewrite <- V. split.
  - intros H. apply bind_panic in H as [H|([l r] & _ & H)]; [exact H|]. exfalso. destruct (pad_blank_returns l) as (t & P & _). rewrite P in H. discriminate.
  - intros H. rewrite H. reflexivity.
Qed.
