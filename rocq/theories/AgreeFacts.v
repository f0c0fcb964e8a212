(** Proofs about agreement. *)
From Verif Require Import SpecAgree SpecWelcome SecretFacts KeyFacts MessageFacts TreeHash WelcomeFacts CodecLib.
Local Open Scope N_scope.
Unset Printing Records.

Lemma pair_dec (a b a' b' : bytes) : {(a, b) = (a', b')} + {(a, b) <> (a', b')}.
Proof. decide equality; apply list_eq_dec, Byte.byte_eq_dec. Qed.

Lemma no_psk P cs k psks s : p_hpke P cs = Ok k -> extract_psk_secret P cs [] psks = Ok s -> psks = [] /\ psk_or_zero k s = zero_bytes (k_extract_size k).
Proof.
  intros K. unfold extract_psk_secret. destruct psks; [|discriminate]. cbn [length Nat.eqb negb]. rewrite K. cbn [bind combine psk_loop]. change zeros with zero_bytes.
  intros [= <-]. split; [reflexivity|]. unfold psk_or_zero. destruct (zero_bytes (k_extract_size k)) eqn:E; reflexivity.
Qed.

Lemma derive_iff P cs k s l key : p_hpke P cs = Ok k -> fits30 (mls_label l) -> derive_secret P cs s l = Ok key -> expand_label k s l [] (nh k) = Ok key.
Proof. intros K F. unfold derive_secret. rewrite K. cbn [bind]. rewrite (c38_expand P cs k) by (first [exact K|exact F|reflexivity]). auto. Qed.

Lemma c78_agree P h k v w j psk e key j' psk' e' key' : gc_suite (v_context w) = gc_suite (v_context v) ->
  p_hpke P (gc_suite (v_context v)) = Ok k -> p_hash P (gc_suite (v_context v)) = Ok h -> (forall b, N.of_nat (length (h_digest h b)) = h_size h) ->
  well_typed v -> well_typed w -> computed P v j psk e key -> computed P w j' psk' e' key' ->
  verify_auth_confirmation_tag P (gc_suite (v_context v)) (ac_auth (v_commit v)) key (gc_confirmed (v_context v)) = Ok tt ->
  verify_auth_confirmation_tag P (gc_suite (v_context w)) (ac_auth (v_commit w)) key' (gc_confirmed (v_context w)) = Ok tt ->
  ad_confirmation_tag (ac_auth (v_commit v)) = ad_confirmation_tag (ac_auth (v_commit w)) ->
  same_state v w \/ broken P h k v w.
Proof.
  intros CS K H Z V W A B T T' Q.
  assert (K' : p_hpke P (gc_suite (v_context w)) = Ok k) by (rewrite CS; exact K).
  assert (H' : p_hash P (gc_suite (v_context w)) = Ok h) by (rewrite CS; exact H).
  apply (c47_iff P _ h) in T as [_ T]; [|exact H]. apply (c47_iff P _ h) in T' as [_ T']; [|exact H'].
  pose proof Q as Qt. rewrite T, T' in Q. clear T T'.
  destruct (pair_dec key (gc_confirmed (v_context v)) key' (gc_confirmed (v_context w))) as [E1|N1]; [|right; exact (broken_mac P h k v w _ _ _ _ _ _ _ _ A B N1 Q)].
  apply pair_equal_spec in E1 as [<- E1].
  pose proof (derive_iff P _ k _ (str "confirm") _ K eq_refl (cv_key _ _ _ _ _ _ A)) as D. pose proof (derive_iff P _ k _ (str "confirm") _ K' eq_refl (cv_key _ _ _ _ _ _ B)) as D'.
  destruct (list_eq_dec Byte.byte_eq_dec e e') as [<-|N2].
  2:{ right. apply (broken_confirm P h k v w _ _ _ _ _ _ _ _ A B). split; [congruence|]. exists key. split; [exact D|exact D']. }
  pose proof (cv_epoch _ _ _ _ _ _ A) as Ea. pose proof (cv_epoch _ _ _ _ _ _ B) as Eb.
  apply (epoch_iff P _ k) in Ea; [|exact K]. apply (epoch_iff P _ k) in Eb; [|exact K'].
  destruct (c40_binds k _ _ _ _ _ _ _ (wt_context _ V) (wt_context _ W) Ea Eb) as [(G & <- & Ps)|[C|(x & x' & raw & raw' & X & X' & R & R' & C)]].
  2:{ right. exact (broken_extract P h k v w _ _ _ _ _ _ _ _ A B C). }
  2:{ right. exact (broken_epoch P h k v w _ _ _ _ _ _ _ _ _ _ _ _ A B X X' R R' C). }
  pose proof (cv_joiner _ _ _ _ _ _ A) as Ja. pose proof (cv_joiner _ _ _ _ _ _ B) as Jb.
  apply (joiner_iff P _ k) in Ja; [|exact K]. apply (joiner_iff P _ k) in Jb; [|exact K'].
  destruct (c40_joiner_binds k _ _ _ _ _ _ _ (wt_context _ V) (wt_context _ W) Ja Jb) as [(_ & I & Co)|[C|(x & x' & raw & raw' & X & X' & R & R' & C)]].
  2:{ right. exact (broken_commit P h k v w C). }
  2:{ right. exact (broken_joiner P h k v w _ _ _ _ X X' R R' C). }
  pose proof (cv_psk _ _ _ _ _ _ A) as Pa. pose proof (cv_psk _ _ _ _ _ _ B) as Pb. rewrite <- G in Pb.
  assert (PS : (v_psk_ids v = v_psk_ids w /\ v_psks v = v_psks w) \/ broken P h k v w).
  { assert (DI : forall l : list psk_id, l = [] \/ l <> []) by (intros [|]; [left|right]; congruence).
    destruct (DI (v_psk_ids v)) as [Iv|Iv]; destruct (DI (v_psk_ids w)) as [Iw|Iw].
    - rewrite Iv in Pa. rewrite Iw in Pb. apply (no_psk P _ k) in Pa as [-> _]; [|exact K]. apply (no_psk P _ k) in Pb as [-> _]; [|exact K]. left. split; [congruence|reflexivity].
    - right. rewrite Iv in Pa. apply (no_psk P _ k) in Pa as [_ Za]; [|exact K].
      apply (broken_no_psk P h k v w w psk'); [right; reflexivity|exact Iw|rewrite <- G; exact Pb|congruence].
    - right. rewrite Iw in Pb. apply (no_psk P _ k) in Pb as [_ Zb]; [|exact K].
      apply (broken_no_psk P h k v w v psk); [left; reflexivity|exact Iv|exact Pa|congruence].
    - destruct (list_eq_dec Byte.byte_eq_dec psk psk') as [<-|Np].
      + destruct (c39_binds P _ k _ _ _ _ _ K (wt_count _ V) (wt_count _ W) (wt_ids _ V) (wt_ids _ W) Iv Iw Pa Pb) as [S'|C]; [left; exact S'|right; exact (broken_psk P h k v w C)].
      + right. unfold psk_or_zero in Ps. destruct psk as [|b psk]; [|destruct psk' as [|b' psk']].
        * apply (broken_no_psk P h k v w v []); [left; reflexivity|exact Iv|exact Pa|reflexivity].
        * apply (broken_no_psk P h k v w w []); [right; reflexivity|exact Iw|rewrite <- G; exact Pb|reflexivity].
        * congruence. }
  destruct PS as [[Pi Pp]|X]; [|right; exact X].
  destruct (wt_tree _ V) as [d Gv]. destruct (wt_tree _ W) as [d' Gw].
  pose proof (cv_tree _ _ _ _ _ _ A) as Ta. pose proof (cv_tree _ _ _ _ _ _ B) as Tb. rewrite <- G in Tb.
  destruct (c23_good P _ _ _ _ _ _ Gv Gw (wt_nodes _ V) (wt_nodes _ W) Ta Tb) as [Tr|C]; [|right; exact (broken_tree P h k v w C)].
  destruct (cv_transcript _ _ _ _ _ _ A) as (i & Ti & Ci). destruct (cv_transcript _ _ _ _ _ _ B) as (i' & Ti' & Ci'). rewrite <- G in Ti', Ci'.
  assert (HS : (v_start v = v_start w -> length (v_history v) = length (v_history w) -> v_history v = v_history w /\ confirmed_of (v_commit v) = confirmed_of (v_commit w)) \/ broken P h k v w).
  { destruct (list_eq_dec Byte.byte_eq_dec (v_start v) (v_start w)) as [Es|Ns]; [|left; intros; contradiction].
    destruct (Nat.eq_dec (length (v_history v)) (length (v_history w))) as [El|Nl]; [|left; intros; contradiction].
    rewrite <- Es in Ti'.
    destruct (c41_confirmed P _ h _ H Z _ _ _ _ _ _ _ (wt_history _ V) (wt_history _ W) (wt_commit _ V) (wt_commit _ W) El Ti Ti' Ci Ci') as [S'|C]; [left; auto|right; exact (broken_transcript P h k v w C)]. }
  destruct HS as [HS|X]; [left|right; exact X].
  unfold same_state. repeat (split; [assumption|]). intros Es El. destruct (HS Es El) as [Hh Hc]. split; [exact Hh|].
  unfold confirmed_of in Hc. injection Hc. destruct (v_commit v) as [wf c [sg tg]], (v_commit w) as [wf' c' [sg' tg']]. cbn in *. congruence.
Qed.

Lemma c78_join P h k v t gi j psk e key j' psk' : gc_suite (gi_context gi) = gc_suite (v_context v) ->
  p_hpke P (gc_suite (v_context v)) = Ok k -> p_hash P (gc_suite (v_context v)) = Ok h ->
  well_typed v -> wf_group_context (gi_context gi) ->
  (exists d, tsized t d /\ tlen t < 4294967296 /\ forall x nd, tget t x = Some nd -> in_tree d x) -> nodes_wf t -> computed P v j psk e key ->
  verify_auth_confirmation_tag P (gc_suite (v_context v)) (ac_auth (v_commit v)) key (gc_confirmed (v_context v)) = Ok tt ->
  group_info_verify_tag P gi j' psk' = Ok tt -> root_tree_hash P (gc_suite (gi_context gi)) t = Ok (gc_tree_hash (gi_context gi)) ->
  gi_confirmation_tag gi = ad_confirmation_tag (ac_auth (v_commit v)) ->
  (gi_context gi = v_context v /\ j' = j /\ psk_or_zero k psk' = psk_or_zero k psk /\
   extract_epoch_secret P (gi_context gi) j' psk' = Ok e /\ (forall x, tget t x = tget (v_tree v) x)) \/
  exists e' key', extract_epoch_secret P (gi_context gi) j' psk' = Ok e' /\
    derive_secret P (gc_suite (gi_context gi)) e' (str "confirm") = Ok key' /\ broken_join P h k v (gi_context gi) t j psk e key j' psk' e' key'.
Proof.
  intros CS K H V Wg (d' & St & Lt & It) Nt A T J Rt Q.
  assert (K' : p_hpke P (gc_suite (gi_context gi)) = Ok k) by (rewrite CS; exact K).
  assert (H' : p_hash P (gc_suite (gi_context gi)) = Ok h) by (rewrite CS; exact H).
  apply (c47_iff P _ h) in T as [_ T]; [|exact H].
  unfold group_info_verify_tag in J. apply bind_ok in J as (e' & E' & J). apply bind_ok in J as (key' & D' & J).
  apply (verify_mac_iff P _ h) in J; [|exact H'].
  assert (X : (gi_context gi = v_context v /\ j' = j /\ psk_or_zero k psk' = psk_or_zero k psk /\
   extract_epoch_secret P (gi_context gi) j' psk' = Ok e /\ (forall x, tget t x = tget (v_tree v) x)) \/ broken_join P h k v (gi_context gi) t j psk e key j' psk' e' key').
  2:{ destruct X as [X|X]; [left; exact X|right; exists e', key'; auto]. }
  rewrite J, T in Q. clear J T.
  destruct (pair_dec key (gc_confirmed (v_context v)) key' (gc_confirmed (gi_context gi))) as [E1|N1]; [|right; apply join_mac; [exact N1|symmetry; exact Q]].
  apply pair_equal_spec in E1 as [<- E1].
  pose proof (derive_iff P _ k _ (str "confirm") _ K eq_refl (cv_key _ _ _ _ _ _ A)) as D. pose proof (derive_iff P _ k _ (str "confirm") _ K' eq_refl D') as Dj.
  destruct (list_eq_dec Byte.byte_eq_dec e e') as [<-|N2].
  2:{ right. apply join_confirm. split; [congruence|]. exists key. split; [exact D|exact Dj]. }
  pose proof (cv_epoch _ _ _ _ _ _ A) as Ea. pose proof E' as Eb.
  apply (epoch_iff P _ k) in Ea; [|exact K]. apply (epoch_iff P _ k) in Eb; [|exact K'].
  destruct (c40_binds k _ _ _ _ _ _ _ (wt_context _ V) Wg Ea Eb) as [(G & <- & Ps)|[C|(x & x' & raw & raw' & X & X' & R & R' & C)]].
  2:{ right. exact (join_extract _ _ _ _ _ _ _ _ _ _ _ _ _ _ C). }
  2:{ right. exact (join_epoch _ _ _ _ _ _ _ _ _ _ _ _ _ _ _ _ _ _ X X' R R' C). }
  destruct (wt_tree _ V) as [d Gv]. pose proof (cv_tree _ _ _ _ _ _ A) as Ta. rewrite G in Ta.
  destruct (c23_in P _ _ _ _ _ _ (g_size _ _ Gv) (g_small _ _ Gv) (g_in _ _ Gv) St Lt It (wt_nodes _ V) Nt Ta Rt) as [Tr|C]; [|right; exact (join_tree _ _ _ _ _ _ _ _ _ _ _ _ _ _ C)].
  left. rewrite <- G. repeat split; auto. rewrite G. exact E'.
Qed.
