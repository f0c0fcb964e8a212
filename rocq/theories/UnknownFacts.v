From Verif Require Import Base Wire WireWF CodecLib CodecTac WireCodecs SpecCodec SpecLayout LayoutFacts TreeMath LeafNode RatchetTree SpecTree SpecRatchet TreeFacts TreeMore Verified BuildFacts SpecUnknown.
From Coq Require Import List NArith ZArith Lia Bool.
From Coq.Strings Require Import Byte.
Import ListNotations.
Local Open Scope N_scope.

Lemma Forall2_length {A B} (R : A -> B -> Prop) l l' : Forall2 R l l' -> length l = length l'.
Proof. induction 1; cbn; congruence. Qed.
Lemma forall2_tget {R : option node -> option node -> Prop} (t t' : tree) : R None None -> Forall2 R t t' -> forall x, R (tget t x) (tget t' x).
Proof.
  intros R0 F x. rewrite !tget_nth. generalize (N.to_nat x). induction F; intros [|n]; cbn; auto.
Qed.
Lemma greased_tget t t' x : greased t t' -> greased_node (tget t x) (tget t' x).
Proof. intros G. apply forall2_tget; [exact I|exact G]. Qed.
Lemma greased_len t t' : greased t t' -> tlen t' = tlen t.
Proof. intros G. unfold tlen. f_equal. symmetry. eapply Forall2_length, G. Qed.
Lemma greased_leaf t t' i l' : greased t t' -> leaf_at t' i = Some l' -> exists l, leaf_at t i = Some l /\ wider_leaf l l'.
Proof.
  intros G E. unfold leaf_at in *. pose proof (greased_tget t t' (2 * i) G) as H. destruct (tget t' (2 * i)) as [[b|]|]; try discriminate.
  injection E as <-. destruct (tget t (2 * i)) as [[a|]|]; cbn in H; try contradiction. eauto.
Qed.
Lemma greased_parent t t' x p' : greased t t' -> tget t' x = Some (Parent p') ->
  exists p, tget t x = Some (Parent p) /\ pn_encryption_key p' = pn_encryption_key p /\ pn_unmerged p' = pn_unmerged p.
Proof.
  intros G E. pose proof (greased_tget t t' x G) as H. rewrite E in H. destruct (tget t x) as [[|p]|]; cbn in H; try contradiction. eauto.
Qed.
Lemma greased_parent' t t' x p : greased t t' -> tget t x = Some (Parent p) ->
  exists p', tget t' x = Some (Parent p') /\ pn_encryption_key p' = pn_encryption_key p /\ pn_unmerged p' = pn_unmerged p.
Proof.
  intros G E. pose proof (greased_tget t t' x G) as H. rewrite E in H. destruct (tget t' x) as [[|p']|]; cbn in H; try contradiction. eauto.
Qed.
Lemma greased_key t t' x n' : greased t t' -> tget t' x = Some n' -> exists n, tget t x = Some n /\ node_key n' = node_key n.
Proof.
  intros G E. pose proof (greased_tget t t' x G) as H. rewrite E in H. destruct (tget t x) as [[l|p]|], n' as [l'|p']; cbn in H; try contradiction.
  - eexists. split; [reflexivity|]. apply wl_encryption_key, H.
  - eexists. split; [reflexivity|]. apply H.
Qed.

(** ** Credentials *)
Lemma inserted_in {A} (new : A -> Prop) l l' x : inserted new l l' -> In x l -> In x l'.
Proof. induction 1; cbn; intuition. Qed.
Lemma inserted_back {A} (new : A -> Prop) l l' x : inserted new l l' -> In x l' -> In x l \/ new x.
Proof. induction 1; cbn; intros; intuition; subst; auto. Qed.
Lemma inserted_occ l l' ct : inserted new_credential_type l l' -> ~ new_credential_type ct -> occ ct l' = occ ct l.
Proof.
  intros H K. unfold occ. induction H; cbn [count_occ]; [reflexivity| |].
  - destruct (credential_type_eq_dec x ct); lia.
  - destruct (credential_type_eq_dec x ct); [subst; contradiction|exact IHinserted].
Qed.

Definition wider_il (a b : N * leaf_node) : Prop := fst a = fst b /\ wider_leaf (snd a) (snd b).
Lemma greased_leaves t t' : greased t t' -> forall f i ls, leaves_from f t i = Ok ls -> exists ls', leaves_from f t' i = Ok ls' /\ Forall2 wider_il ls ls'.
Proof.
  intros G. induction f as [|f IH]; intros i ls E; cbn [leaves_from] in *.
  - apply Ok_inj in E. subst. eauto.
  - unfold get_leaf in *. destruct (node_index i) as [ni|e| |]; cbn [bind] in *; try discriminate.
    apply bind_ok in E as (r & Er & E). apply Ok_inj in E. subst ls. destruct (IH _ _ Er) as (r' & -> & F). cbn [bind].
    eexists. split; [reflexivity|]. pose proof (greased_tget t t' ni G) as H.
    destruct (tget t ni) as [[a|]|], (tget t' ni) as [[b|]|]; cbn in H; try contradiction; try exact F. constructor; [split; [reflexivity|exact H]|exact F].
Qed.
Lemma wider_total ct ls ls' : ~ new_credential_type ct -> Forall2 wider_il ls ls' -> total ct ls' = total ct ls.
Proof.
  intros K F. induction F as [|[i l] [i' l'] ls ls' [_ H] F IH]; [reflexivity|]. cbn [total snd] in *. rewrite IH. f_equal.
  apply inserted_occ; [|exact K]. apply wd_credentials, wl_capabilities, H.
Qed.
Lemma greased_creds t t' d : tsized t d -> tlen t < 4294967296 -> greased t t' ->
  exists cs cs', supported_creds t = Ok cs /\ supported_creds t' = Ok cs' /\ forall ct, ~ new_credential_type ct -> (In ct cs' <-> In ct cs).
Proof.
  intros S L G. pose proof (greased_len t t' G) as TL.
  assert (S' : tsized t' d) by (unfold tsized, full_size, cut_size in *; rewrite TL; exact S).
  pose proof (small_usized t d S L) as U. pose proof (small_usized t' d S' ltac:(lia)) as U'.
  destruct (supported_total t d U) as (ls & cs & EL & EC & H). destruct (supported_total t' d U') as (ls' & cs' & EL' & EC' & H').
  exists cs, cs'. split; [exact EC|]. split; [exact EC'|]. intros ct K. rewrite H, H'.
  unfold leaves in EL, EL'. destruct (greased_leaves t t' G _ _ _ EL) as (ls2 & E2 & F).
  assert (NL : num_leaves t' = num_leaves t) by (unfold num_leaves, tlen32; rewrite TL; reflexivity). rewrite NL, E2 in EL'. apply Ok_inj in EL'. subst ls2.
  rewrite (wider_total ct ls ls' K F), (Forall2_length _ _ _ F). reflexivity.
Qed.

(** ** Leaves *)
Lemma wider_valid P cs gid creds creds' now i l l' : wider_leaf l l' -> (forall ct, ~ new_credential_type ct -> In ct creds -> In ct creds') ->
  leaf_valid P cs gid creds now i l -> leaf_signed P cs l' gid i -> leaf_valid P cs gid creds' now i l'.
Proof.
  intros W C (_ & V1 & V2 & V3) Sg. split; [exact Sg|]. split.
  { rewrite (wl_credential _ _ W). apply C; [|exact V1]. destruct (lp_credential _); exact (fun x => x). }
  split.
  - intros lt E. pose proof (wl_source _ _ W) as H. rewrite E in H. destruct (lp_source (ln_payload l)) as [a| |]; try contradiction. subst a. apply V2. reflexivity.
  - intros e I. destruct (inserted_back _ _ _ _ (wl_extensions _ _ W) I) as [J|J].
    + eapply inserted_in; [apply wd_extensions, wl_capabilities, W|apply V3, J].
    + exact (wl_listed _ _ W e I J).
Qed.
Lemma wider_verify P l l' cs gid i creds creds' sks eks now : wider_leaf l l' -> (forall ct, ~ new_credential_type ct -> In ct creds -> In ct creds') ->
  leaf_signed P cs l' gid i ->
  leaf_verify P l (MkLeafOptions cs gid i creds sks eks now) = Ok tt -> leaf_verify P l' (MkLeafOptions cs gid i creds' sks eks now) = Ok tt.
Proof.
  intros W C Sg E. apply leaf_verify_split in E as (V & A & B). apply leaf_verify_split. split; [eapply wider_valid; eassumption|].
  rewrite (wl_signature_key _ _ W), (wl_encryption_key _ _ W). auto.
Qed.

(** ** Trees *)
Lemma greased_verified P t t' ctx ctx' now d : tsized t d -> tlen t < 4294967296 -> (forall x nd, tget t x = Some nd -> in_tree d x) ->
  greased t t' -> gc_suite ctx' = gc_suite ctx -> gc_group_id ctx' = gc_group_id ctx ->
  root_tree_hash P (gc_suite ctx') t' = Ok (gc_tree_hash ctx') ->
  (forall k j p, tget t' (node_at (k + 1) j) = Some (Parent p) -> hash_valid P (gc_suite ctx') t' k j p) ->
  (forall i l, leaf_at t' i = Some l -> leaf_signed P (gc_suite ctx') l (gc_group_id ctx') i) ->
  verify_integrity P t ctx now = Ok tt -> verify_integrity P t' ctx' now = Ok tt.
Proof.
  intros S L IN G Q1 Q2 HR HP HS E. pose proof (greased_len t t' G) as TL.
  assert (S' : tsized t' d) by (unfold tsized, full_size, cut_size in *; rewrite TL; exact S).
  assert (IN' : forall x nd, tget t' x = Some nd -> in_tree d x) by (intros x nd H; destruct (greased_key t t' x nd G H) as (n & H' & _); eapply IN, H').
  apply (verify_integrity_iff P t ctx now d S L IN) in E. apply (verify_integrity_iff P t' ctx' now d S' ltac:(lia) IN').
  destruct (greased_creds t t' d S L G) as (cs & cs' & EC & EC' & HC). constructor.
  - exact HR.
  - exact HP.
  - exists cs'. split; [exact EC'|]. intros i l' H. destruct (greased_leaf t t' i l' G H) as (l & Hl & W).
    destruct (vf_leaves _ _ _ _ _ E) as (cs0 & EC0 & V). rewrite EC in EC0. apply Ok_inj in EC0. subst cs0. pose proof (HS i l' H) as Sg. rewrite Q1, Q2 in *.
    eapply wider_valid; [exact W| |apply V, Hl|exact Sg]. intros ct K I. apply HC; assumption.
  - intros i i' l l' H H' K. destruct (greased_leaf t t' i l G H) as (a & Ha & Wa). destruct (greased_leaf t t' i' l' G H') as (b & Hb & Wb).
    apply (vf_signature_keys _ _ _ _ _ E i i' a b Ha Hb). rewrite <- (wl_signature_key _ _ Wa), <- (wl_signature_key _ _ Wb). exact K.
  - intros x x' n n' H H' K. destruct (greased_key t t' x n G H) as (a & Ha & Ka). destruct (greased_key t t' x' n' G H') as (b & Hb & Kb).
    apply (vf_encryption_keys _ _ _ _ _ E x x' a b Ha Hb). congruence.
  - intros k j p u H I. destruct (greased_parent t t' _ p G H) as (a & Ha & _ & Ua). rewrite Ua in I. eapply (vf_unmerged_below _ _ _ _ _ E); eassumption.
  - intros k j p u k' j' p' H I Lk C H'. destruct (greased_parent t t' _ p G H) as (a & Ha & _ & Ua). destruct (greased_parent t t' _ p' G H') as (b & Hb & _ & Ub).
    rewrite Ua in I. rewrite Ub. eapply (vf_unmerged_between _ _ _ _ _ E k j a u k' j' b); eassumption.
Qed.

(** ** Extensions *)
Lemma inserted_find l l' t : inserted new_extension l l' -> ~ new_extension_type t -> find_extension_data l' t = find_extension_data l t.
Proof.
  intros H K. induction H; cbn [find_extension_data]; [reflexivity|destruct (extension_type_eqb _ _); [reflexivity|exact IHinserted]|].
  replace (extension_type_eqb (ext_type x) t) with false; [exact IHinserted|]. unfold new_extension in H. destruct (ext_type x), t; cbn in *; try contradiction; try reflexivity.
Qed.

(** ** Decoding *)
Lemma number_facts (v : N) :
  version_number (version_of_u16 v) = v /\ suite_number (cipher_suite_of_u16 v) = v /\ extension_number (extension_type_of_u16 v) = v /\
  proposal_number (proposal_type_of_u16 v) = v /\ credential_number (credential_type_of_u16 v) = v.
Proof.
  destruct v as [|[[[p|p|]|[p|p|]|]|[[p|p|]|[p|p|]|]|]]; cbn; auto 10.
Qed.
Lemma named_facts (v : N) :
  (new_version (version_of_u16 v) <-> (v = 0 \/ 1 < v)) /\ (new_suite (cipher_suite_of_u16 v) <-> (v = 0 \/ 7 < v)) /\
  (new_extension_type (extension_type_of_u16 v) <-> (v = 0 \/ 5 < v)) /\
  (new_proposal_type (proposal_type_of_u16 v) <-> (v = 0 \/ 7 < v)) /\ (new_credential_type (credential_type_of_u16 v) <-> (v = 0 \/ 2 < v)).
Proof.
  destruct v as [|[[[p|p|]|[p|p|]|]|[[p|p|]|[p|p|]|]|]]; cbn; repeat split; intros; try lia; try exact I; try contradiction.
Qed.
Lemma read_map {A} (f : N -> A) number new last ns : (forall v, number (f v) = v) -> (forall v, new (f v) <-> (v = 0 \/ last < v)) -> read_as number new last ns (map f ns).
Proof.
  intros F G. split; [rewrite map_map; erewrite map_ext; [apply map_id|exact F]|]. apply Forall_map, Forall_forall. intros v _. rewrite F. apply G.
Qed.
Lemma uint16s_len ns : length (concat (map uint16 ns)) = (2 * length ns)%nat.
Proof. induction ns as [|n ns IH]; [reflexivity|]. cbn [map concat]. rewrite app_length, IH. cbn. lia. Qed.
Lemma map_num {A} (f : N -> A) (rfc : A -> bytes) ns : (forall v, rfc (f v) = uint16 v) -> map rfc (map f ns) = map uint16 ns.
Proof. intros H. rewrite map_map. apply map_ext, H. Qed.
Lemma fits_codes {A} (f : N -> A) (g : A -> N) ns : (forall v, g (f v) = v) -> code_points ns -> fits_u16s g (map f ns).
Proof.
  intros F [_ L]. split; [apply Forall_forall; intros; exact I|]. intros p E.
  assert (S : forall a, says (se_u16_as g a) (uint16 (g a))) by (intros a; apply says_u16). apply (says_elems _ _ _ S) in E. subst p.
  rewrite (map_num f (fun a => uint16 (g a)) ns) by (intros v; rewrite F; reflexivity). unfold short. rewrite uint16s_len. lia.
Qed.
Lemma from_codes {A} (f : N -> A) ns : code_points ns -> Forall (from_u16 f) (map f ns).
Proof. intros [H _]. apply Forall_map. eapply Forall_impl; [|exact H]. intros v L. exists v. split; [exact L|reflexivity]. Qed.

Lemma decode_capabilities v s e p c rest : code_points v -> code_points s -> code_points e -> code_points p -> code_points c ->
  exists caps, de_capabilities (vectorV uint16 v ++ vectorV uint16 s ++ vectorV uint16 e ++ vectorV uint16 p ++ vectorV uint16 c ++ rest) = Ok (caps, rest) /\
    read_as version_number new_version 1 v (cap_versions caps) /\ read_as suite_number new_suite 7 s (cap_suites caps) /\
    read_as extension_number new_extension_type 5 e (cap_extensions caps) /\ read_as proposal_number new_proposal_type 7 p (cap_proposals caps) /\
    read_as credential_number new_credential_type 2 c (cap_credentials caps).
Proof.
  intros Hv Hs He Hp Hc.
  exists (MkCapabilities (map version_of_u16 v) (map cipher_suite_of_u16 s) (map extension_type_of_u16 e) (map proposal_type_of_u16 p) (map credential_type_of_u16 c)).
  assert (NF := number_facts). assert (WF := named_facts). split.
  2:{ cbn [cap_versions cap_suites cap_extensions cap_proposals cap_credentials]. repeat split; try (rewrite map_map; erewrite map_ext; [apply map_id|intros x; apply (NF x)]);
      apply Forall_map, Forall_forall; intros x _; destruct (NF x) as (N1 & N2 & N3 & N4 & N5); destruct (WF x) as (W1 & W2 & W3 & W4 & W5); rewrite ?N1, ?N2, ?N3, ?N4, ?N5; assumption. }
  set (caps := MkCapabilities _ _ _ _ _).
  assert (F : fits_capabilities caps).
  { unfold fits_capabilities, caps. cbn [cap_versions cap_suites cap_extensions cap_proposals cap_credentials].
    split; [|split; [|split; [|split]]]; apply fits_codes; try assumption; intros x; exact (proj1 (NF x)) || exact (proj1 (proj2 (NF x))) || exact (proj1 (proj2 (proj2 (NF x)))) || exact (proj1 (proj2 (proj2 (proj2 (NF x))))) || exact (proj2 (proj2 (proj2 (proj2 (NF x))))). }
  apply (proj1 (sizing_spec sizing_capabilities caps)) in F as (b & E).
  assert (W : wf_capabilities caps) by (unfold wf_capabilities, caps; cbn; repeat split; apply from_codes; assumption).
  pose proof (codec_rt codec_capabilities caps b rest W E) as D. apply l_capabilities in E. subst b.
  assert (Q : forall (A : Type) (f : N -> A) (rfc : A -> bytes) ns, (forall x, rfc (f x) = uint16 x) -> vectorV rfc (map f ns) = vectorV uint16 ns)
    by (intros A f rfc ns R; unfold vectorV; rewrite (map_num f rfc ns R); reflexivity).
  unfold rfc_capabilities, caps in D. cbn [cap_versions cap_suites cap_extensions cap_proposals cap_credentials] in D.
  rewrite !Q in D by (intros x; change (uint16 (version_number (version_of_u16 x)) = uint16 x) || change (uint16 (suite_number (cipher_suite_of_u16 x)) = uint16 x)
     || change (uint16 (extension_number (extension_type_of_u16 x)) = uint16 x) || change (uint16 (proposal_number (proposal_type_of_u16 x)) = uint16 x)
     || change (uint16 (credential_number (credential_type_of_u16 x)) = uint16 x); f_equal; apply (NF x)).
  rewrite <- !app_assoc in D. exact D.
Qed.

Definition raw_extension (x : N * bytes) : bytes := (uint16 (fst x) ++ opaqueV (snd x))%list.
Lemma decode_extensions xs rest : Forall (fun x : N * bytes => fst x < 65536 /\ N.of_nat (length (snd x)) < 1073741824) xs ->
  N.of_nat (length (concat (map (fun x : N * bytes => uint16 (fst x) ++ opaqueV (snd x)) xs)%list)) < 1073741824 ->
  exists l, de_extensions (vectorV (fun x : N * bytes => uint16 (fst x) ++ opaqueV (snd x)) xs ++ rest)%list = Ok (l, rest) /\
    read_as extension_number new_extension_type 5 (map fst xs) (map ext_type l) /\ map ext_data l = map snd xs.
Proof.
  intros H L. set (mk := fun x : N * bytes => MkExtension (extension_type_of_u16 (fst x)) (snd x)). exists (map mk xs).
  assert (R : map rfc_extension (map mk xs) = map raw_extension xs).
  { rewrite map_map. apply map_ext. intros [n d]. unfold rfc_extension, raw_extension, mk. cbn [ext_type ext_data fst snd]. f_equal.
    change (uint16 (extension_number (extension_type_of_u16 n)) = uint16 n). f_equal. apply (number_facts n). }
  split.
  - assert (F : fits_extensions (map mk xs)).
    { split; [apply Forall_map; eapply Forall_impl; [|exact H]; intros [n d] [_ D]; exact D|]. intros p E. apply (says_elems _ rfc_extension _ l_extension) in E. subst p. rewrite R. exact L. }
    apply (proj1 (sizing_spec sizing_extensions (map mk xs))) in F as (b & E).
    assert (W : wf_extensions (map mk xs)) by (apply Forall_map; eapply Forall_impl; [|exact H]; intros [n d] [D _]; exists n; split; [exact D|reflexivity]).
    pose proof (codec_rt codec_extensions (map mk xs) b rest W E) as D. apply l_extensions in E. subst b. unfold rfc_extensions, vectorV in D. rewrite R in D. exact D.
  - split; [|rewrite map_map; reflexivity]. rewrite map_map. split.
    + rewrite map_map. apply map_ext. intros [n d]. cbn. apply (number_facts n).
    + apply Forall_map, Forall_forall. intros [n d] _. cbn [mk ext_type fst]. destruct (number_facts n) as (_ & _ & -> & _). apply (named_facts n).
Qed.

Lemma read_uint16 v rest : v < 65536 -> read_u16 (uint16 v ++ rest) = Ok (v, rest).
Proof.
  intros L. assert (E : exists b, put_u16 v = Ok b) by (eexists; reflexivity). destruct E as (b & E). pose proof (says_u16 v b E) as Q. subst b.
  exact (codec_rt codec_u16 v (uint16 v) rest L E).
Qed.
Lemma refuse_proposal v rest : v < 65536 -> v = 0 \/ 7 < v -> de_proposal (uint16 v ++ rest) = Err (InvalidProposalTypeValue v).
Proof.
  intros L H. unfold de_proposal. rewrite read_uint16 by exact L. cbn [bind]. destruct (named_facts v) as (_ & _ & _ & P & _). destruct (number_facts v) as (_ & _ & _ & Q & _).
  apply P in H. destruct (proposal_type_of_u16 v) as [ | | | | | | |n]; cbn in H; try contradiction. cbn in Q. subst. reflexivity.
Qed.
Lemma refuse_credential v rest : v < 65536 -> v = 0 \/ 2 < v -> de_credential (uint16 v ++ rest) = Err InvalidCredentialTypeValue.
Proof.
  intros L H. unfold de_credential. rewrite read_uint16 by exact L. cbn [bind]. destruct (named_facts v) as (_ & _ & _ & _ & P).
  apply P in H. destruct (credential_type_of_u16 v); cbn in H; try contradiction. reflexivity.
Qed.

(** ** Example: the tree of C24's example, with values a later registry might hold in both members. *)
Definition ug_caps : capabilities :=
  MkCapabilities (VersionUnsupported 0x0a0a :: cap_versions ex_caps) (cap_suites ex_caps ++ [SuiteUnknown 0x1a1a]) (ExtUnknown 0x2a2a :: cap_extensions ex_caps)
    (PtUnknown 0x3a3a :: cap_proposals ex_caps) (CtUnknown 0x4a4a :: cap_credentials ex_caps).
Definition ug_signed (k : byte) (src : leaf_node_source) (g : bytes) (i : N) : leaf_node :=
  let p := MkLeafPayload [k; x11; x12] [k; x21] (CredBasic (str "alice")) ug_caps src [MkExtension (ExtUnknown 0x2a2a) [x09]; MkExtension (ExtUnknown 0xff01) [x07]] in
  MkLeafNode p (ok_or [] (let* tbs := se_leaf_node_tbs p (TIUpdateOrCommit g i) in sign_with_label toy Suite1 [k; x21] leaf_node_label tbs)).
Definition ug_leaf1 : leaf_node := ug_signed x02 LSUpdate (str "group") 1.
Definition ug_hash : bytes :=
  ok_or [] (let* th := tree_hash toy Suite1 [None; None; Some (Leaf ug_leaf1)] 2 [] in parent_hash toy Suite1 (ex_v_parent []) th).
Definition ug_tree : tree :=
  [Some (Leaf (ug_signed x01 (LSCommit ug_hash) (str "group") 0)); Some (Parent (ex_v_parent [])); Some (Leaf ug_leaf1)].

Lemma inserted_refl {A} (new : A -> Prop) l : inserted new l l.
Proof. induction l; constructor; assumption. Qed.
Lemma inserted_end {A} (new : A -> Prop) l x : new x -> inserted new l (l ++ [x]).
Proof. intros H. induction l as [|y l IH]; cbn; [apply ins_new; [exact H|constructor]|constructor; exact IH]. Qed.
Lemma ug_wider : wider ex_caps ug_caps.
Proof.
  constructor; cbn [ug_caps cap_versions cap_suites cap_extensions cap_proposals cap_credentials];
  first [apply inserted_end; exact I|apply ins_new; [exact I|apply inserted_refl]].
Qed.
Lemma ug_wider_leaf k s s' g i : (match s, s' with LSKeyPackage a, LSKeyPackage b => a = b | LSUpdate, LSUpdate => True | LSCommit _, LSCommit _ => True | _, _ => False end) ->
  wider_leaf (ex_signed k s g i) (ug_signed k s' g i).
Proof.
  intros H. constructor; try reflexivity.
  - exact ug_wider.
  - exact H.
  - cbn [ex_signed ug_signed ln_payload lp_extensions]. apply ins_new; [exact I|apply inserted_refl].
  - intros e [<-|[<-|[]]] _; cbn [ug_signed ln_payload lp_capabilities ug_caps cap_extensions ext_type]; [left; reflexivity|right; cbn; auto].
Qed.
Lemma c109_example : greased ex_verified ug_tree /\ gc_suite (ex_context ug_tree) = gc_suite (ex_context ex_verified) /\
  verify_integrity toy ex_verified (ex_context ex_verified) (fun _ => 5000%Z) = Ok tt /\
  root_tree_hash toy Suite1 ug_tree = Ok (gc_tree_hash (ex_context ug_tree)) /\
  (forall k j p, tget ug_tree (node_at (k + 1) j) = Some (Parent p) -> hash_valid toy Suite1 ug_tree k j p) /\
  (forall i l, leaf_at ug_tree i = Some l -> leaf_signed toy Suite1 l (str "group") i) /\
  verify_integrity toy ug_tree (ex_context ug_tree) (fun _ => 5000%Z) = Ok tt.
Proof.
  assert (V : verify_integrity toy ug_tree (ex_context ug_tree) (fun _ => 5000%Z) = Ok tt) by (vm_compute; reflexivity).
  assert (IN : forall x nd, tget ug_tree x = Some nd -> in_tree 1 x).
  { intros x nd E. destruct (N.lt_ge_cases x 3) as [Q|Q]; [exact Q|]. rewrite tget_beyond in E; [discriminate|exact Q]. }
  pose proof (proj1 (verify_integrity_iff toy ug_tree (ex_context ug_tree) (fun _ => 5000%Z) 1 ltac:(left; reflexivity) ltac:(reflexivity) IN) V) as W.
  split; [apply Forall2_cons; [apply ug_wider_leaf; exact I|apply Forall2_cons; [split; reflexivity|apply Forall2_cons; [apply ug_wider_leaf; exact I|apply Forall2_nil]]]|]. split; [reflexivity|]. split; [exact (proj2 (proj2 ex_verified_ok))|].
  split; [exact (vf_hash _ _ _ _ _ W)|]. split; [exact (vf_parent_hashes _ _ _ _ _ W)|]. split; [|exact V].
  intros i l H. destruct (vf_leaves _ _ _ _ _ W) as (cs & _ & HL). exact (proj1 (HL i l H)).
Qed.
