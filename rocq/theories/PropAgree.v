(** C78: members who accept the same confirmation tag are in the same state. *)
From Verif Require Import SpecAgree SpecWelcome AgreeFacts KeyFacts HashFacts BindFacts ExProvider Examples SecretFacts CodecLib.
Local Open Scope N_scope.

(** Two members have computed their states ([computed], SpecAgree.v) and have accepted one confirmation tag with
    verify_confirmation_tag. Then they are in the same state, or [broken] shows the two inputs on which a primitive
    collides. *)
Theorem C78_members : forall P h k v w j psk e key j' psk' e' key', gc_suite (v_context w) = gc_suite (v_context v) ->
  p_hpke P (gc_suite (v_context v)) = Ok k -> p_hash P (gc_suite (v_context v)) = Ok h -> (forall b, N.of_nat (length (h_digest h b)) = h_size h) ->
  well_typed v -> well_typed w -> computed P v j psk e key -> computed P w j' psk' e' key' ->
  verify_auth_confirmation_tag P (gc_suite (v_context v)) (ac_auth (v_commit v)) key (gc_confirmed (v_context v)) = Ok tt ->
  verify_auth_confirmation_tag P (gc_suite (v_context w)) (ac_auth (v_commit w)) key' (gc_confirmed (v_context w)) = Ok tt ->
  ad_confirmation_tag (ac_auth (v_commit v)) = ad_confirmation_tag (ac_auth (v_commit w)) ->
  same_state v w \/ broken P h k v w.
Proof. exact c78_agree. Qed.
Print Assumptions C78_members.

(** A joiner who accepts a GroupInfo with the tag of the commit, and a tree with the hash in that GroupInfo, is in the
    state of the members. *)
Theorem C78_joiner : forall P h k v t gi j psk e key j' psk', gc_suite (gi_context gi) = gc_suite (v_context v) ->
  p_hpke P (gc_suite (v_context v)) = Ok k -> p_hash P (gc_suite (v_context v)) = Ok h ->
  well_typed v -> wf_group_context (gi_context gi) ->
  (exists d, tsized t d /\ tlen t < 4294967296 /\ forall x nd, tget t x = Some nd -> in_tree d x) -> nodes_wf t -> computed P v j psk e key ->
  verify_auth_confirmation_tag P (gc_suite (v_context v)) (ac_auth (v_commit v)) key (gc_confirmed (v_context v)) = Ok tt ->
  group_info_verify_tag P gi j' psk' = Ok tt -> root_tree_hash P (gc_suite (gi_context gi)) t = Ok (gc_tree_hash (gi_context gi)) ->
  gi_confirmation_tag gi = ad_confirmation_tag (ac_auth (v_commit v)) ->
  (gi_context gi = v_context v /\ j' = j /\ psk_or_zero k psk' = psk_or_zero k psk /\
   extract_epoch_secret P (gi_context gi) j' psk' = Ok e /\ (forall x, tget t x = tget (v_tree v) x)) \/
  exists e' key', extract_epoch_secret P (gi_context gi) j' psk' = Ok e' /\
    derive_secret P (gc_suite (gi_context gi)) e' (str "confirm") = Ok key' /\ broken_join P h k v (gi_context gi) t j psk e key j' psk' e' key'.
Proof. exact c78_join. Qed.
Print Assumptions C78_joiner.

(** Two members, one of whom has followed the group for a commit longer, and a joiner. *)
Definition ag_commit (tag : bytes) : auth_content := MkAuthContent WFPublicMessage (ex_framed (SMember 2) (CCommit ex_commit)) (MkAuth [x0e] tag).
Definition ag_hist : list (confirmed_input * bytes) := [(ex_confirmed 1, str "tag")].
Definition ag_interim : bytes := ok_or [] (transcript fixed Suite2 [] ag_hist).
Definition ag_ctx : group_context :=
  MkGroupContext MLS10 Suite2 (str "group") 6 (ok_or [] (root_tree_hash fixed Suite2 ex_three)) (ok_or [] (confirmed_hash fixed Suite2 (confirmed_of (ag_commit [])) ag_interim)) [].
Definition ag_psk : bytes := ok_or [] (extract_psk_secret fixed Suite2 [ex_psk] [str "psk"]).
Definition ag_joiner : bytes := ok_or [] (extract_joiner_secret fixed ag_ctx (str "init") (str "commit")).
Definition ag_epoch : bytes := ok_or [] (extract_epoch_secret fixed ag_ctx ag_joiner ag_psk).
Definition ag_key : bytes := ok_or [] (derive_secret fixed Suite2 ag_epoch (str "confirm")).
Definition ag_tag : bytes := h_mac fixed_hash ag_key (gc_confirmed ag_ctx).
Definition ag_view (start : bytes) (l : list (confirmed_input * bytes)) : view :=
  MkView ex_three ag_ctx [ex_psk] [str "psk"] (str "init") (str "commit") start l (ag_commit ag_tag).
Definition ag_info : group_info := MkGroupInfo ag_ctx [] ag_tag 1 [].
Lemma ag_ctx_wf : wf_group_context ag_ctx.
Proof. vm_compute. split; [reflexivity|]. split; [exists 2; split; reflexivity|]. split; [reflexivity|constructor]. Qed.
Example C78_example : p_hpke fixed Suite2 = Ok toy_hpke /\ p_hash fixed Suite2 = Ok fixed_hash /\ (forall b, N.of_nat (length (h_digest fixed_hash b)) = h_size fixed_hash) /\
  well_typed (ag_view [] ag_hist) /\ well_typed (ag_view ag_interim []) /\
  computed fixed (ag_view [] ag_hist) ag_joiner ag_psk ag_epoch ag_key /\ computed fixed (ag_view ag_interim []) ag_joiner ag_psk ag_epoch ag_key /\
  verify_auth_confirmation_tag fixed Suite2 (ac_auth (ag_commit ag_tag)) ag_key (gc_confirmed ag_ctx) = Ok tt /\
  group_info_verify_tag fixed ag_info ag_joiner ag_psk = Ok tt /\ root_tree_hash fixed Suite2 ex_three = Ok (gc_tree_hash ag_ctx).
Proof.
  assert (WT : forall s l, Forall (fun x => wf_confirmed_input (fst x)) l -> well_typed (ag_view s l)).
  { intros s l F. constructor.
    - exists 2. exact ex_three_good.
    - exact ex_three_wf.
    - exact ag_ctx_wf.
    - constructor; [exact ex_psk_wf|constructor].
    - reflexivity.
    - exact F.
    - apply (ex_confirmed_wf 2). reflexivity. }
  assert (CO : forall s l, transcript fixed Suite2 s l = Ok ag_interim -> computed fixed (ag_view s l) ag_joiner ag_psk ag_epoch ag_key).
  { intros s l T. constructor; [vm_compute; reflexivity| |vm_compute; reflexivity|vm_compute; reflexivity|vm_compute; reflexivity|vm_compute; reflexivity].
    exists ag_interim. split; [exact T|]. vm_compute. reflexivity. }
  split; [reflexivity|]. split; [reflexivity|]. split; [exact fixed_size|].
  split; [apply WT; constructor; [apply ex_confirmed_wf; reflexivity|constructor]|]. split; [apply WT; constructor|].
  split; [apply CO; vm_compute; reflexivity|]. split; [apply CO; reflexivity|].
  split; [vm_compute; reflexivity|]. split; vm_compute; reflexivity.
Qed.
