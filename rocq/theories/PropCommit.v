(** C94: which commits the project's client accepts, and what they do to its tree. *)
From Coq Require Import Strings.Byte.
From Verif Require Import MessageFacts CommitFacts ExCommit ExPassive AuthFacts PassiveFacts LeafFacts PropWelcome.
From Verif Require Import SpecCommit SpecHashes SpecAuth SpecMembers WireWF ExKeys.
Local Open Scope N_scope.
Import Coq.Strings.Byte.

(** Exactly the commits that [commit_ok] describes are accepted, with the tree it says. *)
Theorem C94_accepted : forall P cs sa h k t d ctx epoch b t',
  p_sig P cs = Ok sa -> p_hash P cs = Ok h -> p_hpke P cs = Ok k -> shaped t d ->
  (passive_commit P cs t ctx epoch b = Ok t' <->
   exists v m rest i l c ps, de_mls_message b = Ok (MkMLSMessage v (WMPublic m), rest) /\ commit_ok P cs sa h k t d ctx epoch m i l c ps t').
Proof. exact c94_accepted. Qed.
Print Assumptions C94_accepted.

(** Its sender is a member who signed this content for this context and, if they got a new leaf, that leaf for this group and
    place. *)
Theorem C94_authentic : forall P cs sa h k t d ctx epoch b t',
  p_sig P cs = Ok sa -> p_hash P cs = Ok h -> p_hpke P cs = Ok k -> shaped t d -> wf_group_context ctx ->
  passive_commit P cs t ctx epoch b = Ok t' ->
  exists v m rest i l, de_mls_message b = Ok (MkMLSMessage v (WMPublic m), rest) /\ fc_sender (pm_content m) = SMember i /\ leaf_at t i = Some l /\
    (forall log, only_said P cs (signature_key l) log -> is_said log (SaidContent WFPublicMessage (pm_content m) ctx)) /\
    (leaf_at t' i = Some l \/ exists l', leaf_at t' i = Some l' /\ forall log, only_said P cs (signature_key l') log -> is_said log (SaidLeaf (ln_payload l') (gc_group_id ctx) i)).
Proof. exact c94_authentic. Qed.
Print Assumptions C94_authentic.

(** One message is accepted in one context only, unless its inputs for two contexts have the same MAC. *)
Theorem C94_once : forall P cs sa h k t d ctx epoch t2 d2 ctx2 epoch2 b t' t2' mk mk2,
  p_sig P cs = Ok sa -> p_hash P cs = Ok h -> p_hpke P cs = Ok k ->
  shaped t d -> shaped t2 d2 -> wf_group_context ctx -> wf_group_context ctx2 ->
  expand_label k epoch (str "membership") [] (nh k) = Ok mk -> expand_label k epoch2 (str "membership") [] (nh k) = Ok mk2 ->
  passive_commit P cs t ctx epoch b = Ok t' -> passive_commit P cs t2 ctx2 epoch2 b = Ok t2' ->
  ctx = ctx2 \/ tag_collision h b ctx mk ctx2 mk2.
Proof. exact c94_once. Qed.
Print Assumptions C94_once.

(** A member who frames such a commit, signs it, tags it and sends it is understood. *)
Theorem C94_honest : forall P cs sa h k t d ctx epoch sk mk c i l cm ps b t',
  p_sig P cs = Ok sa -> p_hash P cs = Ok h -> p_hpke P cs = Ok k -> shaped t d ->
  leaf_at t i = Some l -> key_pair_ok P cs sk (signature_key l) -> expand_label k epoch (str "membership") [] (nh k) = Ok mk ->
  wf_framed_content c -> fc_epoch c = gc_epoch ctx -> fc_sender c = SMember i -> fc_content c = CCommit cm -> cm_proposals cm = map PorProposal ps ->
  valid_list ps (repeat i (length ps)) i -> (forall p, In p ps -> psk_of p = None) -> (exists t2, tree_apply t ps (repeat i (length ps)) = Ok t2) ->
  match cm_path cm with
  | None => ps <> [] /\ (forall p, In p ps -> ~ wants_path p) /\ t' = t
  | Some u => path_ok P cs t d ctx i l u t'
  end ->
  send_public P cs ctx sk mk c = Ok b -> passive_commit P cs t ctx epoch b = Ok t'.
Proof. exact c94_honest. Qed.
Print Assumptions C94_honest.

(** Afterwards the tree is as well-formed as before, all members have their own keys, and parent hashes are valid. *)
Theorem C94_tree : forall P cs sa h k t d ctx epoch b t',
  p_sig P cs = Ok sa -> p_hash P cs = Ok h -> p_hpke P cs = Ok k -> good t d -> distinct_keys t ->
  passive_commit P cs t ctx epoch b = Ok t' ->
  good t' d /\ distinct_keys t' /\
  (verify_parent_hashes P cs t = Ok true -> (exists x, root_tree_hash P cs t' = Ok x) -> (forall i, ~ coincidence P cs t' i) -> verify_parent_hashes P cs t' = Ok true).
Proof. exact c94_tree. Qed.
Print Assumptions C94_tree.

(** But nobody except the sender changes, whatever was proposed: *)
Theorem C94_others : forall P cs sa h k t d ctx epoch b t',
  p_sig P cs = Ok sa -> p_hash P cs = Ok h -> p_hpke P cs = Ok k -> shaped t d ->
  passive_commit P cs t ctx epoch b = Ok t' ->
  exists v m rest i, de_mls_message b = Ok (MkMLSMessage v (WMPublic m), rest) /\ fc_sender (pm_content m) = SMember i /\ forall j, j <> i -> leaf_at t' j = leaf_at t j.
Proof. exact c94_others. Qed.
Print Assumptions C94_others.
(** ... somebody the commit removes stays, *)
Theorem C94_refuted_proposals : exists P cs t d ctx epoch b i c ps t2 t' j l, good t d /\ carries b i c ps /\ tree_apply t ps (repeat i (length ps)) = Ok t2 /\
  passive_commit P cs t ctx epoch b = Ok t' /\ leaf_at t2 j = None /\ leaf_at t' j = Some l.
Proof. exact c94_refuted_proposals. Qed.
Print Assumptions C94_refuted_proposals.
(** and a commit whose path is for the tree with the proposals carried out, as it should be, is refused. *)
Theorem C94_refuted_rfc : exists P cs t d ctx epoch b i c ps u t2 t3 e, good t d /\ carries b i c ps /\ cm_path c = Some u /\
  tree_apply t ps (repeat i (length ps)) = Ok t2 /\ passive_path P cs t2 ctx i (up_leaf u) u = Ok t3 /\
  (exists l, leaf_at t i = Some l /\ signature_key l = signature_key (up_leaf u)) /\ passive_commit P cs t ctx epoch b = Err e.
Proof. exact c94_refuted_rfc. Qed.
Print Assumptions C94_refuted_rfc.
(** Neither the group the message names nor its confirmation tag is looked at. *)
Theorem C94_refuted_unchecked : exists P cs t d ctx epoch b v m rest t', good t d /\ de_mls_message b = Ok (MkMLSMessage v (WMPublic m), rest) /\
  passive_commit P cs t ctx epoch b = Ok t' /\ fc_group_id (pm_content m) <> gc_group_id ctx /\ ad_confirmation_tag (pm_auth m) = [].
Proof. exact c94_refuted_unchecked. Qed.
Print Assumptions C94_refuted_unchecked.

(** Member 0 of two commits with a path of one node; the message is sent with [send_public]. *)
Example C94_example : good pj_tree 1 /\ distinct_keys pj_tree /\ WireWF.wf_group_context pj_ctx /\ key_pair_ok toy Suite1 [x01; x21] (signature_key (ex_signed x01 LSUpdate (str "group") 0)) /\
  leaf_at pj_tree 0 = Some (ex_signed x01 LSUpdate (str "group") 0) /\ verify_parent_hashes toy Suite1 pj_tree = Ok true /\
  (exists b, send_public toy Suite1 pj_ctx [x01; x21] ec_key (ec_content (str "group") [] (Some (ec_path pj_tree x51 [[x61]]))) = Ok b /\
    passive_commit toy Suite1 pj_tree pj_ctx pj_epoch b = Ok (ec_after [] x51 [[x61]])) /\
  leaf_at (ec_after [] x51 [[x61]]) 0 = Some (up_leaf (ec_path pj_tree x51 [[x61]])) /\ (exists h, tget (ec_after [] x51 [[x61]]) 1 = Some (Parent (MkParentNode [x61] h []))).
Proof.
  split; [exact pj_good|]. split; [exact pj_distinct|]. split; [apply pj_info_wf|]. split; [apply toy_keys|]. split; [vm_compute; reflexivity|]. split; [vm_compute; reflexivity|].
  split; [eexists; split; [vm_compute; reflexivity|vm_compute; reflexivity]|]. split; [apply ec_accepted|apply ec_accepted].
Qed.
