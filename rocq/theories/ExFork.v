(** A group that comes apart, for the examples of PropFork.v: members 1 and 2 commit in the same epoch, and both parts go on. *)
From Verif Require Import CodecLib TreePaths KeyFacts AuthFacts TrafficFacts Examples.
From Verif Require Export SpecFork ExPrivate.
Import Coq.Strings.Byte.
Local Open Scope N_scope.

(** A checksum of four bytes as digest. *)
Definition fk_digest (x : bytes) : bytes := be 4 (fold_left (fun a b => (a * 263 + b2n b + 1) mod 4294967296) x 7).
Definition fk_hash : hash_alg := MkHash 4 fk_digest (fun k m => k ++ m)%list.
Lemma fk_size b : N.of_nat (length (h_digest fk_hash b)) = h_size fk_hash.
Proof. cbn [fk_hash h_digest h_size fk_digest]. unfold fk_digest. rewrite be_length. reflexivity. Qed.
(** A digest that gives nothing away, not even a difference. *)
Definition fk_bad : hash_alg := MkHash 4 (fun _ => repeat x00 4) (fun k m => k ++ m)%list.
Definition fk_left : list (confirmed_input * bytes) := [(ex_confirmed 1, str "tag"); (ex_confirmed 3, str "more")].
Definition fk_right : list (confirmed_input * bytes) := [(ex_confirmed 2, str "tag"); (ex_confirmed 3, str "more")].
Definition fk_toy (H : hash_alg) : provider := MkProvider (p_supports toy) (p_supported toy) (fun _ => Ok H) (p_hpke toy) (p_sig toy) (p_base_seal toy) (p_base_open toy).
(** The context after both commits. *)
Definition fk_ctx (H : hash_alg) (l : list (confirmed_input * bytes)) : group_context :=
  match (let* i := transcript (fk_toy H) Suite2 (str "start") (firstn 1 l) in confirmed_hash (fk_toy H) Suite2 (ex_confirmed 3) i) with
  | Ok c => MkGroupContext MLS10 Suite2 (str "group") 5 [x0a] c [MkExtension (ExtUnknown 0x0a0a) []]
  | _ => ex_gc
  end.
(** A member of the left part has said two things with its key, one publicly and one in a private message. *)
Definition fk_public : framed_content := ex_framed (SMember 2) (CProposal (PRemove (MkRemove 3))).
Definition fk_log (H : hash_alg) : list said := [SaidContent WFPrivateMessage (px_content 2) (fk_ctx H fk_left); SaidContent WFPublicMessage fk_public (fk_ctx H fk_left)].
Definition fk_provider (H : hash_alg) : provider :=
  MkProvider (p_supports toy) (p_supported toy) (fun _ => Ok H) (p_hpke toy) (fun _ => Ok (log_sig (fk_log H))) (p_base_seal toy) (p_base_open toy).
Definition fk_bytes (H : hash_alg) : bytes :=
  match send_private (fk_provider H) Suite2 (fk_ctx H fk_left) (str "k") (str "enc") (str "sds") 4 2 px_guard (px_content 2) with Ok b => b | _ => [] end.
Definition fk_sent (H : hash_alg) : bytes := match send_public (fk_provider H) Suite2 (fk_ctx H fk_left) (str "k") (str "mk") fk_public with Ok b => b | _ => [] end.

Lemma fk_ctx_wf H l : H = fk_hash \/ H = fk_bad -> l = fk_left \/ l = fk_right -> wf_group_context (fk_ctx H l).
Proof.
  intros K L. assert (Q : exists c, fk_ctx H l = MkGroupContext MLS10 Suite2 (str "group") 5 [x0a] c [MkExtension (ExtUnknown 0x0a0a) []]) by (destruct K, L; subst H l; eexists; vm_compute; reflexivity).
  destruct Q as (c & ->). split; [reflexivity|]. split; [u16_ex 2|]. split; [reflexivity|]. constructor; [|constructor]. u16_ex 0x0a0a.
Qed.
Lemma fk_epoch H l : H = fk_hash \/ H = fk_bad -> l = fk_left \/ l = fk_right -> in_epoch (fk_provider H) Suite2 3 (str "start") l 1 (fk_ctx H l).
Proof.
  intros K L. pose proof (fk_ctx_wf H l K L) as W. destruct K, L; subst H l; exists (ex_confirmed 3), (str "more"); eexists; (split; [reflexivity|]);
    (split; [vm_compute; reflexivity|]); (split; [vm_compute; reflexivity|]); (split; [reflexivity|exact W]).
Qed.
Lemma fk_only H cs pk : H = fk_hash \/ H = fk_bad -> only_said (fk_provider H) cs pk (fk_log H).
Proof.
  intros K. split.
  - pose proof (fk_ctx_wf H fk_left K (or_introl eq_refl)) as W. intros s [<-|[<-|[]]]; (split; [|destruct K; subst H; vm_compute; reflexivity]);
      (split; [|split; [exact W|destruct K; subst H; eexists; vm_compute; reflexivity]]); (split; [reflexivity|split; [reflexivity|]]); try exact I. reflexivity.
  - intros a m sig A V. apply Ok_inj in A. subst a. unfold log_sig in V. cbn [s_verify] in V. destruct (existsb _ (fk_log H)) eqn:E; [|discriminate].
    apply existsb_exists in E as (s & I & E). exists s. split; [exact I|]. apply bytes_eqb_eq in E. exact E.
Qed.
Lemma fk_speaks H : H = fk_hash \/ H = fk_bad -> speaks_in (fk_provider H) Suite2 3 (str "start") fk_left (fk_log H).
Proof. intros K w f g [E|[E|[]]]; injection E as _ _ <-; exists 1%nat; apply fk_epoch; auto. Qed.
Lemma fk_parted : parted fk_left fk_right 1.
Proof. intros H. apply (f_equal (fun l => match l with x :: _ => fc_sender (ci_content x) | [] => SMember 0 end)) in H. vm_compute in H. discriminate. Qed.
Lemma fk_wf l : l = fk_left \/ l = fk_right -> Forall (fun x => wf_confirmed_input (fst x)) l.
Proof. intros [-> | ->]; (constructor; [|constructor; [|constructor]]); apply ex_confirmed_wf; reflexivity. Qed.
