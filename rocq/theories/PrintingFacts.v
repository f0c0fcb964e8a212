(** Proofs for C115. *)
From Verif Require Import SpecPrinting.
From Coq Require Import Lia.
Import Coq.Init.Byte.
Local Open Scope N_scope.

Lemma read_show_byte b r : read_byte (show_byte b ++ r) = Some (b, r).
Proof. destruct b; reflexivity. Qed.
Lemma show_byte_start b r : match (show_byte b ++ r)%list with x22 :: _ => False | [] => False | _ => True end.
Proof. destruct b; exact I. Qed.
Lemma show_byte_len b : (1 <= length (show_byte b))%nat.
Proof. destruct b; cbn; lia. Qed.
Lemma read_show_until v r : forall fuel, (length (flat_map show_byte v) < fuel)%nat -> read_until_quote fuel (flat_map show_byte v ++ x22 :: r)%list = Some (v, r).
Proof.
  induction v as [|b v IH]; intros [|k] L; try (cbn in L; lia); [reflexivity|]. cbn [flat_map] in *. rewrite app_length in L. rewrite <- app_assoc.
  pose proof (show_byte_start b (flat_map show_byte v ++ x22 :: r)) as S. pose proof (show_byte_len b) as Lb. cbn [read_until_quote].
  rewrite read_show_byte. rewrite IH by lia.
  destruct (show_byte b ++ _)%list as [|c s]; [contradiction|]. destruct c; try reflexivity; contradiction.
Qed.
Lemma read_show_bytes v r : read_bytes (show_bytes v ++ r) = Some (v, r).
Proof.
  unfold show_bytes, read_bytes. rewrite <- !app_assoc. cbn [app]. apply read_show_until. rewrite app_length. cbn [length]. lia.
Qed.

Lemma read_show_maybe o r : read_maybe (show_maybe o ++ r) = Some (o, r).
Proof.
  destruct o as [v|]; [|reflexivity]. unfold show_maybe. rewrite <- !app_assoc. unfold read_maybe. cbn [txt String.list_byte_of_string app Ascii.byte_of_ascii].
  match goal with |- match ?x with _ => _ end = _ => let y := eval vm_compute in (txt "Some(") in change x with (y ++ (show_bytes v ++ txt ")" ++ r))%list end.
  cbn [app skipn]. rewrite read_show_bytes. reflexivity.
Qed.
Lemma read_show_entry e r : read_entry (show_entry e ++ r) = Some (e, r).
Proof.
  destruct e as [k v]. unfold show_entry, read_entry. cbn [fst snd]. rewrite <- !app_assoc, read_show_bytes.
  change (skipn 2 (txt ": " ++ show_bytes v ++ r)) with (show_bytes v ++ r)%list. rewrite read_show_bytes. reflexivity.
Qed.

Section Lists.
  Variables (A : Type) (f : A -> text) (rd : text -> option (A * text)).
  Hypothesis R : forall a r, rd (f a ++ r) = Some (a, r).
  Lemma read_show_all l c r : c <> x2c -> l <> [] -> forall fuel, (length l <= fuel)%nat -> read_all rd fuel (show_all f l ++ c :: r) = Some l.
  Proof.
    intros C. induction l as [|a l IH]; intros Ne fuel L; [contradiction|]. destruct fuel as [|k]; [cbn in L; lia|]. cbn [read_all].
    destruct l as [|b l].
    - cbn [show_all]. rewrite R. destruct c; try reflexivity; contradiction.
    - change (show_all f (a :: b :: l)) with (f a ++ txt ", " ++ show_all f (b :: l))%list. rewrite <- !app_assoc, R. change (txt ", " ++ show_all f (b :: l) ++ c :: r)%list with (x2c :: x20 :: (show_all f (b :: l) ++ c :: r)).
      cbv beta iota. rewrite IH; [reflexivity|discriminate|cbn [length] in *; lia].
  Qed.
  Hypothesis F : forall a, f a <> [].
  Lemma show_all_len l : (length l <= length (show_all f l))%nat.
  Proof.
    induction l as [|a [|b l] IH]; [cbn; lia| |].
    - cbn [show_all length]. specialize (F a). destruct (f a); [contradiction|cbn; lia].
    - change (show_all f (a :: b :: l)) with (f a ++ txt ", " ++ show_all f (b :: l))%list. rewrite !app_length. cbn [length] in *. specialize (F a). destruct (f a); [contradiction|cbn [length]; lia].
  Qed.
  Lemma read_show_list l c r : c <> x2c -> (forall a b s, f a = b :: s -> b <> c) -> read_list rd c (show_all f l ++ c :: r) = Some l.
  Proof.
    intros C D. unfold read_list. destruct l as [|a l].
    - cbn [show_all app]. replace (Byte.eqb c c) with true by (symmetry; apply Byte.byte_dec_lb; reflexivity). reflexivity.
    - pose proof (read_show_all (a :: l) c r C ltac:(discriminate)) as Q.
      assert (H : exists b s, show_all f (a :: l) = b :: s /\ b <> c).
      { specialize (F a). destruct (f a) as [|b s] eqn:E; [contradiction|]. exists b. cbn [show_all]. rewrite E. destruct l; eexists; (split; [reflexivity|exact (D a b _ E)]). }
      pose proof (show_all_len (a :: l)) as L. destruct H as (b & s & E & Nb). rewrite E in *. cbn [app] in *.
      destruct (Byte.eqb b c) eqn:X; [apply Byte.byte_dec_bl in X; contradiction|]. apply Q. cbn [length] in *. rewrite app_length. lia.
  Qed.
End Lists.

Lemma after_prefix (p s : text) : skipn (length p) (p ++ s) = s.
Proof. induction p; [reflexivity|exact IHp]. Qed.

Definition first {A B} (o : option (A * B)) : option A := match o with Some (a, _) => Some a | None => None end.
Ltac by_prefix p := exists (fun s => first (read_bytes (skipn (length p) s))); intros a.

Lemma r_secret_key : reveals show_secret_key (fun k => k).
Proof. by_prefix (txt "SecretKey("). unfold show_secret_key. rewrite after_prefix, read_show_bytes. reflexivity. Qed.
Lemma r_signature : reveals show_signature_key_pair skp_private.
Proof.
  by_prefix (txt "SignatureKeyPair { private_key: SecretKey("). unfold show_signature_key_pair, show_secret_key. rewrite <- !app_assoc.
  rewrite (app_assoc (txt "SignatureKeyPair { private_key: ")). change (txt "SignatureKeyPair { private_key: " ++ txt "SecretKey(")%list with (txt "SignatureKeyPair { private_key: SecretKey(").
  rewrite after_prefix, read_show_bytes. reflexivity.
Qed.
Lemma r_hpke : reveals show_hpke_key_pair hkp_private.
Proof.
  by_prefix (txt "HPKEKeyPair { private_key: SecretKey("). unfold show_hpke_key_pair, show_secret_key. rewrite <- !app_assoc.
  rewrite (app_assoc (txt "HPKEKeyPair { private_key: ")). change (txt "HPKEKeyPair { private_key: " ++ txt "SecretKey(")%list with (txt "HPKEKeyPair { private_key: SecretKey(").
  rewrite after_prefix, read_show_bytes. reflexivity.
Qed.
Lemma r_ratchet : reveals (fun p => show_ratchet_secret (fst p) (snd p)) (fun p => rt_secret (fst p)).
Proof. by_prefix (txt "RatchetSecret { secret: "). unfold show_ratchet_secret. rewrite after_prefix, read_show_bytes. reflexivity. Qed.
Lemma show_maybe_start o b s : show_maybe o = b :: s -> b <> x5d.
Proof. destruct o; intros [= <- _]; discriminate. Qed.
Lemma show_entry_start e b s : show_entry e = b :: s -> b <> x7d.
Proof. intros [= <- _]; discriminate. Qed.
Lemma r_secret_tree : reveals show_secret_tree (fun t => t).
Proof.
  exists (fun s => read_list read_maybe x5d (skipn (length (txt "SecretTree([")) s)). intros t. unfold show_secret_tree. rewrite after_prefix.
  apply (read_show_list _ show_maybe read_maybe read_show_maybe); [intros [|]; discriminate|discriminate|exact show_maybe_start].
Qed.
Lemma r_key_store : reveals show_key_store (fun e => e).
Proof.
  exists (fun s => read_list read_entry x7d (skipn (length (txt "MemoryKeyStore(RwLock { data: {")) s)). intros t. unfold show_key_store. rewrite after_prefix.
  apply (read_show_list _ show_entry read_entry read_show_entry); [discriminate|discriminate|exact show_entry_start].
Qed.
Lemma r_group_secrets : reveals (fun p => show_group_secrets (fst p) (snd p)) (fun p => (gs_joiner_secret (fst p), gs_path_secret (fst p))).
Proof.
  exists (fun s => match read_bytes (skipn (length (txt "GroupSecrets { joiner_secret: ")) s) with
    | Some (j, r) => match read_maybe (skipn (length (txt ", path_secret: ")) r) with Some (o, _) => Some (j, o) | None => None end
    | None => None end).
  intros [g ids]. cbn [fst snd]. unfold show_group_secrets. rewrite after_prefix, read_show_bytes, after_prefix, read_show_maybe. reflexivity.
Qed.
Lemma reveals_not_hides {A S T} (show : A -> text) (secret : A -> S) (public : A -> T) a b : reveals show secret -> public a = public b -> secret a <> secret b -> ~ hides show secret public.
Proof. intros [rd R] P N H. apply N. pose proof (R a) as X. rewrite (H a b P), R in X. congruence. Qed.
Lemma c115_hides p q k s : p <> q -> ~ hides show_signature_key_pair skp_private (fun x => (skp_public x, skp_scheme x)) /\
  show_signature_key_pair (MkSigKeyPair p k s) <> show_signature_key_pair (MkSigKeyPair q k s).
Proof.
  intros N. split.
  - exact (reveals_not_hides show_signature_key_pair skp_private (fun x => (skp_public x, skp_scheme x)) (MkSigKeyPair p k s) (MkSigKeyPair q k s) r_signature eq_refl N).
  - destruct r_signature as [rd R]. intros E. apply N. pose proof (R (MkSigKeyPair p k s)) as X. rewrite E, R in X. injection X as X. auto.
Qed.
