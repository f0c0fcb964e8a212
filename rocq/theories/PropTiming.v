(** Property C113: how long it takes to refuse a tag (SpecTiming.v). *)
From Verif Require Import SpecTiming TimingFacts Examples ExProvider ExPrivate Crypto Messages Base.
From Coq Require Import Strings.Byte List NArith.
Import ListNotations.
Local Open Scope N_scope.

(** Counting changes no verdict. *)
Theorem C113_same : forall P cs key msg tag, verify_mac P cs key msg tag =
  match timed_verify_mac P cs key msg tag with Ok (true, _) => Ok tt | Ok (false, _) => Err VerifyConfirmationTagFailed | Err e => Err e | Panic => Panic | Hang => Hang end.
Proof. exact c113_same. Qed.
Print Assumptions C113_same.

(** From verdicts alone nobody finds all tags of [n] bytes in fewer than 256^n tries, whatever they make of the answers ... *)
Theorem C113_verdicts : forall n next q, N.of_nat q < 256 ^ N.of_nat n -> exists tag, length tag = n /\ ~ hit_within next tag [] q.
Proof. exact c113_verdicts. Qed.
Print Assumptions C113_verdicts.

(** ... but the time depends on where the first wrong byte is, and on nothing else ... *)
Theorem C113_refuted_time : forall p a b x y, length a = length b -> x <> y -> compare_counted (p ++ x :: a) (p ++ y :: b) = (false, N.of_nat (length p) + 1).
Proof. exact c113_time. Qed.
Print Assumptions C113_refuted_time.

(** ... so that whoever can measure it makes a tag that is accepted, without the key, in at most 256 tries for each byte of it. *)
Theorem C113_refuted_found : forall P cs key msg m, sign_mac P cs key msg = Ok m ->
  exists asked, find_tag (fun tag => match timed_verify_mac P cs key msg tag with Ok r => r | _ => (false, 0) end) [] (length m) 0 = Some (m, asked) /\
    asked <= 256 * N.of_nat (length m) /\ verify_mac P cs key msg m = Ok tt.
Proof. exact c113_found. Qed.
Print Assumptions C113_refuted_found.
(** For example the membership tag of a message that its maker signed, or that somebody else did. *)
Theorem C113_refuted_membership : forall P cs c a key ctx i raw m, fc_sender c = SMember i -> se_auth_content_tbm (public_tbm (MkPublic c a None) ctx) = Ok raw -> sign_mac P cs key raw = Ok m ->
  exists asked, find_tag (fun tag => match timed_verify_mac P cs key raw tag with Ok r => r | _ => (false, 0) end) [] (length m) 0 = Some (m, asked) /\
    asked <= 256 * N.of_nat (length m) /\ verify_membership_tag P cs (MkPublic c a (Some m)) key ctx = Ok tt.
Proof. exact c113_membership. Qed.
Print Assumptions C113_refuted_membership.

(** A tag of five bytes is found in 518 tries. *)
Example C113_example : sign_mac toy Suite1 [x01; xff] [x00; x02; xff] = Ok [x01; xff; x00; x02; xff] /\
  find_tag (fun tag => match timed_verify_mac toy Suite1 [x01; xff] [x00; x02; xff] tag with Ok r => r | _ => (false, 0) end) [] 5 0 = Some ([x01; xff; x00; x02; xff], 518) /\
  ~ hit_within (fun answers => [x00; x01]) [x01; x00] [] 3 /\
  fc_sender (px_content 2) = SMember 2 /\
  (exists raw m, se_auth_content_tbm (public_tbm (MkPublic (px_content 2) (MkAuth [x01] []) None) ex_gc) = Ok raw /\ sign_mac toy Suite1 (str "mk") raw = Ok m).
Proof.
  split; [reflexivity|]. split; [vm_compute; reflexivity|]. split; [vm_compute; auto|]. split; [reflexivity|].
  exists (match se_auth_content_tbm (public_tbm (MkPublic (px_content 2) (MkAuth [x01] []) None) ex_gc) with Ok r => r | _ => [] end).
  exists (str "mk" ++ match se_auth_content_tbm (public_tbm (MkPublic (px_content 2) (MkAuth [x01] []) None) ex_gc) with Ok r => r | _ => [] end)%list. split; vm_compute; reflexivity.
Qed.
