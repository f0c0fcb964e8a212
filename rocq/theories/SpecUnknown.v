(** Values from registries newer than the code (RFC 9420, Section 13): what it means that a member lists, or carries,
    values this code has no name for. Only the record types of Wire.v are used. *)
From Verif Require Import Base Wire RatchetTree.
From Coq Require Import List NArith.
Import ListNotations.
Local Open Scope N_scope.

(** [l'] is [l] with values satisfying [new] put in anywhere. *)
Inductive inserted {A} (new : A -> Prop) : list A -> list A -> Prop :=
| ins_nil : inserted new [] []
| ins_keep x l l' : inserted new l l' -> inserted new (x :: l) (x :: l')
| ins_new x l l' : new x -> inserted new l l' -> inserted new l (x :: l').

(** The values without a name. *)
Definition new_version (v : protocol_version) : Prop := match v with VersionUnsupported _ => True | _ => False end.
Definition new_suite (c : cipher_suite) : Prop := match c with SuiteUnknown _ => True | _ => False end.
Definition new_extension_type (e : extension_type) : Prop := match e with ExtUnknown _ => True | _ => False end.
Definition new_proposal_type (p : proposal_type) : Prop := match p with PtUnknown _ => True | _ => False end.
Definition new_credential_type (c : credential_type) : Prop := match c with CtUnknown _ => True | _ => False end.
Definition new_extension (e : extension) : Prop := new_extension_type (ext_type e).

(** [c'] claims what [c] claims and further values without a name. *)
Record wider (c c' : capabilities) : Prop := {
  wd_versions : inserted new_version (cap_versions c) (cap_versions c');
  wd_suites : inserted new_suite (cap_suites c) (cap_suites c');
  wd_extensions : inserted new_extension_type (cap_extensions c) (cap_extensions c');
  wd_proposals : inserted new_proposal_type (cap_proposals c) (cap_proposals c');
  wd_credentials : inserted new_credential_type (cap_credentials c) (cap_credentials c') }.

(** [l'] is the member [l], as it would be with more capabilities and with more extensions, which it lists. Its
    signature may be another one, and so may the parent hash it carries. *)
Record wider_leaf (l l' : leaf_node) : Prop := {
  wl_encryption_key : lp_encryption_key (ln_payload l') = lp_encryption_key (ln_payload l);
  wl_signature_key : lp_signature_key (ln_payload l') = lp_signature_key (ln_payload l);
  wl_credential : lp_credential (ln_payload l') = lp_credential (ln_payload l);
  wl_capabilities : wider (lp_capabilities (ln_payload l)) (lp_capabilities (ln_payload l'));
  wl_source : match lp_source (ln_payload l), lp_source (ln_payload l') with
              | LSKeyPackage a, LSKeyPackage b => a = b
              | LSUpdate, LSUpdate => True
              | LSCommit _, LSCommit _ => True
              | _, _ => False end;
  wl_extensions : inserted new_extension (lp_extensions (ln_payload l)) (lp_extensions (ln_payload l'));
  wl_listed : forall e, In e (lp_extensions (ln_payload l')) -> new_extension e ->
              In (ext_type e) (cap_extensions (lp_capabilities (ln_payload l'))) }.

(** [t'] is the tree [t] with such members; its parents have the same keys and unmerged leaves. *)
Definition greased_node (o o' : option node) : Prop :=
  match o, o' with
  | None, None => True
  | Some (Parent p), Some (Parent p') =>
      pn_encryption_key p' = pn_encryption_key p /\ pn_unmerged p' = pn_unmerged p
  | Some (Leaf l), Some (Leaf l') => wider_leaf l l'
  | _, _ => False
  end.
Definition greased (t t' : tree) : Prop := Forall2 greased_node t t'.

(** ** Numbers *)

(** The number of a value in its registry (RFC 9420, Sections 6 and 17), and that a value without a name has none of
    the numbers that have one. *)
Definition version_number (v : protocol_version) : N := match v with MLS10 => 1 | VersionUnsupported n => n end.
Definition suite_number (c : cipher_suite) : N :=
  match c with
  | Suite1 => 1 | Suite2 => 2 | Suite3 => 3 | Suite4 => 4 | Suite5 => 5 | Suite6 => 6 | Suite7 => 7
  | SuiteUnknown n => n end.
Definition extension_number (e : extension_type) : N :=
  match e with
  | ExtApplicationId => 1 | ExtRatchetTree => 2 | ExtRequiredCapabilities => 3 | ExtExternalPub => 4
  | ExtExternalSenders => 5 | ExtUnknown n => n end.
Definition proposal_number (p : proposal_type) : N :=
  match p with
  | PtAdd => 1 | PtUpdate => 2 | PtRemove => 3 | PtPreSharedKey => 4 | PtReInit => 5 | PtExternalInit => 6
  | PtGroupContextExtensions => 7 | PtUnknown n => n end.
Definition credential_number (c : credential_type) : N := match c with CtBasic => 1 | CtX509 => 2 | CtUnknown n => n end.

(** [l] has the numbers [ns]; a value is without a name exactly if its number is 0 or above [last]. *)
Definition read_as {A} (number : A -> N) (new : A -> Prop) (last : N) (ns : list N) (l : list A) : Prop :=
  map number l = ns /\ Forall (fun a => new a <-> (number a = 0 \/ last < number a)) l.

(** A list of 16-bit numbers that fits in a vector. *)
Definition code_points (ns : list N) : Prop := Forall (fun n => n < 65536) ns /\ 2 * N.of_nat (length ns) < 1073741824.
