(** What the properties of builders and generated key pairs talk about. *)
From Verif Require Export SpecKeys SpecProvider Build.
Local Open Scope N_scope.

(** ** Builders: any sequence of setter calls *)
Inductive cc_call : Type := CCVersion (v : protocol_version) | CCSuite (cs : cipher_suite).
Definition cc_apply (c : crypto_config) (x : cc_call) : crypto_config :=
  match x with CCVersion v => cc_with_version c v | CCSuite cs => cc_with_cipher_suite c cs end.
Definition cc_version_of (x : cc_call) : option protocol_version := match x with CCVersion v => Some v | _ => None end.
Definition cc_suite_of (x : cc_call) : option cipher_suite := match x with CCSuite v => Some v | _ => None end.

Inductive kpb_call : Type :=
| KPLifetime (x : lifetime) | KPExtensions (x : extensions) | KPCapabilities (x : capabilities) | KPLeafExtensions (x : extensions).
Definition kpb_apply (b : builder) (x : kpb_call) : builder :=
  match x with
  | KPLifetime x => kpb_with_lifetime b x | KPExtensions x => kpb_with_extensions b x
  | KPCapabilities x => kpb_with_capabilities b x | KPLeafExtensions x => kpb_with_leaf_extensions b x
  end.
Definition kp_lifetime_of (x : kpb_call) : option lifetime := match x with KPLifetime v => Some v | _ => None end.
Definition kp_extensions_of (x : kpb_call) : option extensions := match x with KPExtensions v => Some v | _ => None end.
Definition kp_capabilities_of (x : kpb_call) : option capabilities := match x with KPCapabilities v => Some v | _ => None end.
Definition kp_leaf_extensions_of (x : kpb_call) : option extensions := match x with KPLeafExtensions v => Some v | _ => None end.

(** [v] is what the last call that sets the field gave it, or [d] if no call does. *)
Definition latest {C A : Type} (f : C -> option A) (calls : list C) (d v : A) : Prop :=
  (exists pre c post, calls = (pre ++ c :: post)%list /\ f c = Some v /\ forall c', In c' post -> f c' = None) \/
  ((forall c, In c calls -> f c = None) /\ v = d).

(** ** Key generation *)
(** The libraries generate pairs that work, and the Ed25519 pair is 64 bytes, private part first. *)
Definition keygen_ok (p : prims) (g : keygen) : Prop :=
  (forall e, length (kg_ed25519_pair g e) = 64%nat /\ pair_prims_ok p ED25519 (firstn 32 (kg_ed25519_pair g e)) (skipn 32 (kg_ed25519_pair g e))) /\
  (forall s e, pair_prims_ok p s (fst (kg_ecdsa g s e)) (snd (kg_ecdsa g s e))) /\
  (forall e, exists pk, kg_ed25519_public g (kg_seed g e) = Some pk /\ pair_prims_ok p ED25519 (kg_seed g e) pk).
(** A bundled provider and its key generation. *)
Definition bundled_keygen (p : prims) (g : keygen) (P : provider) (gen : cipher_suite -> kg_entropy g -> res signature_key_pair) : Prop :=
  (P = rust_provider p /\ gen = rust_suite_key_pair g) \/ (P = ring_provider p /\ gen = ring_suite_key_pair g).

(** The lifetime covers the time [now] (nanoseconds since 1970; lifetimes are in microseconds). *)
Definition current (l : lifetime) (now : Z) : Prop := (Z.of_N (not_before l) * 1000 <= now <= Z.of_N (not_after l) * 1000)%Z.
