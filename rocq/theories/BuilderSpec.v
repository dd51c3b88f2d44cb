(** What the properties of multi-valued properties and builders say. *)
From Verif Require Import Base Json CoreModel VcModel.

(** The values of a one-or-many property, and of a string with translations. *)
Definition values {A} (q : quota A) : list A := match q with QOne a => [a] | QMany l => l end.
Definition translations (ls : lang_string) : list lang_value :=
  match ls with KString s => [LangValue s None None] | KObject q => values q end.

(** The calls one can make on a credential builder. *)
Inductive vc_call : Type :=
| AddContext (c : kind json) | SetId (i : string) | AddType (t : string)
| SetName (n : option lang_string) | SetDescription (d : option lang_string) | SetIssuer (i : string)
| AddSubject (s : credential_subject) | AddProof (p : integrity_proof)
| SetStatus (s : option (quota credential_status)).

(** The builder they lead to, from [VcBuilder::new()]. *)
Definition vc_step (b : vc) (c : vc_call) : vc :=
  match c with
  | AddContext c => vcb_add_context c b | SetId i => vcb_id i b | AddType t => vcb_add_type t b
  | SetName n => vcb_add_name n b | SetDescription d => vcb_add_description d b | SetIssuer i => vcb_issuer i b
  | AddSubject s => vcb_add_subject s b | AddProof p => vcb_add_proof p b | SetStatus s => vcb_status s b
  end.
Definition vc_builder (calls : list vc_call) : vc := foldl vc_step vcb_new calls.

(** What was given, in order. *)
Definition contexts_given (cs : list vc_call) : list (kind json) :=
  omap (λ c, match c with AddContext x => Some x | _ => None end) cs.
Definition types_given (cs : list vc_call) : list string :=
  omap (λ c, match c with AddType x => Some x | _ => None end) cs.
Definition subjects_given (cs : list vc_call) : list credential_subject :=
  omap (λ c, match c with AddSubject x => Some x | _ => None end) cs.
Definition proofs_given (cs : list vc_call) : list integrity_proof :=
  omap (λ c, match c with AddProof x => Some x | _ => None end) cs.
Definition ids_given (cs : list vc_call) : list string :=
  omap (λ c, match c with SetId x => Some x | _ => None end) cs.
Definition issuers_given (cs : list vc_call) : list string :=
  omap (λ c, match c with SetIssuer x => Some x | _ => None end) cs.
Definition names_given (cs : list vc_call) : list (option lang_string) :=
  omap (λ c, match c with SetName x => Some x | _ => None end) cs.
Definition descriptions_given (cs : list vc_call) : list (option lang_string) :=
  omap (λ c, match c with SetDescription x => Some x | _ => None end) cs.
Definition statuses_given (cs : list vc_call) : list (option (quota credential_status)) :=
  omap (λ c, match c with SetStatus x => Some x | _ => None end) cs.

(** A subject with content: an id or some claims. *)
Definition has_content (s : credential_subject) : Prop := cs_id s ≠ None ∨ cs_claims s ≠ [].
Definition empty_subject : credential_subject := CredentialSubject None [].

(** Enough was given. *)
Definition complete (cs : list vc_call) : Prop :=
  contexts_given cs ≠ [] ∧ types_given cs ≠ [] ∧
  (∃ i, last (issuers_given cs) = Some i ∧ i ≠ "") ∧
  (∃ s, s ∈ subjects_given cs ∧ has_content s).

(** The same for presentations. *)
Inductive vp_call : Type :=
| VpContext (c : kind json) | VpType (t : string) | VpCredential (c : kind vc) | VpHolder (h : string).
Definition vp_step (b : vp) (c : vp_call) : vp :=
  match c with
  | VpContext c => vpb_add_context c b | VpType t => vpb_add_type t b
  | VpCredential c => vpb_add_credential c b | VpHolder h => vpb_holder h b
  end.
Definition vp_builder (uuid : string) (calls : list vp_call) : vp := foldl vp_step (vpb_new uuid) calls.
Definition vp_contexts_given (cs : list vp_call) : list (kind json) :=
  omap (λ c, match c with VpContext x => Some x | _ => None end) cs.
Definition vp_types_given (cs : list vp_call) : list string :=
  omap (λ c, match c with VpType x => Some x | _ => None end) cs.
Definition vp_credentials_given (cs : list vp_call) : list (kind vc) :=
  omap (λ c, match c with VpCredential x => Some x | _ => None end) cs.
Definition vp_holders_given (cs : list vp_call) : list string :=
  omap (λ c, match c with VpHolder x => Some x | _ => None end) cs.
