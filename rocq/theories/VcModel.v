(** crates/w3c-vc/src/model/vc.rs and vp.rs: credentials, presentations and their
    builders; crates/w3c-vc/src/proof/jose.rs: the JWT claims made from them. *)
From Verif Require Import Base Json CoreModel.

(** crates/w3c-vc/src/model/vc.rs 182-191, [CredentialSubject]. *)
Record credential_subject : Type := CredentialSubject {
  cs_id : option string;
  cs_claims : list (string * json);
}.

(** [CredentialSubject::default()] (derived), and comparison with it. *)
Definition cs_default : credential_subject := CredentialSubject None [].
Definition cs_is_default (s : credential_subject) : bool :=
  match s with CredentialSubject None [] => true | _ => false end.

(** crates/w3c-vc/src/model/vc.rs 265-275, [StatusPurpose]. *)
Inductive status_purpose : Type := Revocation | Suspension | Message.
Global Instance status_purpose_eq : EqDecision status_purpose.
Proof. solve_decision. Defined.

(** crates/w3c-vc/src/model/vc.rs 197-260, [CredentialStatus] with its only variant
    [Bitstring].  [status_message] and [status_reference] are left out (never read). *)
Record credential_status : Type := CredentialStatus {
  st_id : option string;
  st_purpose : status_purpose;
  st_index : N;
  st_list_credential : string;
  st_size : option N;
}.

(** crates/w3c-vc/src/proof/integrity.rs, [Proof]: only the challenge is ever read. *)
Record integrity_proof : Type := IntegrityProof { ip_challenge : option string }.

(** crates/w3c-vc/src/model/vc.rs 29-133, [VerifiableCredential].  The issuer object
    is reduced to its id; schema, related resource, refresh service, terms and evidence,
    which no code sets or reads, are left out. *)
Record vc : Type := VC {
  vc_context : list (kind json);
  vc_id : option string;
  vc_type : quota string;
  vc_name : option lang_string;
  vc_description : option lang_string;
  vc_issuer : kind string;
  vc_subject : quota credential_subject;
  vc_valid_from : option Z;
  vc_valid_until : option Z;
  vc_status : option (quota credential_status);
  vc_proof : option (quota integrity_proof);
}.

(** [VerifiableCredential::default()]. *)
Definition vc_default : vc :=
  VC [] None (QOne "") None None (KString "") (QOne cs_default) None None None None.

(** crates/w3c-vc/src/model/vc.rs 442-452, [VcBuilder::new]. *)
Definition vcb_new : vc :=
  VC [KString "https://www.w3.org/2018/credentials/v1"] None (QOne "VerifiableCredential")
     None None (KString "") (QOne cs_default) None None None None.

(** crates/w3c-vc/src/model/vc.rs 456-459. *)
Definition vcb_add_context (c : kind json) (b : vc) : vc :=
  VC (vc_context b ++ [c]) (vc_id b) (vc_type b) (vc_name b) (vc_description b) (vc_issuer b)
     (vc_subject b) (vc_valid_from b) (vc_valid_until b) (vc_status b) (vc_proof b).
(** crates/w3c-vc/src/model/vc.rs 463-466. *)
Definition vcb_id (i : string) (b : vc) : vc :=
  VC (vc_context b) (Some i) (vc_type b) (vc_name b) (vc_description b) (vc_issuer b)
     (vc_subject b) (vc_valid_from b) (vc_valid_until b) (vc_status b) (vc_proof b).
(** crates/w3c-vc/src/model/vc.rs 470-473. *)
Definition vcb_add_type (t : string) (b : vc) : vc :=
  VC (vc_context b) (vc_id b) (quota_add (vc_type b) t) (vc_name b) (vc_description b)
     (vc_issuer b) (vc_subject b) (vc_valid_from b) (vc_valid_until b) (vc_status b) (vc_proof b).
(** crates/w3c-vc/src/model/vc.rs 477-480. *)
Definition vcb_add_name (n : option lang_string) (b : vc) : vc :=
  VC (vc_context b) (vc_id b) (vc_type b) n (vc_description b) (vc_issuer b)
     (vc_subject b) (vc_valid_from b) (vc_valid_until b) (vc_status b) (vc_proof b).
(** crates/w3c-vc/src/model/vc.rs 484-487. *)
Definition vcb_add_description (d : option lang_string) (b : vc) : vc :=
  VC (vc_context b) (vc_id b) (vc_type b) (vc_name b) d (vc_issuer b)
     (vc_subject b) (vc_valid_from b) (vc_valid_until b) (vc_status b) (vc_proof b).
(** crates/w3c-vc/src/model/vc.rs 491-494. *)
Definition vcb_issuer (i : string) (b : vc) : vc :=
  VC (vc_context b) (vc_id b) (vc_type b) (vc_name b) (vc_description b) (KString i)
     (vc_subject b) (vc_valid_from b) (vc_valid_until b) (vc_status b) (vc_proof b).
(** crates/w3c-vc/src/model/vc.rs 498-515. *)
Definition vcb_add_subject (s : credential_subject) (b : vc) : vc :=
  VC (vc_context b) (vc_id b) (vc_type b) (vc_name b) (vc_description b) (vc_issuer b)
     (match vc_subject b with
      | QOne one => if cs_is_default one then QOne s else QMany [one; s]
      | QMany l => QMany (l ++ [s])
      end)
     (vc_valid_from b) (vc_valid_until b) (vc_status b) (vc_proof b).
(** crates/w3c-vc/src/model/vc.rs 519-531. *)
Definition vcb_add_proof (p : integrity_proof) (b : vc) : vc :=
  VC (vc_context b) (vc_id b) (vc_type b) (vc_name b) (vc_description b) (vc_issuer b)
     (vc_subject b) (vc_valid_from b) (vc_valid_until b) (vc_status b)
     (Some (match vc_proof b with
            | None => QOne p
            | Some (QOne one) => QMany [one; p]
            | Some (QMany l) => QMany (l ++ [p])
            end)).
(** crates/w3c-vc/src/model/vc.rs 535-538. *)
Definition vcb_status (s : option (quota credential_status)) (b : vc) : vc :=
  VC (vc_context b) (vc_id b) (vc_type b) (vc_name b) (vc_description b) (vc_issuer b)
     (vc_subject b) (vc_valid_from b) (vc_valid_until b) s (vc_proof b).

(** crates/w3c-vc/src/model/vc.rs 546-569, [VcBuilder::build]. *)
Definition vcb_build (b : vc) : outcome string vc :=
  if Nat.ltb (length (vc_context b)) 2 then Err "no context set"
  else if Nat.ltb (quota_len (vc_type b)) 2 then Err "no type set"
  else if (match vc_issuer b with KString i => str_is_empty i | KObject _ => false end)
       then Err "no issuer.id set"
  else if (match vc_subject b with QOne s => cs_is_default s | QMany _ => false end)
       then Err "no credential_subject set"
  else Ok b.

(** crates/w3c-vc/src/proof/jose.rs 52-85, [VcClaims]. *)
Record vc_claims : Type := VcClaims {
  vcc_sub : string;
  vcc_nbf : option Z;
  vcc_iss : string;
  vcc_iat : Z;
  vcc_jti : string;
  vcc_exp : option Z;
  vcc_vc : vc;
}.

(** crates/w3c-vc/src/proof/jose.rs 88-109, [VcClaims::from_vc]; [subs[0]] panics on an
    empty list. *)
Definition vc_claims_from {E} (v : vc) (issued_at : Z) : outcome E vc_claims :=
  match (match vc_subject v with QOne s => Some s | QMany l => head l end) with
  | None => Panic "index out of bounds"
  | Some subject =>
      Ok (VcClaims (default "" (cs_id subject)) None
            (match vc_issuer v with KString i => i | KObject i => i end)
            issued_at (default "" (vc_id v)) (option_map timestamp (vc_valid_until v)) v)
  end.

(** crates/w3c-vc/src/model/vp.rs 26-63, [VerifiablePresentation]. *)
Record vp : Type := VP {
  vp_context : list (kind json);
  vp_id : option string;
  vp_type : quota string;
  vp_credential : option (list (kind vc));
  vp_holder : option string;
  vp_proof : option (quota integrity_proof);
}.

(** crates/w3c-vc/src/model/vp.rs 102-110, [VpBuilder::new]; the random UUID is an argument. *)
Definition vpb_new (uuid : string) : vp :=
  VP [KString "https://www.w3.org/2018/credentials/v1"] (Some ("urn:uuid:" +:+ uuid))
     (QOne "VerifiablePresentation") None None None.
(** crates/w3c-vc/src/model/vp.rs 114-117. *)
Definition vpb_add_context (c : kind json) (b : vp) : vp :=
  VP (vp_context b ++ [c]) (vp_id b) (vp_type b) (vp_credential b) (vp_holder b) (vp_proof b).
(** crates/w3c-vc/src/model/vp.rs 121-130. *)
Definition vpb_add_type (t : string) (b : vp) : vp :=
  VP (vp_context b) (vp_id b)
     (QMany ((match vp_type b with QOne x => [x] | QMany l => l end) ++ [t]))
     (vp_credential b) (vp_holder b) (vp_proof b).
(** crates/w3c-vc/src/model/vp.rs 134-141. *)
Definition vpb_add_credential (c : kind vc) (b : vp) : vp :=
  VP (vp_context b) (vp_id b) (vp_type b)
     (Some (match vp_credential b with Some l => l ++ [c] | None => [c] end))
     (vp_holder b) (vp_proof b).
(** crates/w3c-vc/src/model/vp.rs 145-148. *)
Definition vpb_holder (h : string) (b : vp) : vp :=
  VP (vp_context b) (vp_id b) (vp_type b) (vp_credential b) (Some h) (vp_proof b).
(** crates/w3c-vc/src/model/vp.rs 155-164, [VpBuilder::build]. *)
Definition vpb_build (b : vp) : outcome string vp :=
  if Nat.ltb (length (vp_context b)) 2 then Err "context is required"
  else match vp_type b with QOne _ => Err "type is required" | QMany _ => Ok b end.

(** crates/w3c-vc/src/proof/jose.rs 116-146, [VpClaims]. *)
Record vp_claims : Type := VpClaims {
  vpc_iss : string;
  vpc_jti : string;
  vpc_aud : string;
  vpc_nonce : string;
  vpc_nbf : Z;
  vpc_iat : Z;
  vpc_exp : Z;
  vpc_vp : vp;
}.

(** crates/w3c-vc/src/proof/jose.rs 148-166 [From<VerifiablePresentation>] followed by
    crates/w3c-vc/src/proof.rs 104-107 (audience and nonce); the three clock readings
    are the arguments [t1 t2 t3]. *)
Definition vp_claims_from (v : vp) (client_id nonce : string) (t1 t2 t3 : Z) : vp_claims :=
  VpClaims (default "" (vp_holder v)) (default "" (vp_id v)) client_id nonce
    (timestamp t1) (timestamp t2) (timestamp (t3 + seconds 3600)) v.
