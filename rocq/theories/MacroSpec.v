(** What is written between the braces of a request macro, and the request it stands for. *)
From Verif Require Import Base Json MatcherModel JsonParse CoreModel VcModel Prog IssuerTypes SerdeModel MacroModel.

(** [k] is given, and [v] is the last value given for it; nothing but [ks] is given. *)
Definition says (m : mfields) (k : string) (v : mvalue) : Prop := ∃ a b, m = a ++ (k, v) :: b ∧ k ∉ keys b.
Definition unsaid (m : mfields) (k : string) : Prop := k ∉ keys m.
Definition only (ks : list string) (m : mfields) : Prop := ∀ k, k ∈ keys m → k ∈ ks.
Definition required {A} (P : mvalue → A → Prop) (k : string) (m : mfields) (a : A) : Prop := ∃ v, says m k v ∧ P v a.
Definition optional {A} (P : mvalue → A → Prop) (k : string) (m : mfields) (o : option A) : Prop :=
  match o with Some a => required P k m a | None => unsaid m k end.

(** A text: a literal, a [String] or a [&str].  A text of one's own: not a [&str]. *)
Definition a_text (v : mvalue) (s : string) : Prop := v = MStr s ∨ ∃ owned, v = MText owned s.
Definition an_own_text (v : mvalue) (s : string) : Prop := v = MStr s ∨ v = MText true s.
Definition own_list (v : mvalue) (l : list string) : Prop := ∃ vs, v = MArr vs ∧ Forall2 an_own_text vs l.
(** At most one. *)
Definition one_at_most {A} (P : mvalue → A → Prop) (v : mvalue) (l : list A) : Prop :=
  (v = MArr [] ∧ l = []) ∨ ∃ x a, v = MArr [x] ∧ l = [a] ∧ P x a.

(** ** [create_offer_request!] *)
Definition grant_name (g : grant_type) : string :=
  match g with
  | PreAuthorizedCode => "urn:ietf:params:oauth:grant-type:pre-authorized_code"
  | AuthorizationCode => "authorization_code"
  end.
Definition a_send_type (v : mvalue) (t : send_type) : Prop :=
  v = MSend t ∨ ∃ s, an_own_text v s ∧ t = if bool_decide (s = "by_ref") then ByRef else ByVal.
Definition offer_written (imported : bool) (m : mfields) (r : create_offer_request) : Prop :=
  only ["credential_issuer"; "subject_id"; "credential_configuration_ids"; "grant_types"; "tx_code_required"; "send_type"] m ∧
  required a_text "credential_issuer" m (co_credential_issuer r) ∧
  optional a_text "subject_id" m (co_subject_id r) ∧
  required own_list "credential_configuration_ids" m (co_configuration_ids r) ∧ co_configuration_ids r ≠ [] ∧
  optional (one_at_most (λ v g, v = MStr (grant_name g))) "grant_types" m (co_grant_types r) ∧
  (required (λ v b, v = MBool b) "tx_code_required" m (co_tx_code_required r) ∨
   unsaid m "tx_code_required" ∧ co_tx_code_required r = false) ∧
  (required a_send_type "send_type" m (co_send_type r) ∨
   unsaid m "send_type" ∧ imported = true ∧ co_send_type r = ByVal).

(** ** [authorization_request!] *)

(** A claim that has names below it is a set of claims, anything else is a claim. *)
Inductive claim_written : mvalue → claim → Prop :=
| a_claim v : (∀ kv m, v ≠ MObj (kv :: m)) → claim_written v (CEntry None)
| a_set m cs : m ≠ [] → NoDup (keys cs) → (∀ k, k ∈ keys m → k ∈ keys cs) →
    (∀ k c, (k, c) ∈ cs → ∃ v, says m k v ∧ claim_written v c) → claim_written (MObj m) (CSet cs).
Definition claims_written (v : mvalue) (cs : claimset) : Prop :=
  ∃ m, v = MObj m ∧ NoDup (keys cs) ∧ (∀ k, k ∈ keys m → k ∈ keys cs) ∧
    ∀ k c, (k, c) ∈ cs → ∃ v, says m k v ∧ claim_written v c.
(** A type that is a literal must be the right one; what else it is does not matter. *)
Definition type_written (m : mfields) : Prop := ∃ t, says m "type" t ∧ ∀ s, t = MStr s → s = "openid_credential".
Definition definition_written (subject : mvalue → claimset → Prop) (v : mvalue) (d : credential_definition) : Prop :=
  ∃ m, v = MObj m ∧ cd_context d = None ∧ optional own_list "type" m (cd_type d) ∧
    optional subject "credentialSubject" m (cd_subject d).
Definition detail_written (v : mvalue) (d : authorization_detail) : Prop :=
  ∃ m, v = MObj m ∧ type_written m ∧ ad_locations d = None ∧
    match ad_credential d with
    | ByConfigurationId id p =>
        required an_own_text "credential_configuration_id" m id ∧
        optional (λ v p, ∃ d, p = PCW3c d ∧ definition_written claims_written v d) "credential_definition" m p
    | ByFormat (FJwtVcJson d) =>
        unsaid m "credential_configuration_id" ∧ says m "format" (MStr "jwt_vc_json") ∧
        required (definition_written claims_written) "credential_definition" m d ∧ cd_type d ≠ None
    | _ => False
    end.
Definition authorization_names : list string :=
  ["credential_issuer"; "response_type"; "client_id"; "redirect_uri"; "state"; "code_challenge"; "code_challenge_method";
   "authorization_details"; "scope"; "resource"; "subject_id"; "wallet_issuer"; "user_hint"; "issuer_state"].
Definition authorization_written (m : mfields) (r : request_object) : Prop :=
  only authorization_names m ∧
  required a_text "credential_issuer" m (ro_credential_issuer r) ∧
  (∃ s, required a_text "response_type" m s) ∧ ro_response_type r = RTCode ∧
  required a_text "client_id" m (ro_client_id r) ∧
  optional a_text "redirect_uri" m (ro_redirect_uri r) ∧ optional a_text "state" m (ro_state r) ∧
  required a_text "code_challenge" m (ro_code_challenge r) ∧
  (∃ s, required a_text "code_challenge_method" m s) ∧ ro_code_challenge_method r = S256 ∧
  optional (one_at_most detail_written) "authorization_details" m (ro_authorization_details r) ∧
  optional a_text "scope" m (ro_scope r) ∧ (∃ o, optional a_text "resource" m o) ∧
  required a_text "subject_id" m (ro_subject_id r) ∧
  (∃ o, optional a_text "wallet_issuer" m o) ∧ (∃ o, optional a_text "user_hint" m o) ∧
  optional a_text "issuer_state" m (ro_issuer_state r).

(** ** [token_request!] *)
Definition no_claims (v : mvalue) (cs : claimset) : Prop := v = MObj [] ∧ cs = [].
Definition token_detail_written (v : mvalue) (d : authorization_detail) : Prop :=
  ∃ m, v = MObj m ∧ type_written m ∧ ad_locations d = None ∧
    match ad_credential d with
    | ByConfigurationId id p =>
        required an_own_text "credential_configuration_id" m id ∧ unsaid m "credential_definition" ∧ p = None
    | ByFormat (FJwtVcJson d) =>
        unsaid m "credential_configuration_id" ∧ says m "format" (MStr "jwt_vc_json") ∧
        required (definition_written no_claims) "credential_definition" m d ∧ cd_type d ≠ None
    | _ => False
    end.
Definition grant_names (g : token_grant) : list string :=
  match g with
  | TGPreAuthorizedCode _ _ => ["pre-authorized_code"; "tx_code"]
  | TGAuthorizationCode _ _ _ => ["code"; "redirect_uri"; "code_verifier"]
  end.
Definition token_written (m : mfields) (r : token_request) : Prop :=
  only (["credential_issuer"; "client_id"; "grant_type"; "authorization_details"] ++ grant_names (tr_grant r)) m ∧
  required a_text "credential_issuer" m (tr_credential_issuer r) ∧ optional a_text "client_id" m (tr_client_id r) ∧
  match tr_grant r with
  | TGPreAuthorizedCode code tx =>
      says m "grant_type" (MStr "urn:ietf:params:oauth:grant-type:pre-authorized_code") ∧
      required a_text "pre-authorized_code" m code ∧ optional a_text "tx_code" m tx
  | TGAuthorizationCode code uri verifier =>
      says m "grant_type" (MStr "authorization_code") ∧
      required a_text "code" m code ∧ optional a_text "redirect_uri" m uri ∧
      ∃ v, verifier = Some v ∧ required a_text "code_verifier" m v
  end ∧
  optional (one_at_most token_detail_written) "authorization_details" m (tr_authorization_details r).

(** ** [credential_request!] *)
Definition type_of_definition (v : mvalue) (d : credential_definition) : Prop :=
  ∃ m ts, v = MObj m ∧ required own_list "type" m ts ∧ d = CredentialDefinition None (Some ts) None.
Definition proof_written (v : mvalue) (p : key_proof) : Prop :=
  ∃ m jwt, v = MObj m ∧ says m "proof_type" (MStr "jwt") ∧ required a_text "jwt" m jwt ∧ p = PSingle jwt.
Definition credential_names (c : credential_issuance) : list string :=
  match c with CIIdentifier _ => ["credential_identifier"] | CIFormat _ => ["format"; "credential_definition"] end.
Definition credential_written (m : mfields) (r : credential_request) : Prop :=
  only (["credential_issuer"; "access_token"; "proof"] ++ credential_names (cr_credential r)) m ∧
  required a_text "credential_issuer" m (cr_credential_issuer r) ∧ required a_text "access_token" m (cr_access_token r) ∧
  match cr_credential r with
  | CIIdentifier id => required a_text "credential_identifier" m id
  | CIFormat (FJwtVcJson d) =>
      says m "format" (MStr "jwt_vc_json") ∧ required type_of_definition "credential_definition" m d
  | CIFormat _ => False
  end ∧
  optional proof_written "proof" m (cr_proof r).

(** ** The same as JSON *)
Fixpoint as_json (v : mvalue) : json :=
  match v with
  | MBool b => JBool b
  | MNum z => ser_int z
  | MStr s | MText _ s => JStr s
  | MArr l => JArr (map as_json l)
  | MObj m => JObj ((fix go (m : list (string * mvalue)) :=
      match m with [] => [] | (k, v) :: r => (k, as_json v) :: go r end) m)
  | MSend t => ser_send_type t
  end.
(** Nothing is given twice. *)
Inductive unrepeated : mvalue → Prop :=
| once_array l : (∀ v, v ∈ l → unrepeated v) → unrepeated (MArr l)
| once_object m : NoDup (keys m) → (∀ k v, (k, v) ∈ m → unrepeated v) → unrepeated (MObj m)
| once_else v : (∀ l, v ≠ MArr l) → (∀ m, v ≠ MObj m) → unrepeated v.
(** Claims without anything said about them. *)
Inductive plain_claim : mvalue → Prop :=
| plain m : (∀ k v, (k, v) ∈ m → k ∉ ["mandatory"; "value_type"; "display"] ∧ plain_claim v) → plain_claim (MObj m).
(** An authorization detail of the right type, without locations, and without context and
    properties of claims in its definition. *)
Definition plain_definition (v : mvalue) : Prop :=
  ∃ m, v = MObj m ∧ unsaid m "@context" ∧
    ∀ c, says m "credentialSubject" c → ∃ cs, c = MObj cs ∧ ∀ k v, (k, v) ∈ cs → plain_claim v.
Definition plain_detail (v : mvalue) : Prop :=
  ∃ m, v = MObj m ∧ (∃ t, says m "type" t ∧ a_text t "openid_credential") ∧ unsaid m "locations" ∧ unsaid m "claims" ∧
    ∀ d, says m "credential_definition" d → plain_definition d.
Definition plain_details (m : mfields) : Prop :=
  ∀ l, says m "authorization_details" (MArr l) → ∀ v, v ∈ l → plain_detail v.
