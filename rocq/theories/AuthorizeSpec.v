(** Vocabulary for the statements about authorization.  As in IssuerSpec.v, nothing here
    refers to the model of the endpoints. *)
From Verif Require Import Base Json CoreModel VcModel Prog ExecSpec IssuerTypes IssuerSpec.

(** ** Claims *)

(** [claim_at cs p c]: the claim at path [p] of [cs], at any depth, is [c]. *)
Inductive claim_at : claimset → list string → claim → Prop :=
| claim_here cs k c : (k, c) ∈ cs → claim_at cs [k] c
| claim_below cs k l p c : (k, CSet l) ∈ cs → claim_at l p c → claim_at cs (k :: p) c.

(** What is requested at path [p]. *)
Fixpoint claim_lookup (cs : claimset) (p : list string) : option claim :=
  match p with
  | [] => None
  | [k] => assoc k cs
  | k :: p => match assoc k cs with Some (CSet l) => claim_lookup l p | _ => None end
  end.

(** All mandatory claims are requested, and no claim that has parts is requested as one
    that has none. *)
Definition claims_complete (supported requested : claimset) : Prop :=
  (∀ p, claim_at supported p (CEntry (Some true)) → is_Some (claim_lookup requested p)) ∧
  (∀ p l m, claim_at supported p (CSet l) → claim_lookup requested p ≠ Some (CEntry m)).

(** ** Requested credentials *)

(** The claims that the detail asks for, when it narrows them. *)
Definition narrowed (d : authorization_detail) : option claimset :=
  match ad_credential d with
  | ByConfigurationId _ (Some (PCW3c def)) => cd_subject def
  | ByConfigurationId _ (Some (PCIsoMdl cs)) | ByConfigurationId _ (Some (PCSdJwt cs)) => Some cs
  | ByConfigurationId _ None => None
  | ByFormat (FJwtVcJson def) | ByFormat (FJwtVcJsonLd def) | ByFormat (FLdpVc def) => cd_subject def
  | ByFormat (FIsoMdl _ cs) | ByFormat (FVcSdJwt _ cs) => cs
  end.

(** The configuration that the detail asks for: the one it names, or the first of the
    metadata that has the format. *)
Definition configured (iss : issuer) (d : authorization_detail) (id : string) : Prop :=
  match ad_credential d with
  | ByConfigurationId id' _ => id = id'
  | ByFormat f => ∃ l1 cfg l2, is_configurations iss = l1 ++ (id, cfg) :: l2 ∧
      same_format (cc_format cfg) f ∧ ∀ p, p ∈ l1 → ¬ same_format (cc_format p.2) f
  end.

Definition acceptable (iss : issuer) (d : authorization_detail) : Prop :=
  ∃ id, configured iss d id ∧
    ∀ cs, narrowed d = Some cs → ∃ cfg, assoc id (is_configurations iss) = Some cfg ∧
      ∀ sup, format_claims (cc_format cfg) = Some sup → claims_complete sup cs.

(** The request asks for the configuration by a detail. *)
Definition by_detail (iss : issuer) (r : request_object) (id : string) : Prop :=
  ∃ ds d, ro_authorization_details r = Some ds ∧ d ∈ ds ∧ configured iss d id.
(** The request asks for the configuration by the first word of its scope. *)
Definition by_scope (iss : issuer) (r : request_object) (id item : string) : Prop :=
  ∃ s rest cfg, ro_scope r = Some s ∧ split_whitespace s = item :: rest ∧
    (id, cfg) ∈ is_configurations iss ∧ cc_scope cfg = Some item ∧ ¬ by_detail iss r id.

(** A request that the metadata of client, server and issuer allow. *)
Record authorization_valid (iss : issuer) (cl : client) (srv : server) (r : request_object) : Prop := {
  av_response_type : ro_response_type r ∈ sv_response_types_supported srv ∧
    ro_response_type r ∈ default [] (cl_response_types cl);
  av_scopes : ∃ sc sup, cl_scope cl = Some sc ∧ sv_scopes_supported srv = Some sup ∧
    ∀ x, x ∈ split_whitespace sc → x ∈ sup;
  av_grant : AuthorizationCode ∈ default [] (cl_grant_types cl) ∧
    AuthorizationCode ∈ default [] (sv_grant_types_supported srv);
  av_subject : ro_subject_id r ≠ "";
  av_requested : ∃ id, by_detail iss r id ∨ ∃ item, by_scope iss r id item;
  av_details : ∀ ds d, ro_authorization_details r = Some ds → d ∈ ds → acceptable iss d;
  av_scope : ∀ s item rest, ro_scope r = Some s → split_whitespace s = item :: rest →
    ∃ id, by_scope iss r id item;
  av_redirect : ∃ u us, ro_redirect_uri r = Some u ∧ cl_redirect_uris cl = Some us ∧ u ∈ us;
  av_method : ro_code_challenge_method r ∈ default [] (sv_code_challenge_methods_supported srv);
  av_challenge : 43 ≤ String.length (ro_code_challenge r) ≤ 128;
}.

(** The request that [a] makes, after the calls [h0]: itself, or the one that was pushed
    under the reference, unless that has expired. *)
Definition request_object_of (a : authorization_request) (h0 : list ievent) (r : request_object) : Prop :=
  match a with
  | ARObject r' => h0 = [] ∧ r = r'
  | ARUri u => ∃ st exp t, h0 = [Get u (Some st); X (VNow t)] ∧
      s_stage st = PushedAuthorization r exp ∧ (t ≤ exp)%Z
  end.
Definition pushed (a : authorization_request) : Prop :=
  match a with ARObject _ => False | ARUri _ => True end.

(** The linked offer is there, has not expired and is for the subject. *)
Definition offer_linked (r : request_object) (es : list ievent) : Prop :=
  ∀ k, ro_issuer_state r = Some k → ∃ st t es', es = Get k (Some st) :: X (VNow t) :: es' ∧
    live st t ∧ s_subject_id st = Some (ro_subject_id r).

(** The items saved with the authorization code: one for each configuration asked for, with
    the identifiers the provider answered for the subject. *)
Record items_for (iss : issuer) (r : request_object) (es : list ievent)
    (items : list authorized_item) : Prop := {
  if_configurations : ∀ id, id ∈ map ai_configuration_id items ↔
    (by_detail iss r id ∨ ∃ item, by_scope iss r id item);
  if_once : NoDup (keys (is_configurations iss)) → NoDup (map ai_configuration_id items);
  if_identifiers : ∀ it, it ∈ items →
    X (VAuthorize (ro_subject_id r) (ai_configuration_id it) (Some (ai_identifiers it))) ∈ es;
  if_items : ∀ it, it ∈ items →
    match ai_item it with
    | ItemDetail d => configured iss d (ai_configuration_id it) ∧
        ∃ ds, ro_authorization_details r = Some ds ∧ d ∈ ds
    | ItemScope item => by_scope iss r (ai_configuration_id it) item
    end;
}.

(** ** Keys *)

(** The store keys that a request names. *)
Definition request_keys (q : irequest) : list string :=
  match q with
  | QCredentialOffer r => [cof_id r]
  | QAuthorize (ARUri u) => [u]
  | QAuthorize (ARObject r) | QPar r => option_list (ro_issuer_state r)
  | QToken r => [presented r]
  | QCredential r => [cr_access_token r]
  | QDeferred r => [dr_transaction_id r; dr_access_token r]
  | QNotification r => [nr_notification_id r]
  | QRegister r => [rr_access_token r]
  | QCreateOffer _ | QMetadata _ | QOauthServer _ _ => []
  end.
(** The store keys that a state records: the access token of a token, the offer linked to a
    pushed request. *)
Definition state_keys (st : state) : list string :=
  match s_stage st with
  | Validated tok => [tk_access_token tok]
  | PushedAuthorization r _ => option_list (ro_issuer_state r)
  | _ => []
  end.
(** [k] is the request's own: named in it, recorded in a state that it read, or made from a
    value it generated. *)
Definition own_key (q : irequest) (h : list ievent) (k : string) : Prop :=
  k ∈ request_keys q ∨
  (∃ k' st, Get k' (Some st) ∈ h ∧ k ∈ state_keys st) ∨
  (∃ g s, X (VGen g s) ∈ h ∧ (k = s ∨ k = "urn:ietf:params:oauth:request_uri:" +:+ s)).
Definition touched (e : ievent) : option string :=
  match e with
  | EGet k _ | EPut k _ _ _ | EPurge k _ => Some k
  | EExt _ => None
  end.

(** ** Panics, errors and policies *)

(** The formats the credential endpoint has no code for. *)
Definition unimplemented (f : format) : Prop :=
  match f with FJwtVcJsonLd _ | FLdpVc _ | FVcSdJwt _ _ => True | FJwtVcJson _ | FIsoMdl _ _ => False end.

(** The metadata that make an endpoint panic. *)
Definition panic_cause (q : irequest) (es : list ievent) : Prop :=
  match q with
  | QCreateOffer r => ∃ iss, X (VIssuer (co_credential_issuer r) (Some iss)) ∈ es ∧
      is_authorization_servers iss = Some []
  | QCredential r => ∃ iss id cfg, X (VIssuer (cr_credential_issuer r) (Some iss)) ∈ es ∧
      (id, cfg) ∈ is_configurations iss ∧ unimplemented (cc_format cfg)
  | QDeferred r => ∃ iss id cfg, X (VIssuer (dr_credential_issuer r) (Some iss)) ∈ es ∧
      (id, cfg) ∈ is_configurations iss ∧ unimplemented (cc_format cfg)
  | _ => False
  end.

(** Errors that come with a new nonce, or from the store. *)
Definition renewing (e : error) : Prop :=
  match e with
  | InvalidProof _ _ _ => True
  | ServerError s => s = "issue saving state"
  | _ => False
  end.

(** The server requires pushed requests, throughout the execution. *)
Definition par_required (c : config ISig irequest (outcome error ireply)) : Prop :=
  ∀ en ci i srv, en ∈ c_log c → e_ev en = X (VServer ci i (Some srv)) → sv_require_par srv = Some true.
