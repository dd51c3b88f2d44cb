(** vercre-holder: the wallet's issuance endpoints (offer, accept, pin, token, authorize,
    credentials, deferred, save, cancel) and presentation endpoints (request, authorize,
    present), with the records they keep between calls. *)
From Verif Require Import Base Json CoreModel VcModel Prog Sha256 IssuerTypes MatcherModel VerifierModel.

(** ** Types *)

(** vercre-holder/src/issuance.rs 142-175, [Status]. *)
Inductive issuance_status : Type :=
| SInactive | SOffered | SReady | SPendingPin | SAccepted | STokenReceived | SRequested
| SFailed (e : string).
Global Instance issuance_status_eq : EqDecision issuance_status.
Proof. solve_decision. Defined.

(** vercre-holder/src/credential.rs 15-45, [Credential].  The issuance date is the number of
    seconds in the credential's [iat]; a logo is a string. *)
Record wcredential : Type := WCredential {
  wc_id : string;
  wc_issuer : string;
  wc_vc : vc;
  wc_issued : string;
  wc_issuance_date : Z;
  wc_display : option (list credential_display);
  wc_logo : option string;
}.

(** vercre-holder/src/issuance.rs 39-93, [Issuance]. *)
Record issuance : Type := Issuance {
  hi_id : string;
  hi_client_id : string;
  hi_subject_id : string;
  hi_status : issuance_status;
  hi_offer : credential_offer;
  hi_issuer : issuer;
  hi_server : server;
  hi_accepted : option (list authorization_detail);
  hi_pin : option string;
  hi_code_verifier : option string;
  hi_code_challenge : option string;
  hi_token : token_response;
  hi_scope : option string;
  hi_deferred : list (string * string);
  hi_notification_id : option string;
  hi_credentials : list wcredential;
}.

(** Assignments to fields of an [Issuance]. *)
Definition set_status (s : issuance_status) (i : issuance) : issuance :=
  Issuance (hi_id i) (hi_client_id i) (hi_subject_id i) s (hi_offer i) (hi_issuer i) (hi_server i)
    (hi_accepted i) (hi_pin i) (hi_code_verifier i) (hi_code_challenge i) (hi_token i) (hi_scope i)
    (hi_deferred i) (hi_notification_id i) (hi_credentials i).
Definition set_accepted (a : option (list authorization_detail)) (i : issuance) : issuance :=
  Issuance (hi_id i) (hi_client_id i) (hi_subject_id i) (hi_status i) (hi_offer i) (hi_issuer i) (hi_server i)
    a (hi_pin i) (hi_code_verifier i) (hi_code_challenge i) (hi_token i) (hi_scope i)
    (hi_deferred i) (hi_notification_id i) (hi_credentials i).
Definition set_pin (p : string) (i : issuance) : issuance :=
  Issuance (hi_id i) (hi_client_id i) (hi_subject_id i) (hi_status i) (hi_offer i) (hi_issuer i) (hi_server i)
    (hi_accepted i) (Some p) (hi_code_verifier i) (hi_code_challenge i) (hi_token i) (hi_scope i)
    (hi_deferred i) (hi_notification_id i) (hi_credentials i).
Definition set_pkce (verifier challenge : string) (i : issuance) : issuance :=
  Issuance (hi_id i) (hi_client_id i) (hi_subject_id i) (hi_status i) (hi_offer i) (hi_issuer i) (hi_server i)
    (hi_accepted i) (hi_pin i) (Some verifier) (Some challenge) (hi_token i) (hi_scope i)
    (hi_deferred i) (hi_notification_id i) (hi_credentials i).
Definition set_token (t : token_response) (i : issuance) : issuance :=
  Issuance (hi_id i) (hi_client_id i) (hi_subject_id i) (hi_status i) (hi_offer i) (hi_issuer i) (hi_server i)
    (hi_accepted i) (hi_pin i) (hi_code_verifier i) (hi_code_challenge i) t (hi_scope i)
    (hi_deferred i) (hi_notification_id i) (hi_credentials i).
Definition set_deferred (d : list (string * string)) (i : issuance) : issuance :=
  Issuance (hi_id i) (hi_client_id i) (hi_subject_id i) (hi_status i) (hi_offer i) (hi_issuer i) (hi_server i)
    (hi_accepted i) (hi_pin i) (hi_code_verifier i) (hi_code_challenge i) (hi_token i) (hi_scope i)
    d (hi_notification_id i) (hi_credentials i).
Definition set_credentials (l : list wcredential) (i : issuance) : issuance :=
  Issuance (hi_id i) (hi_client_id i) (hi_subject_id i) (hi_status i) (hi_offer i) (hi_issuer i) (hi_server i)
    (hi_accepted i) (hi_pin i) (hi_code_verifier i) (hi_code_challenge i) (hi_token i) (hi_scope i)
    (hi_deferred i) (hi_notification_id i) l.

(** vercre-holder/src/presentation.rs 51-67, [Status]. *)
Inductive presentation_status : Type :=
| PInactive | PRequested | PAuthorized | PFailed (e : string).
Global Instance presentation_status_eq : EqDecision presentation_status.
Proof. solve_decision. Defined.

(** vercre-holder/src/presentation.rs 26-49, [Presentation].  The submission, which is never
    saved with a value, is left out. *)
Record presentation : Type := Presentation {
  hp_id : string;
  hp_status : presentation_status;
  hp_request : vp_request;
  hp_credentials : list wcredential;
  hp_filter : constraints;
}.

(** What the state store holds: an issuance or a presentation.  Reading one as the other
    fails to deserialize. *)
Inductive hstate : Type := HSIssuance (i : issuance) | HSPresentation (p : presentation).

(** Answers of the issuer: crates/openid/src/issuer.rs 1283-1325, [CredentialResponse] and
    [CredentialResponseType]. *)
Inductive wresponse_type : Type :=
| WRCredential (c : kind vc)
| WRCredentials (l : list (kind vc))
| WRTransactionId (id : string).
Record wresponse : Type := WResponse {
  wr_response : wresponse_type;
  wr_c_nonce : option string;
  wr_c_nonce_expires_in : option Z;
  wr_notification_id : option string;
}.

(** crates/openid/src/issuer.rs 1236-1253, [ProofClaims]. *)
Record proof_claims : Type := ProofClaims {
  pc_iss : option string;
  pc_aud : string;
  pc_iat : Z;
  pc_nonce : option string;
}.

(** crates/openid/src/issuer.rs 2070-2083, [NotificationEvent]. *)
Inductive notification_event : Type := CredentialAccepted | CredentialFailure | CredentialDeleted.

(** ** Provider calls other than the store: random values, the clock, the traits of
    [HolderProvider] (vercre-holder/src/provider.rs), and decoding.

    [ZVerifyVc] is [jws::decode] of a credential with [verify_key!]; [ZParseRequest] and
    [ZDecodeUrl] are pure ([urlencode::from_str], [urlencoding::decode]) and may give any
    answer here.  [ZLogo d] asks for the logo of a display; [None] if it has none, or if the
    call fails. *)
Inductive hcall : Type :=
| ZUuid
| ZVerifier
| ZNow
| ZMetadata (issuer : string)
| ZServer (issuer : string)
| ZAuthorization (r : request_object)
| ZToken (r : token_request)
| ZCredential (r : credential_request)
| ZDeferred (r : deferred_request)
| ZNotify (r : notification_request) (e : notification_event)
| ZLogo (d : credential_display)
| ZSignProof (c : proof_claims)
| ZVerifyVc (jwt : string)
| ZSave (c : wcredential)
| ZFind (f : constraints)
| ZDecodeUrl (u : string)
| ZParseRequest (u : string)
| ZRequestObject (u : string)
| ZDecodeRequest (jwt : string)
| ZKid
| ZSignVp (c : vp_claims)
| ZPresent (uri : option string) (r : response_request).
Definition hans (x : hcall) : Type :=
  match x with
  | ZUuid | ZVerifier | ZKid => string
  | ZNow => Z
  | ZMetadata _ => option issuer
  | ZServer _ => option server
  | ZAuthorization _ => option authorization_response
  | ZToken _ => option token_response
  | ZCredential _ | ZDeferred _ => option wresponse
  | ZNotify _ _ | ZSave _ => bool
  | ZLogo _ | ZSignProof _ | ZSignVp _ | ZDecodeUrl _ => option string
  | ZVerifyVc _ => option (vc * Z)
  | ZFind _ => option (list wcredential)
  | ZParseRequest _ | ZDecodeRequest _ => option vp_request
  | ZRequestObject _ => option request_object_response
  | ZPresent _ _ => option response_response
  end.
Inductive hev : Type :=
| EUuid (s : string)
| EVerifier (s : string)
| ENow (t : Z)
| EMetadata (issuer : string) (r : option IssuerTypes.issuer)
| EServer (issuer : string) (r : option server)
| EAuthorization (q : request_object) (r : option authorization_response)
| EToken (q : token_request) (r : option token_response)
| ECredential (q : credential_request) (r : option wresponse)
| EDeferred (q : deferred_request) (r : option wresponse)
| ENotify (q : notification_request) (e : notification_event) (r : bool)
| ELogo (d : credential_display) (r : option string)
| ESignProof (c : proof_claims) (r : option string)
| EVerifyVc (jwt : string) (r : option (vc * Z))
| ESave (c : wcredential) (r : bool)
| EFind (f : constraints) (r : option (list wcredential))
| EDecodeUrl (u : string) (r : option string)
| EParseRequest (u : string) (r : option vp_request)
| ERequestObject (u : string) (r : option request_object_response)
| EDecodeRequest (jwt : string) (r : option vp_request)
| EKid (s : string)
| ESignVp (c : vp_claims) (r : option string)
| EPresent (uri : option string) (q : response_request) (r : option response_response).
Definition hmk (x : hcall) : hans x → hev :=
  match x return hans x → hev with
  | ZUuid => EUuid
  | ZVerifier => EVerifier
  | ZNow => ENow
  | ZMetadata i => EMetadata i
  | ZServer i => EServer i
  | ZAuthorization q => EAuthorization q
  | ZToken q => EToken q
  | ZCredential q => ECredential q
  | ZDeferred q => EDeferred q
  | ZNotify q e => ENotify q e
  | ZLogo d => ELogo d
  | ZSignProof c => ESignProof c
  | ZVerifyVc t => EVerifyVc t
  | ZSave c => ESave c
  | ZFind f => EFind f
  | ZDecodeUrl u => EDecodeUrl u
  | ZParseRequest u => EParseRequest u
  | ZRequestObject u => ERequestObject u
  | ZDecodeRequest t => EDecodeRequest t
  | ZKid => EKid
  | ZSignVp c => ESignVp c
  | ZPresent u q => EPresent u q
  end.
Definition HSig : sig := Sig hstate hcall hans hev hmk.
Notation hevent := (event HSig).
Definition hprog (A : Type) : Type := prog HSig (outcome string A).
Definition zcall (x : hcall) : hprog (hans x) := @ext HSig string x.
Definition hget (k : string) : hprog (option hstate) := @get HSig string k.
Definition hput (k : string) (v : hstate) (exp : Z) : hprog unit :=
  @put HSig string k v exp "state store".
Definition hpurge (k : string) : hprog unit := @purge HSig string k "state store".
(** A call whose failure is passed on ([?]). *)
Definition ztry {A} (m : hprog (option A)) (e : string) : hprog A :=
  let! r := m in of_opt r e.

(** [DateTime::<Utc>::MAX_UTC] (chrono). *)
Definition max_utc : Z := (8210266876799 * nanos + 999999999)%Z.
(** [DateTime::from_timestamp] (chrono) accepts these seconds. *)
Definition timestamp_ok (s : Z) : bool := Z.leb (-8334601228800)%Z s && Z.leb s 8210266876799%Z.

(** [StateStore::get::<Issuance>] and [StateStore::put] of an issuance. *)
Definition get_issuance (id : string) : hprog issuance :=
  let! r := hget id in
  of_opt (match r with Some (HSIssuance i) => Some i | _ => None end) "state store".
Definition put_issuance (i : issuance) : hprog unit := hput (hi_id i) (HSIssuance i) max_utc.

(** ** issuance.rs *)

(** 98-106, [Issuance::new] over the derived [Default]. *)
Definition issuance_new (id client_id subject_id : string) : issuance :=
  Issuance id client_id subject_id SInactive (CredentialOffer "" [] None) (Issuer "" None [])
    (Server None [] None None None false) None None None None (TokenResponse "" 0 None None None)
    None [] None [].

(** 114-133, [set_issuer]; the two pieces of metadata. *)
Definition fetch_issuer (credential_issuer : string) : hprog (issuer * server) :=
  let! md := ztry (zcall (ZMetadata credential_issuer)) "metadata" in
  let! srv := ztry (zcall (ZServer credential_issuer)) "oauth_server" in
  ok (md, srv).

(** ** issuance/offer.rs *)

(** 43-57, [OfferResponse]. *)
Record offer_response : Type := OfferResponse {
  or_issuance_id : string;
  or_issuer : string;
  or_offered : list (string * credential_configuration);
  or_grants : option grants;
}.

(** 127-139: the supported configurations that are on offer. *)
Fixpoint offered_configs (supported : list (string * credential_configuration)) (ids : list string)
    (acc : list (string * credential_configuration)) : option (list (string * credential_configuration)) :=
  match ids with
  | [] => Some acc
  | id :: rest =>
      match assoc id supported with
      | Some c => offered_configs supported rest (ainsert id c acc)
      | None => None
      end
  end.

(** 66-151, [offer]. *)
Definition h_offer (client_id subject_id : string) (o : credential_offer) : hprog offer_response :=
  ensure (match of_configuration_ids o with [] => false | _ => true end) "no credential IDs" ;;
  let! id := zcall ZUuid in
  let! ms := fetch_issuer (of_credential_issuer o) in
  let md := ms.1 in
  let srv := ms.2 in
  let new := issuance_new id client_id subject_id in
  let i := Issuance id client_id subject_id SReady o md srv (hi_accepted new) (hi_pin new)
             (hi_code_verifier new) (hi_code_challenge new) (hi_token new) (hi_scope new) (hi_deferred new)
             (hi_notification_id new) (hi_credentials new) in
  put_issuance i ;;
  let! offered := of_opt (offered_configs (is_configurations md) (of_configuration_ids o) [])
      "unsupported credential type in offer" in
  ok (OfferResponse id (of_credential_issuer o) offered (of_grants o)).

(** ** issuance/accept.rs *)

(** 29-38, [AuthorizationSpec]. *)
Record auth_spec : Type := AuthSpec {
  as_configuration_id : string;
  as_claims : option claimset;
}.

(** 124-138: the claims asked for, in the shape the format wants. *)
Definition claims_for (f : format) (c : claimset) : profile_claims :=
  match f with
  | FJwtVcJson _ | FJwtVcJsonLd _ | FLdpVc _ => PCW3c (CredentialDefinition None None (Some c))
  | FIsoMdl _ _ => PCIsoMdl c
  | FVcSdJwt _ _ => PCSdJwt c
  end.

(** 117-151, the loop of [narrow_scope]; [None] is the error. *)
Fixpoint narrow_specs (supported : list (string * credential_configuration)) (l : list auth_spec)
  : option (list authorization_detail) :=
  match l with
  | [] => Some []
  | s :: rest =>
      match as_claims s with
      | None =>
          match narrow_specs supported rest with
          | Some ds => Some (AuthorizationDetail (ByConfigurationId (as_configuration_id s) None) None :: ds)
          | None => None
          end
      | Some c =>
          match assoc (as_configuration_id s) supported with
          | None => None
          | Some cfg =>
              match narrow_specs supported rest with
              | Some ds =>
                  Some (AuthorizationDetail (ByConfigurationId (as_configuration_id s)
                          (Some (claims_for (cc_format cfg) c))) None :: ds)
              | None => None
              end
          end
      end
  end.

(** 109-156, [narrow_scope]. *)
Definition narrow_scope (supported : list (string * credential_configuration)) (accept : option (list auth_spec))
  : option (option (list authorization_detail)) :=
  match accept with
  | None => Some None
  | Some l => option_map Some (narrow_specs supported l)
  end.

(** The offer asks for a transaction code (94-100). *)
Definition needs_pin (o : credential_offer) : bool :=
  match of_grants o with
  | Some g => match gr_pre_authorized_code g with
              | Some p => match pg_tx_code p with Some _ => true | None => false end
              | None => false
              end
  | None => false
  end.

(** 60-107, [accept]. *)
Definition h_accept (issuance_id : string) (accept : option (list auth_spec)) : hprog string :=
  let! i := get_issuance issuance_id in
  ensure (bool_decide (hi_status i = SReady)) "invalid issuance state" ;;
  ensure (match accept with Some [] => false | _ => true end)
    "if accept is provided it cannot be empty" ;;
  let! a := of_opt (narrow_scope (is_configurations (hi_issuer i)) accept)
      "credential configuration accepted not found in offer" in
  let i := set_status (if needs_pin (hi_offer i) then SPendingPin else SAccepted) (set_accepted a i) in
  put_issuance i ;;
  ok (hi_id i).

(** ** issuance/pin.rs 30-58, [pin]. *)
Definition h_pin (issuance_id p : string) : hprog string :=
  let! i := get_issuance issuance_id in
  ensure (bool_decide (hi_status i = SPendingPin)) "invalid issuance state" ;;
  let i := set_status SAccepted (set_pin p i) in
  put_issuance i ;;
  ok (hi_id i).

(** ** issuance/token.rs *)

(** 23-32, [AuthorizedCredentials]. *)
Record authorized_credentials : Type := AuthorizedCredentials {
  ac_issuance_id : string;
  ac_authorized : option (list (string * list string));
}.

(** The pre-authorized grant of an offer (58-62, 102-107). *)
Definition pre_authorized (o : credential_offer) : option pre_authorized_code_grant :=
  match of_grants o with Some g => gr_pre_authorized_code g | None => None end.

(** The configuration an authorized detail stands for (131-141; credentials.rs 136-150). *)
Definition detail_configuration (iss : issuer) (d : authorized_detail) : option string :=
  match ad_credential (atd_detail d) with
  | ByConfigurationId id _ => Some id
  | ByFormat f => configuration_id_for iss f
  end.

(** 126-146, [authorized_credentials]. *)
Fixpoint authorized_map (iss : issuer) (l : list authorized_detail) (acc : list (string * list string))
  : option (list (string * list string)) :=
  match l with
  | [] => Some acc
  | d :: rest =>
      match detail_configuration iss d with
      | Some id => authorized_map iss rest (ainsert id (atd_identifiers d) acc)
      | None => None
      end
  end.

(** 44-97, [token], with 100-120, [token_request]. *)
Definition h_token (issuance_id : string) : hprog authorized_credentials :=
  let! i := get_issuance issuance_id in
  let! g := of_opt (if bool_decide (hi_status i = SAccepted) then pre_authorized (hi_offer i) else None)
      "invalid issuance state. Must be pre-authorized and accepted" in
  let! tok := ztry (zcall (ZToken (TokenRequest (is_credential_issuer (hi_issuer i)) (Some (hi_client_id i))
                (TGPreAuthorizedCode (pg_code g) (hi_pin i)) (hi_accepted i)))) "token" in
  let i := set_status STokenReceived (set_token tok i) in
  let! authorized :=
    match trs_authorization_details tok with
    | None => ok None
    | Some l => let! m := of_opt (authorized_map (hi_issuer i) l []) "credential_configuration_id" in ok (Some m)
    end in
  put_issuance i ;;
  ok (AuthorizedCredentials (hi_id i) authorized).

(** ** issuance/authorize.rs *)

(** 28-83, [AuthorizeRequest] and [Initiator]. *)
Inductive initiator : Type :=
| ByWallet (client_id issuer : string) (scope : option string) (subject_id : string)
| ByIssuer (issuance_id : string).
Record authorize_request : Type := AuthorizeRequest {
  hz_initiator : initiator;
  hz_redirect_uri : option string;
  hz_details : option (list authorization_detail);
}.

(** 111-134: the offer, or without grants the server, allows the authorization code flow. *)
Definition allows_code (i : issuance) : option bool :=
  match of_grants (hi_offer i) with
  | Some g => Some (match gr_authorization_code g with Some _ => true | None => false end)
  | None => option_map (λ l, contains l AuthorizationCode) (sv_grant_types_supported (hi_server i))
  end.

(** 103-169: the issuance to continue, or a new one. *)
Definition start_authorize (r : authorize_request) : hprog issuance :=
  match hz_initiator r with
  | ByIssuer id =>
      let! i := get_issuance id in
      let! b := of_opt (allows_code i) "no grants in offer is not supported" in
      ensure (b && bool_decide (hi_status i = SAccepted))
        "invalid issuance state. Must be accepted and support authorization issuance flow" ;;
      ok i
  | ByWallet client_id iss scope subject_id =>
      ensure (negb (match hz_details r, scope with Some _, Some _ => true | _, _ => false end))
        "wallet-initiated issuance should use authorization details or scope, not both" ;;
      let! id := zcall ZUuid in
      let! ms := fetch_issuer iss in
      let new := issuance_new id client_id subject_id in
      ok (Issuance id client_id subject_id (hi_status new) (hi_offer new) ms.1 ms.2 (hi_accepted new) (hi_pin new)
            (hi_code_verifier new) (hi_code_challenge new) (hi_token new) scope (hi_deferred new)
            (hi_notification_id new) (hi_credentials new))
  end.

(** 314-340: details for everything on offer. *)
Fixpoint offered_details (supported : list (string * credential_configuration)) (ids : list string)
  : option (list authorization_detail) :=
  match ids with
  | [] => Some []
  | id :: rest =>
      match assoc id supported with
      | None => None
      | Some c =>
          match offered_details supported rest with
          | None => None
          | Some ds =>
              Some (AuthorizationDetail (ByConfigurationId id
                      (option_map (claims_for (cc_format c)) (format_claims (cc_format c)))) None :: ds)
          end
      end
  end.

(** 305-341, [authorization_details]. *)
Definition wanted_details (i : issuance) (r : authorize_request) : option (list authorization_detail) :=
  match hi_accepted i with
  | Some l => Some l
  | None =>
      match hz_initiator r with
      | ByWallet _ _ _ _ => None
      | ByIssuer _ => offered_details (is_configurations (hi_issuer i)) (of_configuration_ids (hi_offer i))
      end
  end.

Definition initiator_scope (r : authorize_request) : option string :=
  match hz_initiator r with ByIssuer _ => None | ByWallet _ _ scope _ => scope end.

(** 225-284, [authorization_request]; [[0]] of an empty list panics. *)
Definition make_authorization_request (i : issuance) (r : authorize_request) : hprog request_object :=
  let! challenge := of_opt (hi_code_challenge i) "missing code challenge" in
  let issuer_state :=
    match hz_initiator r with
    | ByIssuer _ =>
        match of_grants (hi_offer i) with
        | Some g => match gr_authorization_code g with Some a => ag_issuer_state a | None => None end
        | None => None
        end
    | ByWallet _ _ _ _ => None
    end in
  let scope := initiator_scope r in
  let! details :=
    match scope with
    | Some _ => ok None
    | None => let! ds := of_opt (wanted_details i r) "authorization details" in ok (Some ds)
    end in
  let! methods := of_opt (sv_code_challenge_methods_supported (hi_server i))
      "code challenge methods missing from authorization server metadata" in
  let! rt := match sv_response_types_supported (hi_server i) with
             | [] => panic "index out of bounds" | t :: _ => ok t end in
  let! m := match methods with [] => panic "index out of bounds" | m :: _ => ok m end in
  ok (RequestObject (is_credential_issuer (hi_issuer i)) rt (hi_client_id i) (hz_redirect_uri r)
        (Some (hi_id i)) challenge m details scope (hi_subject_id i) issuer_state).

(** 96-222, [authorize], with 287-302, [token_request]. *)
Definition h_authorize (r : authorize_request) : hprog authorized_credentials :=
  let! i := start_authorize r in
  let! verifier := zcall ZVerifier in
  let i := set_pkce verifier (code_challenge verifier) (set_accepted (hz_details r) i) in
  let! req := make_authorization_request i r in
  let! resp := ztry (zcall (ZAuthorization req)) "authorization" in
  let! tok := ztry (zcall (ZToken (TokenRequest (is_credential_issuer (hi_issuer i)) (Some (hi_client_id i))
                (TGAuthorizationCode (ar_code resp) (hz_redirect_uri r) (hi_code_verifier i))
                (hi_accepted i)))) "token" in
  let i := set_status STokenReceived (set_token tok i) in
  let! authorized :=
    match trs_authorization_details tok with
    | None | Some [] => ok None
    | Some l => let! m := of_opt (authorized_map (hi_issuer i) l []) "credential_configuration_id" in ok (Some m)
    end in
  put_issuance i ;;
  ok (AuthorizedCredentials (hi_id i) authorized).

(** ** issuance/credentials.rs *)

(** 31-50, [CredentialsRequest]. *)
Record credentials_request : Type := CredentialsRequest {
  hc_issuance_id : string;
  hc_identifiers : option (list string);
  hc_format : option format;
}.

(** 55-62, [CredentialsResponse]. *)
Record credentials_response : Type := CredentialsResponse {
  hs_issuance_id : string;
  hs_deferred : option (list (string * string));
}.

(** 283-331, [credential], with crates/w3c-vc/src/proof.rs 145-154: a credential given as an
    object is not a JWT; [display[0]] of an empty list panics. *)
Definition take_credential (cfg : credential_configuration) (k : kind vc) : hprog wcredential :=
  match k with
  | KObject _ => fail "issue parsing credential"
  | KString token =>
      let! vi := ztry (zcall (ZVerifyVc token)) "issue parsing credential" in
      let v := vi.1 in
      let iat := vi.2 in
      ensure (timestamp_ok iat) "invalid issuance date" ;;
      let! id := match vc_id v with
                 | Some id => ok id
                 | None => let! u := zcall ZUuid in ok ("urn:uuid:" +:+ u)
                 end in
      let! logo := match cc_display cfg with
                   | None => ok None
                   | Some [] => panic "index out of bounds"
                   | Some (d :: _) => zcall (ZLogo d)
                   end in
      ok (WCredential id (match vc_issuer v with KString i => i | KObject i => i end) v token iat
            (cc_display cfg) logo)
  end.

Fixpoint take_credentials (cfg : credential_configuration) (l : list (kind vc)) : hprog (list wcredential) :=
  match l with
  | [] => ok []
  | k :: rest =>
      let! c := take_credential cfg k in
      let! cs := take_credentials cfg rest in
      ok (c :: cs)
  end.

(** 260-280, [process_credential_response], and what its callers do with the result
    (170-182, 230-242; deferred.rs 77-88): the credentials and the transactions of the
    issuance grow. *)
Definition take_response (cfg_id : string) (cfg : credential_configuration) (resp : wresponse) (i : issuance)
  : hprog issuance :=
  match wr_response resp with
  | WRCredential k =>
      let! c := take_credential cfg k in
      ok (set_credentials (hi_credentials i ++ [c]) i)
  | WRCredentials l =>
      let! cs := take_credentials cfg l in
      ok (set_credentials (hi_credentials i ++ cs) i)
  | WRTransactionId id => ok (set_deferred (ainsert id cfg_id (hi_deferred i)) i)
  end.

(** 148-151: the first configuration with this scope and format, in the map's order. *)
Fixpoint find_by_scope (scope : option string) (f : format) (l : list (string * credential_configuration))
  : option (string * credential_configuration) :=
  match l with
  | [] => None
  | (id, c) :: rest =>
      if bool_decide (cc_scope c = scope) && format_eqb (cc_format c) f then Some (id, c)
      else find_by_scope scope f rest
  end.

(** 139-184, [credential_by_format]. *)
Definition credential_by_format (r : credentials_request) (jwt : string) (i : issuance) : hprog issuance :=
  ensure (match hc_identifiers r with Some _ => false | None => true end)
    "credential identifiers must be `None` for scope-based issuance" ;;
  let! f := of_opt (hc_format r) "format must be provided for scope-based issuance" in
  let! cc := of_opt (find_by_scope (hi_scope i) f (is_configurations (hi_issuer i)))
      "credential configuration not found for scope and format" in
  let! resp := ztry (zcall (ZCredential (CredentialRequest (is_credential_issuer (hi_issuer i))
                 (trs_access_token (hi_token i)) (CIFormat (cc_format cc.2)) (Some (PSingle jwt))))) "credential" in
  take_response cc.1 cc.2 resp i.

(** 243-248: the nonce of the response is kept. *)
Definition keep_nonce (resp : wresponse) (i : issuance) : issuance :=
  let t := hi_token i in
  set_token (TokenResponse (trs_access_token t) (trs_expires_in t)
               (match wr_c_nonce resp with Some n => Some n | None => trs_c_nonce t end)
               (match wr_c_nonce_expires_in resp with Some n => Some n | None => trs_c_nonce_expires_in t end)
               (trs_authorization_details t)) i.

(** 213-249: the loop over the identifiers of one authorized detail. *)
Fixpoint by_identifiers (r : credentials_request) (jwt cfg_id : string) (cfg : credential_configuration)
    (ids : list string) (i : issuance) : hprog issuance :=
  match ids with
  | [] => ok i
  | id :: rest =>
      if match hc_identifiers r with Some l => contains l id | None => true end
      then
        let! resp := ztry (zcall (ZCredential (CredentialRequest (is_credential_issuer (hi_issuer i))
                       (trs_access_token (hi_token i)) (CIIdentifier id) (Some (PSingle jwt))))) "credential" in
        let! i := take_response cfg_id cfg resp i in
        by_identifiers r jwt cfg_id cfg rest (keep_nonce resp i)
      else by_identifiers r jwt cfg_id cfg rest i
  end.

(** 194-250: the loop over the authorized details. *)
Fixpoint by_details (r : credentials_request) (jwt : string) (l : list authorized_detail) (i : issuance)
  : hprog issuance :=
  match l with
  | [] => ok i
  | d :: rest =>
      let! cfg_id := of_opt (detail_configuration (hi_issuer i) d) "credential_configuration_id" in
      let! cfg := of_opt (assoc cfg_id (is_configurations (hi_issuer i)))
          "authorized credential configuration not found in issuer metadata" in
      let! i := by_identifiers r jwt cfg_id cfg (atd_identifiers d) i in
      by_details r jwt rest i
  end.

(** 187-252, [credential_by_identifier]. *)
Definition credential_by_identifier (r : credentials_request) (jwt : string) (i : issuance) : hprog issuance :=
  let! l := of_opt (trs_authorization_details (hi_token i)) "no authorization details in token response" in
  by_details r jwt l i.

Definition deferred_result (i : issuance) : credentials_response :=
  CredentialsResponse (hi_id i) (match hi_deferred i with [] => None | l => Some l end).

(** 72-136, [credentials]. *)
Definition h_credentials (r : credentials_request) : hprog credentials_response :=
  let! i := get_issuance (hc_issuance_id r) in
  ensure (bool_decide (hi_status i = STokenReceived)) "invalid issuance state" ;;
  let! t := zcall ZNow in
  let! jwt := ztry (zcall (ZSignProof (ProofClaims (Some (hi_client_id i)) (of_credential_issuer (hi_offer i))
                (timestamp t) (trs_c_nonce (hi_token i))))) "sign" in
  let! i := match hi_scope i with
            | Some _ => credential_by_format r jwt i
            | None => credential_by_identifier r jwt i
            end in
  put_issuance i ;;
  ok (deferred_result i).

(** ** issuance/deferred.rs 35-115, [deferred]. *)
Definition aremove {A} (k : string) (l : list (string * A)) : list (string * A) :=
  List.filter (λ '(k', _), negb (bool_decide (k' = k))) l.

Definition h_deferred (issuance_id transaction_id configuration_id : string) : hprog credentials_response :=
  let! i := get_issuance issuance_id in
  ensure (bool_decide (hi_status i = STokenReceived)) "invalid issuance state" ;;
  let i := set_deferred (aremove transaction_id (hi_deferred i)) i in
  let! resp := ztry (zcall (ZDeferred (DeferredRequest (is_credential_issuer (hi_issuer i))
                 (trs_access_token (hi_token i)) transaction_id))) "deferred" in
  let! cfg := of_opt (assoc configuration_id (is_configurations (hi_issuer i)))
      "credential configuration not found in issuer metadata" in
  let! i := take_response configuration_id cfg resp i in
  match hi_deferred i, hi_credentials i with
  | [], [] => hpurge (hi_id i)
  | _, _ => put_issuance i
  end ;;
  ok (deferred_result i).

(** ** issuance/save.rs 29-99, [save]. *)

(** 38-68: save the credentials in turn; after a failure the issuer is told if there is a
    notification id, and the failure is returned. *)
Fixpoint save_all (i : issuance) (l : list wcredential) : hprog unit :=
  match l with
  | [] => ok tt
  | c :: rest =>
      let! b := zcall (ZSave c) in
      if b then save_all i rest
      else
        match hi_notification_id i with
        | Some n =>
            let! _ := zcall (ZNotify (NotificationRequest (is_credential_issuer (hi_issuer i))
                        (trs_access_token (hi_token i)) n) CredentialFailure) in
            fail "save"
        | None => fail "save"
        end
  end.

Definition notify (i : issuance) (e : notification_event) : hprog unit :=
  match hi_notification_id i with
  | Some n =>
      let! b := zcall (ZNotify (NotificationRequest (is_credential_issuer (hi_issuer i))
                  (trs_access_token (hi_token i)) n) e) in
      ensure b "notification"
  | None => ok tt
  end.

Definition h_save (issuance_id : string) : hprog string :=
  let! i := get_issuance issuance_id in
  save_all i (hi_credentials i) ;;
  notify i CredentialAccepted ;;
  match hi_deferred i with
  | [] => hpurge issuance_id
  | _ => ok tt
  end ;;
  ok issuance_id.

(** ** issuance/cancel.rs 28-65, [cancel]. *)
Definition h_cancel (issuance_id : string) : hprog string :=
  let! i := get_issuance issuance_id in
  notify i CredentialDeleted ;;
  hpurge issuance_id ;;
  ok (hi_id i).

(** ** presentation.rs *)

(** 70-79, [Display for Status]. *)
Definition status_display (s : presentation_status) : string :=
  match s with
  | PInactive => "Inactive"
  | PRequested => "Requested"
  | PAuthorized => "Authorized"
  | PFailed e => "Failed: " +:+ e
  end.

(** [str::starts_with]. *)
Fixpoint starts_with (p s : string) : bool :=
  match p, s with
  | EmptyString, _ => true
  | String a p', String b s' => Ascii.eqb a b && starts_with p' s'
  | _, _ => false
  end.
(** [&s[n..]]: panics if [n] is past the end or inside a character, that is, before a UTF-8
    continuation byte. *)
Fixpoint str_drop (n : nat) (s : string) : option string :=
  match n, s with
  | O, _ => Some s
  | Datatypes.S n, String _ s' => str_drop n s'
  | _, EmptyString => None
  end.
Definition continuation (c : ascii) : bool :=
  Nat.leb 128 (nat_of_ascii c) && Nat.ltb (nat_of_ascii c) 192.
Definition str_from (n : nat) (s : string) : option string :=
  match str_drop n s with
  | Some (String c r) => if continuation c then None else Some (String c r)
  | x => x
  end.

(** 82-97, [FromStr for Status]. *)
Definition status_parse (s : string) : outcome string presentation_status :=
  if starts_with "Failed" s then
    match str_from 8 s with
    | Some r => Ok (PFailed r)
    | None => Panic "byte index out of range"
    end
  else if bool_decide (s = "Inactive") then Ok PInactive
  else if bool_decide (s = "Requested") then Ok PRequested
  else if bool_decide (s = "Authorized") then Ok PAuthorized
  else Err ("Invalid status: " +:+ s).

(** 100-109. *)
Definition get_presentation (id : string) : hprog presentation :=
  let! r := hget id in
  of_opt (match r with Some (HSPresentation p) => Some p | _ => None end)
    "unable to retrieve presentation state".
Definition put_presentation (p : presentation) : hprog unit := hput (hp_id p) (HSPresentation p) max_utc.

(** ** presentation/request.rs *)

(** [str::contains]. *)
Fixpoint str_contains (needle s : string) : bool :=
  starts_with needle s || match s with EmptyString => false | String _ r => str_contains needle r end.

(** 121-132, [build_filter]; [None] is an error. *)
Definition build_filter (r : vp_request) : option constraints :=
  match vo_definition r with
  | KString _ => None
  | KObject d =>
      match pd_input_descriptors d with
      | [] => None
      | x :: _ => Some (id_constraints x)
      end
  end.

(** 27-36, [RequestResponse]. *)
Record request_response : Type := RequestResponse {
  hq_id : string;
  hq_status : presentation_status;
  hq_credentials : list wcredential;
}.

(** 42-102, [request], with 105-116, [parse_request_object_response]. *)
Definition h_request (url : string) : hprog request_response :=
  let! decoded := ztry (zcall (ZDecodeUrl url)) "unable to decode request url string" in
  let! id := zcall ZUuid in
  let! req :=
    if str_contains "&presentation_definition" url then
      ztry (zcall (ZParseRequest url)) "issue parsing RequestObject"
    else
      let! resp := ztry (zcall (ZRequestObject decoded)) "request_object" in
      let! jwt := of_opt (match resp with RoJwt t => Some t | RoObject _ => None end)
          "no serialized JWT found in response" in
      ztry (zcall (ZDecodeRequest jwt)) "failed to parse JWT" in
  let! filter := of_opt (build_filter req) "build_filter" in
  let! creds := ztry (zcall (ZFind filter)) "find" in
  let p := Presentation id PRequested req creds filter in
  put_presentation p ;;
  ok (RequestResponse (hp_id p) (hp_status p) (hp_credentials p)).

(** ** presentation/authorize.rs 14-35, [authorize]. *)
Definition h_consent (id : string) : hprog presentation_status :=
  let! p := get_presentation id in
  ensure (bool_decide (hp_status p = PRequested)) "invalid presentation state" ;;
  let p := Presentation (hp_id p) PAuthorized (hp_request p) (hp_credentials p) (hp_filter p) in
  put_presentation p ;;
  ok (hp_status p).

(** ** presentation/present.rs *)

(** 85-113, [create_submission]; the random id is an argument. *)
Definition create_submission (uuid : string) (d : presentation_definition) : presentation_submission :=
  PresentationSubmission uuid (pd_id d)
    (map (λ x, DescriptorMap (id_id x) "jwt_vc_json" "$"
                 (PathNested "jwt_vc_json" "$.verifiableCredential[0]")) (pd_input_descriptors d)).

(** 129-139: the constants of the filters of a definition. *)
Definition field_const (f : field) : list string :=
  match fd_filter f with
  | Some fl => match fl_value fl with FConst s => [s] | _ => [] end
  | None => []
  end.
Definition definition_consts (d : presentation_definition) : list string :=
  concat (map (λ x, concat (map field_const (default [] (cn_fields (id_constraints x)))))
            (pd_input_descriptors d)).

(** 116-145, [create_vp]; the random id is an argument. *)
Definition create_vp (uuid holder : string) (d : presentation_definition) (l : list wcredential)
  : outcome string vp :=
  let b := vpb_holder holder
             (vpb_add_context (KString "https://www.w3.org/2018/credentials/examples/v1") (vpb_new uuid)) in
  let b := fold_left (λ b t, vpb_add_type t b) (definition_consts d) b in
  let b := fold_left (λ b c, vpb_add_credential (KString (wc_issued c)) b) l b in
  vpb_build b.

(** [str::trim_end_matches]. *)
Fixpoint trim_end (c : ascii) (s : string) : string :=
  match s with
  | EmptyString => EmptyString
  | String a r =>
      match trim_end c r with
      | EmptyString => if Ascii.eqb a c then EmptyString else String a EmptyString
      | t => String a t
      end
  end.

(** 22-81, [present], with [proof::create] (crates/w3c-vc/src/proof.rs 104-107). *)
Definition h_present (id : string) : hprog response_response :=
  let! p := get_presentation id in
  ensure (bool_decide (hp_status p = PAuthorized)) "Invalid presentation state" ;;
  let! d := of_opt (match vo_definition (hp_request p) with KObject d => Some d | KString _ => None end)
      "presentation_definition_uri is unsupported" in
  let! u1 := zcall ZUuid in
  let subm := create_submission u1 d in
  let! kid := zcall ZKid in
  let! u2 := zcall ZUuid in
  let! v := lift (create_vp u2 (before_char "#" kid) d (hp_credentials p)) in
  let! t1 := zcall ZNow in
  let! t2 := zcall ZNow in
  let! t3 := zcall ZNow in
  let! jwt := ztry (zcall (ZSignVp (vp_claims_from v (vo_client_id (hp_request p)) (vo_nonce (hp_request p))
                t1 t2 t3))) "sign" in
  ztry (zcall (ZPresent (option_map (trim_end "/") (vo_response_uri (hp_request p)))
    (ResponseRequest (Some [KString jwt]) (Some subm) (vo_state (hp_request p))))) "present".

(** ** The wallet *)
Inductive hrequest : Type :=
| HOffer (client_id subject_id : string) (o : credential_offer)
| HAccept (issuance_id : string) (accept : option (list auth_spec))
| HPin (issuance_id pin : string)
| HToken (issuance_id : string)
| HAuthorize (r : authorize_request)
| HCredentials (r : credentials_request)
| HDeferred (issuance_id transaction_id configuration_id : string)
| HSave (issuance_id : string)
| HCancel (issuance_id : string)
| HRequest (url : string)
| HConsent (presentation_id : string)
| HPresent (presentation_id : string).
Inductive hreply : Type :=
| HROffer (r : offer_response)
| HRId (id : string)
| HRAuthorized (r : authorized_credentials)
| HRCredentials (r : credentials_response)
| HRRequest (r : request_response)
| HRStatus (s : presentation_status)
| HRPresent (r : response_response).
Definition hhandler (q : hrequest) : prog HSig (outcome string hreply) :=
  match q with
  | HOffer c s o => let! x := h_offer c s o in ok (HROffer x)
  | HAccept i a => let! x := h_accept i a in ok (HRId x)
  | HPin i p => let! x := h_pin i p in ok (HRId x)
  | HToken i => let! x := h_token i in ok (HRAuthorized x)
  | HAuthorize r => let! x := h_authorize r in ok (HRAuthorized x)
  | HCredentials r => let! x := h_credentials r in ok (HRCredentials x)
  | HDeferred i t c => let! x := h_deferred i t c in ok (HRCredentials x)
  | HSave i => let! x := h_save i in ok (HRId x)
  | HCancel i => let! x := h_cancel i in ok (HRId x)
  | HRequest u => let! x := h_request u in ok (HRRequest x)
  | HConsent i => let! x := h_consent i in ok (HRStatus x)
  | HPresent i => let! x := h_present i in ok (HRPresent x)
  end.
