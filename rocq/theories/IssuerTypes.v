(** Data types of the issuer: requests, responses, metadata
    (crates/openid/src/issuer.rs, oauth.rs, error.rs) and saved state
    (vercre-issuer/src/state.rs). *)
From Verif Require Import Base Json CoreModel VcModel Prog.

(** ** Errors *)

(** crates/openid/src/error.rs 20-165, [Error].  Variants the issuer and the verifier
    never return are left out.  Descriptions keep the fixed part of the text only:
    interpolated provider errors ("...: {e}") are dropped; what comes from the client, the
    scope item of authorize.rs 343, is kept. *)
Inductive error : Type :=
| InvalidRequest (d : string)
| InvalidClient (d : string)
| InvalidGrant (d : string)
| UnauthorizedClient (d : string)
| UnsupportedGrantType (d : string)
| InvalidScope (d : string)
| InvalidAuthorizationDetails (d : string)
| AccessDenied (d : string)
| UnsupportedResponseType (d : string)
| ServerError (d : string)
| InvalidCredentialRequest (d : string)
| UnsupportedCredentialType (d : string)
| UnsupportedFormat (d : string)
| InvalidProof (hint c_nonce : string) (c_nonce_expires_in : Z)
| IssuancePending (interval : Z)
| InvalidTransactionId (d : string).

(** ** OAuth *)

(** crates/openid/src/oauth.rs 287-298, [GrantType]. *)
Inductive grant_type : Type := AuthorizationCode | PreAuthorizedCode.
Global Instance grant_type_eq : EqDecision grant_type.
Proof. solve_decision. Defined.

(** crates/openid/src/oauth.rs 301-315, [ResponseType]. *)
Inductive response_type : Type := RTCode | RTVpToken | RTIdToken.
Global Instance response_type_eq : EqDecision response_type.
Proof. solve_decision. Defined.

(** crates/openid/src/oauth.rs 386-393, [CodeChallengeMethod]: one variant. *)
Inductive code_challenge_method : Type := S256.
Global Instance code_challenge_method_eq : EqDecision code_challenge_method.
Proof. solve_decision. Defined.

(** crates/openid/src/oauth.rs 21-118 [OAuthClient] and crates/openid/src/issuer.rs
    2010-2020 [Client].  Fields no endpoint reads are left out. *)
Record client : Type := Client {
  cl_redirect_uris : option (list string);
  cl_grant_types : option (list grant_type);
  cl_response_types : option (list response_type);
  cl_scope : option string;
}.

(** crates/openid/src/oauth.rs 165-284 [OAuthServer] and crates/openid/src/issuer.rs
    2025-2036 [Server].  Fields no endpoint reads are left out. *)
Record server : Type := Server {
  sv_scopes_supported : option (list string);
  sv_response_types_supported : list response_type;
  sv_grant_types_supported : option (list grant_type);
  sv_code_challenge_methods_supported : option (list code_challenge_method);
  sv_require_par : option bool;
  sv_anonymous_access : bool;
}.

(** ** Claims and formats *)

(** crates/openid/src/issuer.rs 1890-1897 [Claim] and 1952-1983 [ClaimDefinition];
    [value_type] and [display], which are never read, are left out. *)
Inductive claim : Type :=
| CEntry (mandatory : option bool)
| CSet (l : list (string * claim)).

Definition claimset : Type := list (string * claim).

(** crates/openid/src/issuer.rs 1853-1885, [CredentialDefinition]. *)
Record credential_definition : Type := CredentialDefinition {
  cd_context : option (list string);
  cd_type : option (list string);
  cd_subject : option claimset;
}.

(** crates/openid/src/issuer.rs 717-767, [Format], with the profiles 838-889. *)
Inductive format : Type :=
| FJwtVcJson (d : credential_definition)
| FLdpVc (d : credential_definition)
| FJwtVcJsonLd (d : credential_definition)
| FIsoMdl (doctype : string) (claims : option claimset)
| FVcSdJwt (vct : string) (claims : option claimset).

(** [PartialEq] of [Format] (derived, 715) over the profiles' hand written ones:
    843-847 (type only), 861-865 (doctype only), 883-887 (vct only). *)
Definition format_eqb (a b : format) : bool :=
  match a, b with
  | FJwtVcJson x, FJwtVcJson y | FLdpVc x, FLdpVc y | FJwtVcJsonLd x, FJwtVcJsonLd y =>
      bool_decide (cd_type x = cd_type y)
  | FIsoMdl x _, FIsoMdl y _ => bool_decide (x = y)
  | FVcSdJwt x _, FVcSdJwt y _ => bool_decide (x = y)
  | _, _ => false
  end.

(** crates/openid/src/issuer.rs 772-780, [Format::claims]. *)
Definition format_claims (f : format) : option claimset :=
  match f with
  | FJwtVcJson d | FJwtVcJsonLd d | FLdpVc d => cd_subject d
  | FIsoMdl _ c | FVcSdJwt _ c => c
  end.

(** crates/openid/src/issuer.rs 805-817, [ProfileClaims]. *)
Inductive profile_claims : Type :=
| PCW3c (d : credential_definition)
| PCIsoMdl (c : claimset)
| PCSdJwt (c : claimset).

(** crates/openid/src/issuer.rs 828-833, [ProfileClaims::claims]. *)
Definition profile_claims_claims (p : profile_claims) : option claimset :=
  match p with
  | PCW3c d => cd_subject d
  | PCIsoMdl c | PCSdJwt c => Some c
  end.

(** crates/openid/src/issuer.rs 653-671, [CredentialAuthorization]. *)
Inductive credential_authorization : Type :=
| ByConfigurationId (id : string) (claims : option profile_claims)
| ByFormat (f : format).

(** crates/openid/src/issuer.rs 684-708, [PartialEq for CredentialAuthorization]. *)
Definition credential_authorization_eqb (a b : credential_authorization) : bool :=
  match a, b with
  | ByConfigurationId x _, ByConfigurationId y _ => bool_decide (x = y)
  | ByFormat f, ByFormat g => format_eqb f g
  | _, _ => false
  end.

(** crates/openid/src/issuer.rs 623-648, [AuthorizationDetail]; its [type_] has one
    possible value (612-617) and is left out. *)
Record authorization_detail : Type := AuthorizationDetail {
  ad_credential : credential_authorization;
  ad_locations : option (list string);
}.

(** ** Issuer metadata *)

(** crates/openid/src/issuer.rs 1801-1833, [CredentialDisplay]; images and colours
    are left out. *)
Record credential_display : Type := CredentialDisplay {
  dsp_name : string;
  dsp_locale : option string;
  dsp_description : option string;
}.

(** crates/openid/src/issuer.rs 1593-1697, [CredentialConfiguration]; the binding
    methods and signing algorithms, which no endpoint reads, are left out, and so are
    the algorithms listed for a proof type. *)
Record credential_configuration : Type := CredentialConfiguration {
  cc_format : format;
  cc_scope : option string;
  cc_proof_types : option (list string);
  cc_display : option (list credential_display);
}.

(** crates/openid/src/issuer.rs 1432-1520, [Issuer]; fields no endpoint reads are
    left out. *)
Record issuer : Type := Issuer {
  is_credential_issuer : string;
  is_authorization_servers : option (list string);
  is_configurations : list (string * credential_configuration);
}.

(** crates/openid/src/issuer.rs 1528-1534, [Issuer::credential_configuration_id]. *)
Fixpoint find_configuration (f : format) (l : list (string * credential_configuration))
  : option string :=
  match l with
  | [] => None
  | (id, c) :: r => if format_eqb (cc_format c) f then Some id else find_configuration f r
  end.
Definition configuration_id_for (i : issuer) (f : format) : option string :=
  find_configuration f (is_configurations i).

(** ** Offers *)

(** crates/openid/src/issuer.rs 120-130, [SendType]. *)
Inductive send_type : Type := ByVal | ByRef.

(** crates/openid/src/issuer.rs 88-117, [CreateOfferRequest]. *)
Record create_offer_request : Type := CreateOfferRequest {
  co_credential_issuer : string;
  co_subject_id : option string;
  co_configuration_ids : list string;
  co_grant_types : option (list grant_type);
  co_tx_code_required : bool;
  co_send_type : send_type;
}.

(** crates/openid/src/issuer.rs 360-386, [TxCode]. *)
Record tx_code_spec : Type := TxCodeSpec {
  tc_input_mode : option string;
  tc_length : option Z;
  tc_description : option string;
}.

(** crates/openid/src/issuer.rs 311-355, [PreAuthorizedCodeGrant]. *)
Record pre_authorized_code_grant : Type := PreAuthorizedCodeGrant {
  pg_code : string;
  pg_tx_code : option tx_code_spec;
  pg_authorization_server : option string;
}.

(** crates/openid/src/issuer.rs 290-306, [AuthorizationCodeGrant]. *)
Record authorization_code_grant : Type := AuthorizationCodeGrant {
  ag_issuer_state : option string;
  ag_authorization_server : option string;
}.

(** crates/openid/src/issuer.rs 276-285, [Grants]. *)
Record grants : Type := Grants {
  gr_authorization_code : option authorization_code_grant;
  gr_pre_authorized_code : option pre_authorized_code_grant;
}.

(** crates/openid/src/issuer.rs 185-216, [CredentialOffer]. *)
Record credential_offer : Type := CredentialOffer {
  of_credential_issuer : string;
  of_configuration_ids : list string;
  of_grants : option grants;
}.

(** crates/openid/src/issuer.rs 154-180, [CreateOfferResponse] and [OfferType]. *)
Inductive offer_type : Type :=
| OfferObject (o : credential_offer)
| OfferUri (u : string).
Record create_offer_response : Type := CreateOfferResponse {
  cor_offer : offer_type;
  cor_tx_code : option string;
}.

(** crates/openid/src/issuer.rs 390-406. *)
Record credential_offer_request : Type := CredentialOfferRequest {
  cof_credential_issuer : string;
  cof_id : string;
}.

(** ** Authorization *)

(** crates/openid/src/issuer.rs 531-607, [RequestObject]; [resource], [wallet_issuer]
    and [user_hint], which no endpoint reads, are left out. *)
Record request_object : Type := RequestObject {
  ro_credential_issuer : string;
  ro_response_type : response_type;
  ro_client_id : string;
  ro_redirect_uri : option string;
  ro_state : option string;
  ro_code_challenge : string;
  ro_code_challenge_method : code_challenge_method;
  ro_authorization_details : option (list authorization_detail);
  ro_scope : option string;
  ro_subject_id : string;
  ro_issuer_state : option string;
}.

(** crates/openid/src/issuer.rs 411-418, [AuthorizationRequest]. *)
Inductive authorization_request : Type :=
| ARUri (request_uri : string)
| ARObject (o : request_object).

(** crates/openid/src/issuer.rs 893-905, [AuthorizationResponse]. *)
Record authorization_response : Type := AuthorizationResponse {
  ar_code : string;
  ar_state : option string;
  ar_redirect_uri : string;
}.

(** crates/openid/src/issuer.rs 926-938, [PushedAuthorizationResponse].  Of the
    request (910-921) only the request object is read. *)
Record par_response : Type := ParResponse {
  pr_request_uri : string;
  pr_expires_in : Z;
}.

(** ** Token *)

(** crates/openid/src/issuer.rs 983-1019, [TokenGrantType]. *)
Inductive token_grant : Type :=
| TGAuthorizationCode (code : string) (redirect_uri code_verifier : option string)
| TGPreAuthorizedCode (pre_authorized_code : string) (tx_code : option string).

(** crates/openid/src/issuer.rs 944-978, [TokenRequest]; the client assertion is
    never read and left out. *)
Record token_request : Type := TokenRequest {
  tr_credential_issuer : string;
  tr_client_id : option string;
  tr_grant : token_grant;
  tr_authorization_details : option (list authorization_detail);
}.

(** crates/openid/src/issuer.rs 1092-1104, [AuthorizedDetail]. *)
Record authorized_detail : Type := AuthorizedDetail {
  atd_detail : authorization_detail;
  atd_identifiers : list string;
}.

(** crates/openid/src/issuer.rs 1048-1075, [TokenResponse]; the token type is
    always Bearer. *)
Record token_response : Type := TokenResponse {
  trs_access_token : string;
  trs_expires_in : Z;
  trs_c_nonce : option string;
  trs_c_nonce_expires_in : option Z;
  trs_authorization_details : option (list authorized_detail);
}.

(** ** Credential *)

(** crates/openid/src/issuer.rs 1148-1162, [CredentialIssuance]. *)
Inductive credential_issuance : Type :=
| CIIdentifier (id : string)
| CIFormat (f : format).

(** crates/openid/src/issuer.rs 1175-1231, [Proof], [SingleProof], [MultipleProofs]. *)
Inductive key_proof : Type :=
| PSingle (jwt : string)
| PMultiple (jwts : list string).

(** crates/openid/src/issuer.rs 1110-1142, [CredentialRequest]; the response
    encryption is never read and left out. *)
Record credential_request : Type := CredentialRequest {
  cr_credential_issuer : string;
  cr_access_token : string;
  cr_credential : credential_issuance;
  cr_proof : option key_proof;
}.

(** crates/openid/src/issuer.rs 1308-1325, [CredentialResponseType]; [Credentials],
    which is never built, is left out. *)
Inductive credential_response_type : Type :=
| CRCredential (c : kind vc)
| CRTransactionId (id : string).

(** crates/openid/src/issuer.rs 1283-1305, [CredentialResponse]. *)
Record credential_response : Type := CredentialResponse {
  crs_response : credential_response_type;
  crs_c_nonce : option string;
  crs_c_nonce_expires_in : option Z;
  crs_notification_id : option string;
}.

(** crates/openid/src/issuer.rs 1337-1352, [DeferredCredentialRequest]. *)
Record deferred_request : Type := DeferredRequest {
  dr_credential_issuer : string;
  dr_access_token : string;
  dr_transaction_id : string;
}.

(** crates/openid/src/issuer.rs 2040-2065, [NotificationRequest]; the event and its
    description are only traced. *)
Record notification_request : Type := NotificationRequest {
  nr_credential_issuer : string;
  nr_access_token : string;
  nr_notification_id : string;
}.

(** crates/openid/src/issuer.rs 1408-1423, [RegistrationRequest]. *)
Record registration_request : Type := RegistrationRequest {
  rr_credential_issuer : string;
  rr_access_token : string;
  rr_client_metadata : client;
}.

(** crates/openid/src/issuer.rs 75-83, [Dataset]. *)
Record dataset : Type := Dataset {
  ds_claims : list (string * json);
  ds_pending : bool;
}.

(** ** Saved state: vercre-issuer/src/state.rs *)

(** 144-163, [AuthorizedItem] and [ItemType]. *)
Inductive item_type : Type :=
| ItemDetail (d : authorization_detail)
| ItemScope (s : string).
Record authorized_item : Type := AuthorizedItem {
  ai_item : item_type;
  ai_configuration_id : string;
  ai_identifiers : list string;
}.

(** 78-87, [Offer]. *)
Record offer : Type := Offer {
  off_items : option (list authorized_item);
  off_tx_code : option string;
}.

(** 91-109, [Authorized]. *)
Record authorized : Type := Authorized {
  au_identifier : string;
  au_configuration_id : string;
  au_claim_ids : option (list string);
}.

(** 114-130, [Authorization]. *)
Record authorization : Type := Authorization {
  az_client_id : string;
  az_redirect_uri : option string;
  az_code_challenge : string;
  az_code_challenge_method : code_challenge_method;
  az_items : list authorized_item;
}.

(** 173-188, [Token]. *)
Record token_state : Type := Token {
  tk_access_token : string;
  tk_c_nonce : string;
  tk_c_nonce_expires_at : Z;
  tk_credentials : list (string * authorized);
}.

(** 43-74, [Stage], with 133-139 [PushedAuthorization], 202-204 [Credential] and
    208-215 [Deferrance] inlined. *)
Inductive stage : Type :=
| Unauthorized
| Pending (o : credential_offer)
| Offered (o : offer)
| PushedAuthorization (request : request_object) (expires_at : Z)
| StAuthorized (a : authorization)
| Validated (t : token_state)
| Issued (c : vc)
| Deferred (transaction_id : string) (request : credential_request).

(** 18-31, [State]. *)
Record state : Type := State {
  s_subject_id : option string;
  s_stage : stage;
  s_expires_at : Z;
}.

(** 35-37, [State::is_expired], at clock reading [now]. *)
Definition is_expired (s : state) (now : Z) : bool :=
  Z.ltb (num_seconds (s_expires_at s - now)) 0.

(** 191-197, [Token::c_nonce_expires_in] and [Token::c_nonce_expired]. *)
Definition c_nonce_expires_in (t : token_state) (now : Z) : Z :=
  num_seconds (tk_c_nonce_expires_at t - now).
Definition c_nonce_expired (t : token_state) (now : Z) : bool :=
  Z.ltb (c_nonce_expires_in t now) 0.

(** 217-231, [Expire::duration]. *)
Definition expire_authorized : Z := minutes 5.
Definition expire_access : Z := minutes 15.
Definition expire_nonce : Z := minutes 10.

(** ** Provider calls *)

(** crates/core/src/gen.rs: which generator is called. *)
Inductive gen_kind : Type :=
| GAuthCode | GTxCode | GUriToken | GToken | GNonce | GNotificationId | GTransactionId.

(** What is left of a verified proof JWT: whether its [typ] is the proof type, its
    [nonce] claim, and its [kid] when the key is given by id.  Decoding and verifying
    ([jws::decode] with [verify_key!]) is done by the external vercre-infosec and
    vercre-did crates. *)
Record proof_jwt : Type := ProofJwt {
  pj_typ_is_proof : bool;
  pj_nonce : option string;
  pj_kid : option string;
}.

(** The calls other than the state store: the clock, the random generators, the
    iteration order of a hash map with [n] entries built by the program, and the
    traits of [Provider] (crates/openid/src/issuer.rs 32-72, vercre-status [Status],
    vercre-infosec [SecOps]/[Signer]). *)
Inductive icall : Type :=
| XNow
| XGen (g : gen_kind)
| XOrder (n : nat)
| XIssuer (id : string)
| XServer (id : string) (srv : option string)
| XClient (id : string)
| XRegister (c : client)
| XAuthorize (subject config : string)
| XDataset (subject identifier : string)
| XStatus (subject identifier : string)
| XSigner (id : string)
| XDecodeProof (jwt : string)
| XSignVc (signer : string) (c : vc_claims)
| XSignMdl (signer : string) (claims : list (string * json)).

(** Answers; [None] and [false] are errors. *)
Definition ians (x : icall) : Type :=
  match x with
  | XNow => Z
  | XGen _ => string
  | XOrder _ => list nat
  | XIssuer _ => option issuer
  | XServer _ _ => option server
  | XClient _ => option client
  | XRegister _ => option client
  | XAuthorize _ _ => option (list string)
  | XDataset _ _ => option dataset
  | XStatus _ _ => option (option (quota credential_status))
  | XSigner _ => bool
  | XDecodeProof _ => option proof_jwt
  | XSignVc _ _ => option string
  | XSignMdl _ _ => option string
  end.

Inductive iev : Type :=
| VNow (t : Z)
| VGen (g : gen_kind) (s : string)
| VOrder (n : nat) (l : list nat)
| VIssuer (id : string) (r : option issuer)
| VServer (id : string) (srv : option string) (r : option server)
| VClient (id : string) (r : option client)
| VRegister (c : client) (r : option client)
| VAuthorize (subject config : string) (r : option (list string))
| VDataset (subject identifier : string) (r : option dataset)
| VStatus (subject identifier : string) (r : option (option (quota credential_status)))
| VSigner (id : string) (r : bool)
| VDecodeProof (jwt : string) (r : option proof_jwt)
| VSignVc (signer : string) (c : vc_claims) (r : option string)
| VSignMdl (signer : string) (claims : list (string * json)) (r : option string).

Definition imk (x : icall) : ians x → iev :=
  match x return ians x → iev with
  | XNow => λ r, VNow r
  | XGen g => λ r, VGen g r
  | XOrder n => λ r, VOrder n r
  | XIssuer i => λ r, VIssuer i r
  | XServer i s => λ r, VServer i s r
  | XClient i => λ r, VClient i r
  | XRegister c => λ r, VRegister c r
  | XAuthorize s c => λ r, VAuthorize s c r
  | XDataset s i => λ r, VDataset s i r
  | XStatus s i => λ r, VStatus s i r
  | XSigner i => λ r, VSigner i r
  | XDecodeProof j => λ r, VDecodeProof j r
  | XSignVc i c => λ r, VSignVc i c r
  | XSignMdl i c => λ r, VSignMdl i c r
  end.

Definition ISig : sig := Sig state icall ians iev imk.

(** An issuer computation returning [A] or an [Error]. *)
Definition iprog (A : Type) : Type := prog ISig (outcome error A).

(** ** Requests and replies of all endpoints *)

(** vercre-issuer/src/lib.rs: the public endpoints. *)
Inductive irequest : Type :=
| QCreateOffer (r : create_offer_request)
| QCredentialOffer (r : credential_offer_request)
| QAuthorize (r : authorization_request)
| QPar (r : request_object)
| QToken (r : token_request)
| QCredential (r : credential_request)
| QDeferred (r : deferred_request)
| QNotification (r : notification_request)
| QRegister (r : registration_request)
| QMetadata (credential_issuer : string)
| QOauthServer (credential_issuer : string) (iss : option string).

Inductive ireply : Type :=
| RCreateOffer (r : create_offer_response)
| RCredentialOffer (r : credential_offer)
| RAuthorize (r : authorization_response)
| RPar (r : par_response)
| RToken (r : token_response)
| RCredential (r : credential_response)
| RDeferred (r : credential_response)
| RNotification
| RRegister (r : client)
| RMetadata (r : issuer)
| ROauthServer (r : server).
