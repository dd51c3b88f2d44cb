(** The errors reported to clients: crates/openid/src/error.rs. *)
From Verif Require Import Base Json MatcherModel JsonParse CoreModel VcModel Prog IssuerTypes SerdeModel.
From Verif Require UrlModel.

(** 19-163: the variants that carry a description. *)
Inductive described : Type :=
| DInvalidRequest | DInvalidClient | DInvalidGrant | DUnauthorizedClient | DUnsupportedGrantType | DInvalidScope
| DInvalidAuthorizationDetails | DAccessDenied | DUnsupportedResponseType | DServerError | DTemporarilyUnavailable
| DInvalidCredentialRequest | DUnsupportedCredentialType | DUnsupportedFormat | DInvalidEncryptionParameters
| DInvalidTransactionId | DVpFormatsNotSupported | DInvalidPresentationDefinitionUri
| DInvalidPresentationDefinitionReference | DWalletUnavailable.
(** 19-163: [Error]. *)
Inductive oerror : Type :=
| Described (d : described) (text : string)
| ProofError (hint c_nonce : string) (c_nonce_expires_in : Z)
| PendingError (interval : Z).

Definition described_code (d : described) : string :=
  match d with
  | DInvalidRequest => "invalid_request"
  | DInvalidClient => "invalid_client"
  | DInvalidGrant => "invalid_grant"
  | DUnauthorizedClient => "unauthorized_client"
  | DUnsupportedGrantType => "unsupported_grant_type"
  | DInvalidScope => "invalid_scope"
  | DInvalidAuthorizationDetails => "invalid_authorization_details"
  | DAccessDenied => "access_denied"
  | DUnsupportedResponseType => "unsupported_response_type"
  | DServerError => "server_error"
  | DTemporarilyUnavailable => "temporarily_unavailable"
  | DInvalidCredentialRequest => "invalid_credential_request"
  | DUnsupportedCredentialType => "unsupported_credential_type"
  | DUnsupportedFormat => "unsupported_credential_format"
  | DInvalidEncryptionParameters => "invalid_encryption_parameters"
  | DInvalidTransactionId => "invalid_transaction_id"
  | DVpFormatsNotSupported => "vp_formats_not_supported"
  | DInvalidPresentationDefinitionUri => "invalid_presentation_definition_uri"
  | DInvalidPresentationDefinitionReference => "invalid_presentation_definition_reference"
  | DWalletUnavailable => "wallet_unavailable"
  end.

(** 24-162: the [#[error(...)]] attributes, which are what [to_string] gives. *)
Definition q : string := String """" "".
Definition error_text (e : oerror) : string :=
  match e with
  | Described d t => "{" +:+ q +:+ "error" +:+ q +:+ ": " +:+ q +:+ described_code d +:+ q +:+ ", " +:+ q +:+
      "error_description" +:+ q +:+ ": " +:+ q +:+ t +:+ q +:+ "}"
  | ProofError h n z => "{" +:+ q +:+ "error" +:+ q +:+ ": " +:+ q +:+ "invalid_proof" +:+ q +:+ ", " +:+ q +:+
      "error_description" +:+ q +:+ ": " +:+ q +:+ h +:+ q +:+ ", " +:+ q +:+ "c_nonce" +:+ q +:+ ": " +:+ q +:+ n +:+
      q +:+ ", " +:+ q +:+ "c_nonce_expires_in" +:+ q +:+ ": " +:+ int_text z +:+ "}"
  | PendingError z => "{" +:+ q +:+ "error" +:+ q +:+ ": " +:+ q +:+ "issuance_pending" +:+ q +:+ ", " +:+ q +:+
      "interval" +:+ q +:+ ": " +:+ int_text z +:+ "}"
  end.

(** Reading a [serde_json::Value]: the last value of a repeated name stays. *)
Fixpoint value_of (j : json) : json :=
  match j with
  | JArr l => JArr (map value_of l)
  | JObj m => JObj ((fix go (m : list (string * json)) (acc : list (string * json)) :=
      match m with [] => acc | (k, v) :: r => go r (ainsert k (value_of v) acc) end) m [])
  | _ => j
  end.
(** 196-199: [to_json]. *)
Definition error_json (e : oerror) : json :=
  match parse_json (error_text e) with Some j => value_of j | None => JNull end.

(** 166-182: [OidError]. *)
Record oid_error : Type := OidError {
  oe_error : string;
  oe_description : string;
  oe_state : option string;
  oe_c_nonce : option string;
  oe_expires_in : option Z;
}.
Definition de_oid_error : json → option oid_error := obj (λ m,
  match req de_str "error" m, req de_str "error_description" m, opt de_str "state" m, opt de_str "c_nonce" m,
        opt (de_int 64) "c_nonce_expires_in" m with
  | Some e, Some d, Some s, Some n, Some x => Some (OidError e d s n x)
  | _, _, _, _, _ => None
  end).
(** 184-193: [Serialize for Error]; [None] is "issue deserializing Err". *)
Definition error_serialize (e : oerror) : option oid_error := read de_oid_error (error_text e).
Definition oid_fields (o : oid_error) : list (string * UrlModel.uval) :=
  let str k s := match s with Some s => [(k, UrlModel.UStr s)] | None => [] end in
  [("error", UrlModel.UStr (oe_error o)); ("error_description", UrlModel.UStr (oe_description o))]
  ++ str "state" (oe_state o) ++ str "c_nonce" (oe_c_nonce o)
  ++ match oe_expires_in o with Some z => [("c_nonce_expires_in", UrlModel.UNum (int_text z))] | None => [] end.
(** 201-207: [to_querystring]. *)
Definition error_query (e : oerror) : string :=
  match error_serialize e with Some o => UrlModel.url_to_string (UrlModel.UStruct (oid_fields o)) | None => "" end.

(** The errors of the issuer and the verifier among them. *)
Definition error_of (e : error) : oerror :=
  match e with
  | InvalidRequest t => Described DInvalidRequest t
  | InvalidClient t => Described DInvalidClient t
  | InvalidGrant t => Described DInvalidGrant t
  | UnauthorizedClient t => Described DUnauthorizedClient t
  | UnsupportedGrantType t => Described DUnsupportedGrantType t
  | InvalidScope t => Described DInvalidScope t
  | InvalidAuthorizationDetails t => Described DInvalidAuthorizationDetails t
  | AccessDenied t => Described DAccessDenied t
  | UnsupportedResponseType t => Described DUnsupportedResponseType t
  | ServerError t => Described DServerError t
  | InvalidCredentialRequest t => Described DInvalidCredentialRequest t
  | UnsupportedCredentialType t => Described DUnsupportedCredentialType t
  | UnsupportedFormat t => Described DUnsupportedFormat t
  | InvalidProof h n z => ProofError h n z
  | IssuancePending z => PendingError z
  | InvalidTransactionId t => Described DInvalidTransactionId t
  end.
