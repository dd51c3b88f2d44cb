(** What a client should be told of each error, read off RFC 6749 section 4.1.2.1 and OpenID4VCI
    sections 6.3, 8.3.1 and 9.3: the code of the error, and what else goes with it.  Independent of
    the code's own table of descriptions. *)
From Verif Require Import Base Json JsonParse Prog IssuerTypes.

Definition told (code text : string) : list (string * json) :=
  [("error", JStr code); ("error_description", JStr text)].

(** The members of the JSON object for an error of the issuer. *)
Definition reported (number : Z → json) (e : error) : list (string * json) :=
  match e with
  | InvalidRequest t => told "invalid_request" t
  | InvalidClient t => told "invalid_client" t
  | InvalidGrant t => told "invalid_grant" t
  | UnauthorizedClient t => told "unauthorized_client" t
  | UnsupportedGrantType t => told "unsupported_grant_type" t
  | InvalidScope t => told "invalid_scope" t
  | InvalidAuthorizationDetails t => told "invalid_authorization_details" t
  | AccessDenied t => told "access_denied" t
  | UnsupportedResponseType t => told "unsupported_response_type" t
  | ServerError t => told "server_error" t
  | InvalidCredentialRequest t => told "invalid_credential_request" t
  | UnsupportedCredentialType t => told "unsupported_credential_type" t
  | UnsupportedFormat t => told "unsupported_credential_format" t
  | InvalidTransactionId t => told "invalid_transaction_id" t
  | InvalidProof hint nonce seconds =>
      told "invalid_proof" hint ++ [("c_nonce", JStr nonce); ("c_nonce_expires_in", number seconds)]
  | IssuancePending seconds => [("error", JStr "issuance_pending"); ("interval", number seconds)]
  end.

(** The texts an error carries. *)
Definition texts (e : error) : list string :=
  match e with
  | InvalidRequest t | InvalidClient t | InvalidGrant t | UnauthorizedClient t | UnsupportedGrantType t
  | InvalidScope t | InvalidAuthorizationDetails t | AccessDenied t | UnsupportedResponseType t | ServerError t
  | InvalidCredentialRequest t | UnsupportedCredentialType t | UnsupportedFormat t | InvalidTransactionId t => [t]
  | InvalidProof hint nonce _ => [hint; nonce]
  | IssuancePending _ => []
  end.

(** The query string for an error: the code and the encoded text. *)
Definition code_of (e : error) : string :=
  match reported (λ _, JNull) e with ("error", JStr c) :: _ => c | _ => "" end.
