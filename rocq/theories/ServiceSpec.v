(** Vocabulary for statements about the issuer's web service. *)
From Verif Require Import Base Json CoreModel VcModel Prog IssuerTypes ErrorModel ServiceModel.

(** Calls of the service: its maps, and everything else. *)
Notation SGet k r := (@EGet SSig k r).
Notation SPut k v x b := (@EPut SSig k v x b).
Notation SPurge k b := (@EPurge SSig k b).
Notation SX e := (@EExt SSig e).

(** HTTP request [i] is [w]. *)
Definition received (c : sconfig) (i : nat) (w : web) : Prop := ∃ p, c_pool c !! i = Some (w, p).
(** At step [n] request [i] calls the library with [q], which gives [o]. *)
Definition passed (c : sconfig) (n i : nat) (q : irequest) (o : outcome error ireply) : Prop :=
  ∃ eff, c_log c !! n = Some (Entry i (SX (DLibrary q o)) eff).
(** At step [n] request [i] draws a token, which is then put into a login form. *)
Definition drawn (c : sconfig) (n i : nat) (token : string) : Prop :=
  ∃ eff, c_log c !! n = Some (Entry i (SX (DCsrf token)) eff).
(** Before step [n] a token was drawn for a request to [/auth] (to [/par]). *)
Definition token_of_auth (c : sconfig) (n : nat) (token : string) : Prop :=
  ∃ m i host r, m < n ∧ drawn c m i token ∧ received c i (WAuth host r).
Definition token_of_par (c : sconfig) (n : nat) (token : string) : Prop :=
  ∃ m i host r, m < n ∧ drawn c m i token ∧ received c i (WPar host r).
(** Somebody has sent the user's name and password, with some token. *)
Definition logged_in (c : sconfig) (user : string) : Prop :=
  ∃ i host token, received c i (WLogin host user "password" token).

(** The host a request names, its bearer token, and the request for the library that its body is. *)
Definition web_host (w : web) : string :=
  match w with
  | WCreateOffer h _ | WCredentialOffer h _ | WMetadata h | WOauthServer h | WAuth h _ | WPar h _ | WLogin h _ _ _
  | WNotification h _ _ | WToken h _ | WCredential h _ _ | WDeferred h _ _ => h
  end.
Definition web_bearer (w : web) : option string :=
  match w with
  | WNotification _ b _ | WCredential _ b _ | WDeferred _ b _ => Some b
  | _ => None
  end.
Definition web_body (w : web) : option irequest :=
  match w with
  | WCreateOffer _ r => Some (QCreateOffer r)
  | WCredentialOffer _ id => Some (QCredentialOffer (CredentialOfferRequest "" id))
  | WMetadata _ => Some (QMetadata "")
  | WOauthServer _ => Some (QOauthServer "" None)
  | WAuth _ r => Some (QAuthorize r)
  | WPar _ r => Some (QPar r)
  | WLogin _ _ _ _ => None
  | WNotification _ _ r => Some (QNotification r)
  | WToken _ r => Some (QToken r)
  | WCredential _ _ r => Some (QCredential r)
  | WDeferred _ _ r => Some (QDeferred r)
  end.
(** The issuer a request for the library names, and its access token. *)
Definition names_issuer (q : irequest) : option string :=
  match q with
  | QCreateOffer r => Some (co_credential_issuer r)
  | QCredentialOffer r => Some (cof_credential_issuer r)
  | QAuthorize (ARObject o) => Some (ro_credential_issuer o)
  | QAuthorize (ARUri _) => None
  | QPar o => Some (ro_credential_issuer o)
  | QToken r => Some (tr_credential_issuer r)
  | QCredential r => Some (cr_credential_issuer r)
  | QDeferred r => Some (dr_credential_issuer r)
  | QNotification r => Some (nr_credential_issuer r)
  | QRegister _ => None
  | QMetadata i => Some i
  | QOauthServer i _ => Some i
  end.
Definition access_token (q : irequest) : option string :=
  match q with
  | QCredential r => Some (cr_access_token r)
  | QDeferred r => Some (dr_access_token r)
  | QNotification r => Some (nr_access_token r)
  | _ => None
  end.
(** A request without them: two requests that are alike otherwise. *)
Definition nameless (q : irequest) : irequest :=
  match q with
  | QCreateOffer r => QCreateOffer (CreateOfferRequest "" (co_subject_id r) (co_configuration_ids r) (co_grant_types r)
      (co_tx_code_required r) (co_send_type r))
  | QCredentialOffer r => QCredentialOffer (CredentialOfferRequest "" (cof_id r))
  | QAuthorize (ARObject o) => QAuthorize (ARObject (RequestObject "" (ro_response_type o) (ro_client_id o) (ro_redirect_uri o)
      (ro_state o) (ro_code_challenge o) (ro_code_challenge_method o) (ro_authorization_details o) (ro_scope o) (ro_subject_id o)
      (ro_issuer_state o)))
  | QPar o => QPar (RequestObject "" (ro_response_type o) (ro_client_id o) (ro_redirect_uri o)
      (ro_state o) (ro_code_challenge o) (ro_code_challenge_method o) (ro_authorization_details o) (ro_scope o) (ro_subject_id o)
      (ro_issuer_state o))
  | QToken r => QToken (TokenRequest "" (tr_client_id r) (tr_grant r) (tr_authorization_details r))
  | QCredential r => QCredential (CredentialRequest "" "" (cr_credential r) (cr_proof r))
  | QDeferred r => QDeferred (DeferredRequest "" "" (dr_transaction_id r))
  | QNotification r => QNotification (NotificationRequest "" "" (nr_notification_id r))
  | QMetadata _ => QMetadata ""
  | QOauthServer _ s => QOauthServer "" s
  | q => q
  end.

(** The status of an answer. *)
Definition status (r : webreply) : nat :=
  match r with OkJson _ => 200 | ServerFault _ => 500 | Unauthorized _ | LoginForm _ => 401 | Redirect _ => 302 end.
