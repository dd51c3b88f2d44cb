(** The issuer as a web service: examples/issuer/src/main.rs.  What is modelled is what the routes do with a request that
    axum has read; a call of the library is one step, which may give anything, so that nothing here depends on
    what the library does. *)
From Verif Require Import Base Json CoreModel VcModel Prog IssuerTypes ErrorModel QueryModel SerdeModel.
From Verif Require UrlModel.

(** 38-41: the two maps, of requests by token or by name of a subject.  They are one store with a prefix for
    each map; [HashMap::remove], one step in the program, is a [get] and a [purge], which may be separated.  The
    store of the framework may fail and a map does not: the model has these executions besides the program's. *)
Inductive sval : Type :=
| SAuth (r : authorization_request)
| SPar (r : request_object).
Definition auth_key (k : string) : string := "auth:" +:+ k.
Definition par_key (k : string) : string := "par:" +:+ k.
(** Other calls: a random token (oauth2's [CsrfToken::new_random]) and the library. *)
Inductive scall : Type :=
| XCsrf
| XLibrary (q : irequest).
Definition sans (x : scall) : Type := match x with XCsrf => string | XLibrary _ => outcome error ireply end.
Inductive sext : Type :=
| DCsrf (token : string)
| DLibrary (q : irequest) (o : outcome error ireply).
Definition smke (x : scall) : sans x → sext := match x with XCsrf => DCsrf | XLibrary q => DLibrary q end.
Definition SSig : sig := Sig sval scall sans sext smke.
Notation sprog := (prog SSig).
Notation sevent := (event SSig).

(** 51-63: the routes, with the [Host] header, the bearer token where one is asked for, and the body or query.  A body's
    issuer and token are read too, where there are any: they are in the request. *)
Inductive web : Type :=
| WCreateOffer (host : string) (r : create_offer_request)
| WCredentialOffer (host offer_id : string)
| WMetadata (host : string)
| WOauthServer (host : string)
| WAuth (host : string) (r : authorization_request)
| WPar (host : string) (r : request_object)
| WLogin (host username password csrf_token : string)
| WNotification (host bearer : string) (r : notification_request)
| WToken (host : string) (r : token_request)
| WCredential (host bearer : string) (r : credential_request)
| WDeferred (host bearer : string) (r : deferred_request).
(** The answers, by status. *)
Inductive webreply : Type :=
| OkJson (r : ireply)                       (* 200 *)
| ServerFault (body : json)                 (* 500 *)
| Unauthorized (why : string)               (* 401, with a JSON text *)
| LoginForm (csrf_token : string)           (* 401, with a form that has the token in it *)
| Redirect (location : string).             (* 302 *)
(** A panic in a handler closes the connection; no [Err] is ever the result. *)
Notation wreply := (outcome error webreply).

(** 358-369, [AxResult::into_response]. *)
Definition ax (o : outcome error ireply) : wreply :=
  match o with
  | Ok r => Ok (OkJson r)
  | Err e => Ok (ServerFault (error_json (error_of e)))
  | Panic w => Panic w
  end.
Definition library (q : irequest) : sprog wreply := Call (S:=SSig) (@CExt SSig (XLibrary q)) (λ o : outcome error ireply, Ret (ax o)).
Definition at_host (host : string) : string := "http://" +:+ host.

(** 135-188, [authorize].  The request that is passed on is the one that came: the issuer is set in a copy. *)
Definition w_authorize (host : string) (req : authorization_request) : sprog wreply :=
  match req with
  | ARUri _ => panic "should be an object request"
  | ARObject object =>
      if String.eqb (ro_subject_id object) "" then Ret (Ok (Unauthorized "no subject_id"))
      else Call (@CGet SSig (auth_key (ro_subject_id object))) (λ r : option sval,
        match r with
        | None => Call (S:=SSig) (@CExt SSig XCsrf) (λ token : string,
            Call (S:=SSig) (@CPut SSig (auth_key token) (SAuth req) 0) (λ _ : bool, Ret (Ok (LoginForm token))))
        | Some _ =>
            match ro_redirect_uri object with
            | None => Ret (Ok (Unauthorized "no redirect_uri"))
            | Some uri => Call (S:=SSig) (@CExt SSig (XLibrary (QAuthorize req))) (λ o : outcome error ireply,
                match o with
                | Ok (RAuthorize v) => Ret (Ok (Redirect (uri +:+ "?code=" +:+ ar_code v)))
                | Ok _ => panic "no other answer"
                | Err e => Ret (Ok (Redirect (uri +:+ "?" +:+ error_query (error_of e))))
                | Panic w => panic w
                end)
            end
        end)
  end.
(** 197-237, [par]; of the request only the request object is kept, which is all that the library reads. *)
Definition hosted (host : string) (o : request_object) : request_object :=
  RequestObject (at_host host) (ro_response_type o) (ro_client_id o) (ro_redirect_uri o) (ro_state o) (ro_code_challenge o)
    (ro_code_challenge_method o) (ro_authorization_details o) (ro_scope o) (ro_subject_id o) (ro_issuer_state o).
Definition w_par (host : string) (object : request_object) : sprog wreply :=
  if String.eqb (ro_subject_id object) "" then Ret (Ok (Unauthorized "no subject_id"))
  else Call (@CGet SSig (par_key (ro_subject_id object))) (λ r : option sval,
    match r with
    | None => Call (S:=SSig) (@CExt SSig XCsrf) (λ token : string,
        Call (S:=SSig) (@CPut SSig (par_key token) (SPar object) 0) (λ _ : bool, Ret (Ok (LoginForm token))))
    | Some _ => library (QPar (hosted host object))
    end).
(** 247-270, [handle_login].  The [remove] is one step in the code and two here, so that the model has more schedules. *)
Definition w_login (host username password csrf_token : string) : sprog wreply :=
  if negb (String.eqb username "normal_user") then Ret (Ok (Unauthorized "invalid username"))
  else if negb (String.eqb password "password") then Ret (Ok (Unauthorized "invalid password"))
  else Call (@CGet SSig (auth_key csrf_token)) (λ r : option sval,
    match r with
    | Some (SAuth auth_req) => Call (@CPurge SSig (auth_key csrf_token)) (λ _ : bool,
        Call (S:=SSig) (@CPut SSig (auth_key username) (SAuth auth_req) 0) (λ _ : bool,
          Ret (Ok (Redirect (at_host host +:+ "/auth?" +:+ authorization_query auth_req)))))
    | _ => Ret (Ok (Unauthorized "invalid csrf_token"))
    end).
(** 78-126, 294-349: the routes that only set the issuer, by the host, and the access token, by the header. *)
Definition whandler (q : web) : sprog wreply :=
  match q with
  | WCreateOffer host r => library (QCreateOffer (CreateOfferRequest (at_host host) (co_subject_id r) (co_configuration_ids r)
      (co_grant_types r) (co_tx_code_required r) (co_send_type r)))
  | WCredentialOffer host id => library (QCredentialOffer (CredentialOfferRequest (at_host host) id))
  | WMetadata host => library (QMetadata (at_host host))
  | WOauthServer host => library (QOauthServer (at_host host) None)
  | WAuth host r => w_authorize host r
  | WPar host r => w_par host r
  | WLogin host u p t => w_login host u p t
  | WNotification host bearer r => library (QNotification (NotificationRequest (at_host host) bearer (nr_notification_id r)))
  | WToken host r => library (QToken (TokenRequest (at_host host) (tr_client_id r) (tr_grant r) (tr_authorization_details r)))
  | WCredential host bearer r => library (QCredential (CredentialRequest (at_host host) bearer (cr_credential r) (cr_proof r)))
  | WDeferred host bearer r => library (QDeferred (DeferredRequest (at_host host) bearer (dr_transaction_id r)))
  end.
Notation sconfig := (config SSig web wreply).
Notation sreach c := (reachable whandler ∅ c).
