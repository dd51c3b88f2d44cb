(** The issuer's endpoints (vercre-issuer/src/*.rs) as programs over provider calls. *)
From Verif Require Import Base Json CoreModel VcModel Prog IssuerTypes ClaimsModel Sha256.

(** A provider call other than the state store. *)
Definition xcall (x : icall) : iprog (ians x) := @ext ISig error x.

(** [StateStore::get], [put], [purge]. *)
Definition sget (k : string) : iprog (option state) := @get ISig error k.
Definition sput (k : string) (v : state) (exp : Z) (e : error) : iprog unit :=
  @put ISig error k v exp e.
Definition spurge (k : string) (e : error) : iprog unit := @purge ISig error k e.

(** [Utc::now()] *)
Definition now : iprog Z := xcall XNow.
(** [gen::..()] *)
Definition gen (g : gen_kind) : iprog string := xcall (XGen g).

(** The entries of a hash map built by the program, in the order of iteration. *)
Definition iterate {A} (l : list A) : iprog (list A) :=
  let! ix := xcall (XOrder (length l)) in ok (permute ix l).

Fixpoint mapM_prog {A B} (f : A → iprog B) (l : list A) : iprog (list B) :=
  match l with
  | [] => ok []
  | a :: r => let! b := f a in let! bs := mapM_prog f r in ok (b :: bs)
  end.

(** ** create_offer.rs *)

(** create_offer.rs 116-158, [Context::verify]. *)
Definition create_offer_verify (iss : issuer) (srv : server) (r : create_offer_request)
  : iprog unit :=
  ensure (negb (str_is_empty (co_credential_issuer r)))
    (InvalidRequest "no `credential_issuer` specified") ;;
  ensure (match co_configuration_ids r with [] => false | _ => true end)
    (InvalidRequest "no credentials requested") ;;
  ensure (forallb (λ id, has_key id (is_configurations iss)) (co_configuration_ids r))
    (UnsupportedCredentialType "requested credential is unsupported") ;;
  match co_grant_types r with
  | None => ok tt
  | Some grant_types =>
      ensure (match sv_grant_types_supported srv with
              | Some supported => forallb (contains supported) grant_types
              | None => true
              end) (UnsupportedGrantType "unsupported grant type") ;;
      ensure (negb (contains grant_types PreAuthorizedCode &&
                    match co_subject_id r with None => true | Some _ => false end))
        (InvalidRequest "`subject_id` is required for pre-authorization")
  end.

(** create_offer.rs 229-281, [Context::credential_offer]; [servers[0]] panics when the
    metadata lists an empty vector of authorization servers. *)
Definition make_credential_offer (iss : issuer) (r : create_offer_request)
  : iprog credential_offer :=
  let! auth_code := gen GAuthCode in
  let grant_types := default [] (co_grant_types r) in
  let! authorization_server :=
    match is_authorization_servers iss with
    | None => ok None
    | Some [] => panic "index out of bounds"
    | Some (s :: _) => ok (Some s)
    end in
  let pre :=
    if contains grant_types PreAuthorizedCode
    then Some (PreAuthorizedCodeGrant auth_code
                 (if co_tx_code_required r
                  then Some (TxCodeSpec (Some "numeric") (Some 6%Z)
                               (Some "Please provide the one-time code received"))
                  else None)
                 authorization_server)
    else None in
  let auth :=
    if contains grant_types AuthorizationCode
    then Some (AuthorizationCodeGrant (Some auth_code) authorization_server)
    else None in
  ok (CredentialOffer (co_credential_issuer r) (co_configuration_ids r)
        (match auth, pre with None, None => None | _, _ => Some (Grants auth pre) end)).

(** create_offer.rs 285-313, [authorize]. *)
Definition offer_authorize (r : create_offer_request) : iprog (list authorized_item) :=
  let subject_id := default "" (co_subject_id r) in
  mapM_prog (λ config_id,
    let! ids := xcall (XAuthorize subject_id config_id) in
    let! identifiers := of_opt ids (ServerError "issue authorizing holder") in
    ok (AuthorizedItem
          (ItemDetail (AuthorizationDetail (ByConfigurationId config_id None) None))
          config_id identifiers))
    (co_configuration_ids r).

(** create_offer.rs 317-335, [state_key]. *)
Definition state_key (g : option grants) : iprog string :=
  let! g := of_opt g (ServerError "no grants") in
  match gr_pre_authorized_code g with
  | Some p => ok (pg_code p)
  | None =>
      match gr_authorization_code g with
      | Some a => of_opt (ag_issuer_state a) (ServerError "no issuer_state")
      | None => fail (ServerError "no state key")
      end
  end.

(** create_offer.rs 161-226, [Context::process]. *)
Definition create_offer_process (iss : issuer) (r : create_offer_request)
  : iprog create_offer_response :=
  let grant_types := default [] (co_grant_types r) in
  let! credential_offer := make_credential_offer iss r in
  let! tx_code :=
    if co_tx_code_required r && contains grant_types PreAuthorizedCode
    then (let! c := gen GTxCode in ok (Some c)) else ok None in
  (if contains grant_types PreAuthorizedCode || contains grant_types AuthorizationCode then
     let! auth_items :=
       if contains grant_types PreAuthorizedCode
       then (let! items := offer_authorize r in ok (Some items)) else ok None in
     let! key := state_key (of_grants credential_offer) in
     let! t := now in
     let expires_at := (t + expire_authorized)%Z in
     sput key (State (co_subject_id r) (Offered (Offer auth_items tx_code)) expires_at)
       expires_at (ServerError "issue saving state")
   else ok tt) ;;
  match co_send_type r with
  | ByVal => ok (CreateOfferResponse (OfferObject credential_offer) tx_code)
  | ByRef =>
      let! uri_token := gen GUriToken in
      let! t := now in
      let expires_at := (t + expire_authorized)%Z in
      sput uri_token (State (co_subject_id r) (Pending credential_offer) expires_at)
        expires_at (ServerError "issue saving state") ;;
      ok (CreateOfferResponse
            (OfferUri (co_credential_issuer r +:+ "/credential_offer/" +:+ uri_token)) tx_code)
  end.

(** create_offer.rs 90-107, [create_offer]. *)
Definition create_offer (r : create_offer_request) : iprog create_offer_response :=
  let! iss := xcall (XIssuer (co_credential_issuer r)) in
  let! iss := of_opt iss (ServerError "issue getting issuer metadata") in
  let! srv := xcall (XServer (co_credential_issuer r) None) in
  let! srv := of_opt srv (ServerError "issue getting issuer metadata") in
  create_offer_verify iss srv r ;;
  create_offer_process iss r.

(** ** credential_offer.rs 39-66 *)
Definition credential_offer_endpoint (r : credential_offer_request) : iprog credential_offer :=
  let! st := sget (cof_id r) in
  let! st := of_opt st (ServerError "issue fetching state") in
  spurge (cof_id r) (ServerError "issue purging state") ;;
  let! t := now in
  ensure (negb (is_expired st t)) (InvalidRequest "state expired") ;;
  match s_stage st with
  | Pending o =>
      ensure (bool_decide (of_credential_issuer o = cof_credential_issuer r))
        (InvalidRequest "credential_issuer mismatch") ;;
      ok o
  | _ => fail (InvalidRequest "no credential offer found")
  end.

(** ** authorize.rs *)

(** authorize.rs 128-135, [Context]: the parts filled in by [verify].  [claims] is
    written (315) and never read; it is left out. *)
Record authz_context : Type := AuthzContext {
  ac_auth_dets : list (string * authorization_detail);
  ac_scope_items : list (string * string);
}.

(** authorize.rs 286-304: configuration id and claims of a requested credential;
    [None] when no configuration has the format. *)
Definition requested_credential (iss : issuer) (c : credential_authorization)
  : option (string * option claimset) :=
  match c with
  | ByConfigurationId id profile => Some (id, profile ≫= profile_claims_claims)
  | ByFormat f => option_map (λ id, (id, format_claims f)) (configuration_id_for iss f)
  end.

(** authorize.rs 273-321, [verify_authorization_details]; the check of the type
    (278-282) always passes. *)
Fixpoint verify_authorization_details (iss : issuer) (l : list authorization_detail)
    (acc : list (string * authorization_detail))
  : iprog (list (string * authorization_detail)) :=
  match l with
  | [] => ok acc
  | auth_det :: rest =>
      let! p :=
        of_opt (requested_credential iss (ad_credential auth_det))
          (ServerError "issue getting `credential_configuration_id`") in
      let '(config_id, claims) := p in
      match claims with
      | None => ok tt
      | Some requested =>
          let! config := of_opt (assoc config_id (is_configurations iss))
            (InvalidAuthorizationDetails "invalid credential_configuration_id") in
          ensure (verify_claims config requested) (InvalidRequest "claims")
      end ;;
      verify_authorization_details iss rest (ainsert config_id auth_det acc)
  end.

(** authorize.rs 330-341: the configurations having the scope item. *)
Fixpoint scope_configurations (item : string) (auth_dets : list (string * authorization_detail))
    (l : list (string * credential_configuration)) : list (string * string) :=
  match l with
  | [] => []
  | (config_id, cfg) :: r =>
      if has_key config_id auth_dets then scope_configurations item auth_dets r
      else if bool_decide (cc_scope cfg = Some item)
      then (config_id, item) :: scope_configurations item auth_dets r
      else scope_configurations item auth_dets r
  end.

(** authorize.rs 325-349, [verify_scope]. *)
Definition verify_scope (iss : issuer) (scope : string)
    (auth_dets : list (string * authorization_detail)) : iprog (list (string * string)) :=
  match split_whitespace scope with
  | [] => ok []
  | item :: _ =>
      let scope_map := scope_configurations item auth_dets (is_configurations iss) in
      ensure (match scope_map with [] => false | _ => true end)
        (InvalidScope ("scope item " +:+ item +:+ " is unsupported")) ;;
      ok scope_map
  end.

(** authorize.rs 167-179 and token.rs 160-172: client and server must support the
    same scopes. *)
Definition check_scopes (cl : client) (srv : server) : iprog unit :=
  match cl_scope cl with
  | None => fail (InvalidRequest "client scope not set")
  | Some client_scope =>
      match sv_scopes_supported srv with
      | None => fail (InvalidRequest "server supported scopes not set")
      | Some server_scopes =>
          ensure (forallb (contains server_scopes) (split_whitespace client_scope))
            (InvalidRequest "client scope not supported")
      end
  end.

(** authorize.rs 137-268, [Context::verify]. *)
Definition authorize_verify (iss : issuer) (is_par : bool) (r : request_object)
  : iprog authz_context :=
  let! cl := xcall (XClient (ro_client_id r)) in
  let! cl := of_opt cl (InvalidClient "invalid `client_id`") in
  let! srv := xcall (XServer (ro_credential_issuer r) None) in
  let! srv := of_opt srv (InvalidRequest "invalid `credential_issuer`") in
  ensure (negb (default false (sv_require_par srv) && negb is_par))
    (InvalidRequest "pushed authorization request is required") ;;
  ensure (contains (sv_response_types_supported srv) (ro_response_type r))
    (UnsupportedResponseType "`response_type` not supported by server") ;;
  check_scopes cl srv ;;
  ensure (contains (default [] (cl_grant_types cl)) AuthorizationCode)
    (UnauthorizedClient "authorization_code grant not supported for client") ;;
  ensure (contains (default [] (sv_grant_types_supported srv)) AuthorizationCode)
    (InvalidRequest "authorization_code grant not supported by server") ;;
  ensure (negb (str_is_empty (ro_subject_id r))) (InvalidRequest "missing holder subject") ;;
  match ro_issuer_state r with
  | None => ok tt
  | Some issuer_state =>
      let! st := sget issuer_state in
      let! st := of_opt st (ServerError "issue getting state") in
      let! t := now in
      ensure (negb (is_expired st t)) (InvalidRequest "issuer state expired") ;;
      ensure (bool_decide (s_subject_id st = Some (ro_subject_id r)))
        (InvalidRequest "request `subject_id` does not match offer")
  end ;;
  ensure (match ro_authorization_details r, ro_scope r with None, None => false | _, _ => true end)
    (InvalidRequest "no credentials requested") ;;
  let! auth_dets := match ro_authorization_details r with
                    | None => ok []
                    | Some l => verify_authorization_details iss l []
                    end in
  let! scope_items := match ro_scope r with
                      | None => ok []
                      | Some s => verify_scope iss s auth_dets
                      end in
  let! redirect_uri := of_opt (ro_redirect_uri r) (InvalidRequest "no `redirect_uri` specified") in
  let! redirect_uris := of_opt (cl_redirect_uris cl)
    (ServerError "`redirect_uri`s not set for client") in
  ensure (contains redirect_uris redirect_uri) (InvalidRequest "`redirect_uri` is not registered") ;;
  ensure (contains (default [] (cl_response_types cl)) (ro_response_type r))
    (UnsupportedResponseType "`response_type` not supported for client") ;;
  ensure (contains (sv_response_types_supported srv) (ro_response_type r))
    (UnsupportedResponseType "`response_type` not supported by server") ;;
  ensure (contains (default [] (sv_code_challenge_methods_supported srv)) (ro_code_challenge_method r))
    (InvalidRequest "unsupported `code_challenge_method`") ;;
  ensure (negb (Nat.ltb (String.length (ro_code_challenge r)) 43 ||
                Nat.ltb 128 (String.length (ro_code_challenge r))))
    (InvalidRequest "code_challenge must be between 43 and 128 characters") ;;
  ok (AuthzContext auth_dets scope_items).

(** authorize.rs 361-374 and 377-388: authorize the subject for each requested item. *)
Definition authorize_items {A} (subject : string) (mk : A → item_type) (l : list (string * A))
  : iprog (list authorized_item) :=
  mapM_prog (λ p : string * A,
    let! ids := xcall (XAuthorize subject p.1) in
    let! identifiers := of_opt ids (AccessDenied "issue authorizing subject") in
    ok (AuthorizedItem (mk p.2) p.1 identifiers)) l.

(** authorize.rs 355-424, [Context::process]. *)
Definition authorize_process (ctx : authz_context) (r : request_object)
  : iprog authorization_response :=
  let! auth_dets := iterate (ac_auth_dets ctx) in
  let! items1 := authorize_items (ro_subject_id r) ItemDetail auth_dets in
  let! scope_items := iterate (ac_scope_items ctx) in
  let! items2 := authorize_items (ro_subject_id r) ItemScope scope_items in
  let authorized_items := items1 ++ items2 in
  ensure (match authorized_items with [] => false | _ => true end)
    (AccessDenied "holder is not authorized for requested credentials") ;;
  let! t := now in
  let expires_at := (t + expire_authorized)%Z in
  let st := State (Some (ro_subject_id r))
              (StAuthorized (Authorization (ro_client_id r) (ro_redirect_uri r)
                 (ro_code_challenge r) (ro_code_challenge_method r) authorized_items))
              expires_at in
  let! code := gen GAuthCode in
  sput code st expires_at (ServerError "issue saving authorization state") ;;
  match ro_issuer_state r with
  | None => ok tt
  | Some issuer_state => spurge issuer_state (ServerError "issue purging offer state")
  end ;;
  ok (AuthorizationResponse code (ro_state r) (default "" (ro_redirect_uri r))).

(** authorize.rs 90-125, [authorize]. *)
Definition authorize (a : authorization_request) : iprog authorization_response :=
  let! p :=
    match a with
    | ARObject r => ok (false, r)
    | ARUri request_uri =>
        let! st := sget request_uri in
        let! st := of_opt st (ServerError "state issue") in
        match s_stage st with
        | PushedAuthorization r expires_at =>
            let! t := now in
            ensure (negb (Z.ltb expires_at t)) (InvalidRequest "`request_uri` has expired") ;;
            ok (true, r)
        | _ => fail (InvalidRequest "invalid state")
        end
    end in
  let '(is_par, r) := p in
  let! iss := xcall (XIssuer (ro_credential_issuer r)) in
  let! iss := of_opt iss (InvalidRequest "invalid `credential_issuer`") in
  let! ctx := authorize_verify iss is_par r in
  authorize_process ctx r.

(** ** par.rs *)

(** par.rs 60-86, [process]. *)
Definition par_process (r : request_object) : iprog par_response :=
  let! token := gen GUriToken in
  let request_uri := "urn:ietf:params:oauth:request_uri:" +:+ token in
  let! t1 := now in
  let! t2 := now in
  sput request_uri
    (State None (PushedAuthorization r (t1 + seconds 600)%Z) (t2 + seconds 600)%Z)
    (t2 + seconds 600)%Z (ServerError "issue saving state") ;;
  ok (ParResponse request_uri (num_seconds (seconds 600))).

(** par.rs 28-56, [par] and [verify]: the request is verified as if it had been sent to
    the authorization endpoint directly ([is_par] keeps its default, [false]). *)
Definition par (r : request_object) : iprog par_response :=
  let! iss := xcall (XIssuer (ro_credential_issuer r)) in
  let! iss := of_opt iss (InvalidClient "invalid `credential_issuer`") in
  authorize_verify iss false r ;;
  par_process r.

(** ** token.rs *)

(** token.rs 38-46: the key under which the grant's state is saved. *)
Definition token_state_key (g : token_grant) : string :=
  match g with
  | TGAuthorizationCode code _ _ => code
  | TGPreAuthorizedCode code _ => code
  end.

(** token.rs 69-176, [Context::verify]. *)
Definition token_verify (st : state) (r : token_request) : iprog unit :=
  let! t := now in
  ensure (negb (is_expired st t)) (InvalidRequest "authorization state expired") ;;
  let! srv := xcall (XServer (tr_credential_issuer r) None) in
  let! srv := of_opt srv (InvalidRequest "unknown authorization server") in
  let! grant_types_supported := of_opt (sv_grant_types_supported srv)
    (ServerError "authorization server grant types not set") in
  match tr_grant r with
  | TGPreAuthorizedCode _ tx_code =>
      match s_stage st with
      | Offered o =>
          ensure (contains grant_types_supported PreAuthorizedCode)
            (InvalidGrant "unsupported `grant_type`") ;;
          ensure (negb (match tr_client_id r with
                        | None => true
                        | Some id => str_is_empty id && negb (sv_anonymous_access srv)
                        end))
            (InvalidClient "anonymous access is not supported") ;;
          ensure (bool_decide (tx_code = off_tx_code o)) (InvalidGrant "invalid `tx_code` provided")
      | _ => fail (ServerError "pre-authorized state not set")
      end
  | TGAuthorizationCode _ redirect_uri code_verifier =>
      match s_stage st with
      | StAuthorized a =>
          ensure (contains grant_types_supported AuthorizationCode)
            (InvalidGrant "unsupported `grant_type`") ;;
          let! client_id := of_opt (tr_client_id r) (InvalidRequest "`client_id` is missing") in
          ensure (bool_decide (client_id = az_client_id a))
            (InvalidClient "`client_id` differs from authorized one") ;;
          ensure (bool_decide (redirect_uri = az_redirect_uri a))
            (InvalidGrant "`redirect_uri` differs from authorized one") ;;
          let! verifier := of_opt code_verifier (AccessDenied "`code_verifier` is missing") in
          ensure (bool_decide (code_challenge verifier = az_code_challenge a))
            (AccessDenied "`code_verifier` is invalid")
      | _ => fail (ServerError "authorization state not set")
      end
  end ;;
  match tr_client_id r with
  | None => ok tt
  | Some client_id =>
      let! cl := xcall (XClient client_id) in
      let! cl := of_opt cl (InvalidClient "invalid `client_id`") in
      check_scopes cl srv
  end.

(** token.rs 277-307, [verify_claims]. *)
Definition token_verify_claims (iss : issuer) (c : credential_authorization) : iprog unit :=
  let! p := of_opt (requested_credential iss c) (ServerError "issuer issue") in
  let '(config_id, claims) := p in
  match claims with
  | None => ok tt
  | Some requested =>
      let! config := of_opt (assoc config_id (is_configurations iss))
        (InvalidAuthorizationDetails "invalid `credential_configuration_id`") in
      ensure (verify_claims config requested) (InvalidAuthorizationDetails "claims")
  end.

(** token.rs 252-264: the first item that was authorized for the same credential. *)
Fixpoint find_item (c : credential_authorization) (items : list authorized_item)
  : option authorized_item :=
  match items with
  | [] => None
  | item :: rest =>
      match ai_item item with
      | ItemDetail ad =>
          if credential_authorization_eqb (ad_credential ad) c then Some item
          else find_item c rest
      | ItemScope _ => find_item c rest
      end
  end.

(** token.rs 232-273, [retain_details]. *)
Definition retain_details (r : token_request) (items : list authorized_item)
  : iprog (list authorized_item) :=
  match tr_authorization_details r with
  | None => ok items
  | Some req_auth_dets =>
      let! iss := xcall (XIssuer (tr_credential_issuer r)) in
      let! iss := of_opt iss (InvalidRequest "unknown authorization server") in
      mapM_prog (λ auth_det,
        match find_item (ad_credential auth_det) items with
        | Some item => token_verify_claims iss (ad_credential auth_det) ;; ok item
        | None => fail (AccessDenied "requested credential has not been authorized")
        end) req_auth_dets
  end.

(** token.rs 309-328, [authorized_details]. *)
Definition authorized_details (items : list authorized_item) : option (list authorized_detail) :=
  match omap (λ item, match ai_item item with
                      | ItemDetail ad => Some (AuthorizedDetail ad (ai_identifiers item))
                      | ItemScope _ => None
                      end) items with
  | [] => None
  | l => Some l
  end.

(** token.rs 330-346, [authorized_credentials]. *)
Definition authorized_credentials (items : list authorized_item) : list (string * authorized) :=
  foldl (λ m item,
    foldl (λ m id, ainsert id (Authorized id (ai_configuration_id item) None) m)
      m (ai_identifiers item)) [] items.

(** token.rs 181-227, [Context::process]. *)
Definition token_process (st : state) (r : token_request) : iprog token_response :=
  let! items :=
    match tr_grant r with
    | TGPreAuthorizedCode _ _ =>
        match s_stage st with
        | Offered o =>
            let! items := of_opt (off_items o) (ServerError "no authorized items") in
            retain_details r items
        | _ => fail (ServerError "pre-authorized state not set")
        end
    | TGAuthorizationCode _ _ _ =>
        match s_stage st with
        | StAuthorized a => ok (az_items a)
        | _ => fail (ServerError "authorization state not set")
        end
    end in
  let! access_token := gen GToken in
  let! c_nonce := gen GNonce in
  let! t := now in
  let st' := State (s_subject_id st)
               (Validated (Token access_token c_nonce (t + expire_nonce)%Z
                             (authorized_credentials items)))
               (s_expires_at st) in
  sput access_token st' (s_expires_at st') (ServerError "issue saving state") ;;
  ok (TokenResponse access_token (num_seconds expire_access) (Some c_nonce)
        (Some (num_seconds expire_nonce)) (authorized_details items)).

(** token.rs 38-61, [token]. *)
Definition token (r : token_request) : iprog token_response :=
  let key := token_state_key (tr_grant r) in
  let! st := sget key in
  let! st := of_opt st (InvalidGrant "authorization code is invalid") in
  spurge key (ServerError "issue purging authorizaiton state") ;;
  token_verify st r ;;
  token_process st r.

(** ** credential.rs *)

(** credential.rs 366, [values().find(..)]. *)
Fixpoint find_authorized (config_id : string) (l : list (string * authorized))
  : option authorized :=
  match l with
  | [] => None
  | (_, a) :: r =>
      if bool_decide (au_configuration_id a = config_id) then Some a
      else find_authorized config_id r
  end.

(** credential.rs 351-371, [Context::authorized]. *)
Definition credential_authorized (st : state) (iss : issuer) (r : credential_request)
  : iprog authorized :=
  match s_stage st with
  | Validated token =>
      let! found :=
        match cr_credential r with
        | CIIdentifier id => ok (assoc id (tk_credentials token))
        | CIFormat f =>
            let! config_id := of_opt (configuration_id_for iss f)
              (UnsupportedFormat "invalid credential format") in
            let! creds := iterate (tk_credentials token) in
            ok (find_authorized config_id creds)
        end in
      of_opt found (InvalidCredentialRequest "unauthorized credential requested")
  | _ => fail (AccessDenied "invalid access token state")
  end.

(** credential.rs 418-443, [Context::invalid_proof]. *)
Definition invalid_proof (st : state) (hint : string) : iprog error :=
  let! c_nonce := gen GNonce in
  let! t1 := now in
  match s_stage st with
  | Validated token =>
      let! t2 := now in
      let expires_at := (t1 + expire_access)%Z in
      sput (tk_access_token token)
        (State (s_subject_id st)
           (Validated (Token (tk_access_token token) c_nonce (t2 + expire_nonce)%Z
                         (tk_credentials token))) expires_at)
        expires_at (ServerError "issue saving state") ;;
      ok (InvalidProof hint c_nonce (num_seconds expire_nonce))
  | _ => fail (AccessDenied "invalid access token state")
  end.

(** [return Err(self.invalid_proof(provider, hint).await?)] *)
Definition reject_proof {A} (st : state) (hint : string) : iprog A :=
  let! e := invalid_proof st hint in fail e.

(** credential.rs 120-158, the loop over the proof JWTs; returns the holder's DID, which
    starts as [did]. *)
Fixpoint verify_proofs (st : state) (c_nonce : string) (jwts : list string) (did : string)
  : iprog string :=
  match jwts with
  | [] => ok did
  | jwt :: rest =>
      let! decoded := xcall (XDecodeProof jwt) in
      match decoded with
      | None => reject_proof st "issue decoding JWT"
      | Some p =>
          if negb (pj_typ_is_proof p) then reject_proof st "Proof JWT 'typ' is not openid4vci-proof+jwt"
          else if negb (bool_decide (pj_nonce p = Some c_nonce))
               then reject_proof st "Proof JWT nonce claim is invalid"
          else match pj_kid p with
               | None => reject_proof st "Proof JWT 'kid' is missing"
               | Some kid => verify_proofs st c_nonce rest (before_char "#" kid)
               end
      end
  end.

(** credential.rs 87-162, [Context::verify]; returns [holder_did]. *)
Definition credential_verify (st : state) (config : credential_configuration)
    (r : credential_request) : iprog string :=
  let! t := now in
  ensure (negb (is_expired st t)) (InvalidCredentialRequest "token state expired") ;;
  match s_stage st with
  | Validated token =>
      let! t := now in
      ensure (negb (c_nonce_expired token t)) (AccessDenied "c_nonce has expired") ;;
      match cc_proof_types config with
      | None => ok ""
      | Some supported_types =>
          match cr_proof r with
          | None => reject_proof st "proof not set"
          | Some proof =>
              ensure (contains supported_types "jwt")
                (InvalidCredentialRequest "proof type not supported") ;;
              verify_proofs st (tk_c_nonce token)
                (match proof with PSingle jwt => [jwt] | PMultiple jwts => jwts end) ""
          end
      end
  | _ => fail (AccessDenied "invalid access token state")
  end.

(** [Map::retain(|k, _| claim_ids.contains(k))] *)
Definition retain_claims (ids : list string) (l : list (string * json)) : list (string * json) :=
  List.filter (λ p, contains ids p.1) l.

(** credential.rs 374-414, [Context::dataset]. *)
Definition credential_dataset (st : state) (auth : authorized) (r : credential_request)
  : iprog dataset :=
  let! subject_id := of_opt (s_subject_id st) (AccessDenied "invalid subject id") in
  let! ds := xcall (XDataset subject_id (au_identifier auth)) in
  let! ds := of_opt ds (ServerError "issue populating claims") in
  let claims1 := match au_claim_ids auth with
                 | Some ids => retain_claims ids (ds_claims ds)
                 | None => ds_claims ds
                 end in
  let claims2 := match cr_credential r with
                 | CIFormat f =>
                     match format_claims f with
                     | Some cs => retain_claims (keys cs) claims1
                     | None => claims1
                     end
                 | CIIdentifier _ => claims1
                 end in
  ok (Dataset claims2 (ds_pending ds)).

(** credential.rs 324-347, [Context::defer_response]. *)
Definition defer_response (r : credential_request) : iprog credential_response :=
  let! txn_id := gen GTransactionId in
  let! t := now in
  let expires_at := (t + expire_access)%Z in
  sput txn_id (State None (Deferred txn_id r) expires_at) expires_at
    (ServerError "issue saving state") ;;
  ok (CredentialResponse (CRTransactionId txn_id) None None None).

(** credential.rs 446-480, [create_names]. *)
Fixpoint create_names_aux (l : list credential_display) (name description : option lang_string)
  : option lang_string * option lang_string :=
  match l with
  | [] => (name, description)
  | d :: r =>
      let n := LangValue (dsp_name d) (dsp_locale d) None in
      let name' := match name with
                   | Some nm => ls_add nm n
                   | None => ls_new_object n
                   end in
      let description' :=
        match dsp_description d with
        | None => description
        | Some text =>
            let v := LangValue text (dsp_locale d) None in
            Some (match description with
                  | Some ds => ls_add ds v
                  | None => ls_new_object v
                  end)
        end in
      create_names_aux r (Some name') description'
  end.
Definition create_names (l : list credential_display) : option lang_string * option lang_string :=
  create_names_aux l None None.

(** credential.rs 246-287, [Context::w3c_vc]. *)
Definition w3c_vc (st : state) (iss : issuer) (config : credential_configuration)
    (holder_did : string) (def : credential_definition) (ds : dataset) : iprog vc :=
  let! types := of_opt (cd_type def) (ServerError "Credential type not set") in
  let! credential_type := of_opt (types !! 1%nat) (ServerError "Credential type not set") in
  let! subject_id := of_opt (s_subject_id st) (AccessDenied "invalid subject id") in
  let! status := xcall (XStatus subject_id "credential_identifier") in
  let! status := of_opt status (ServerError "issue populating credential status") in
  let credential_issuer := is_credential_issuer iss in
  let '(name, description) := match cc_display config with
                              | Some l => create_names l
                              | None => (None, None)
                              end in
  let built :=
    vcb_build
      (vcb_status status
      (vcb_add_subject (CredentialSubject (Some holder_did) (ds_claims ds))
      (vcb_issuer credential_issuer
      (vcb_add_description description
      (vcb_add_name name
      (vcb_add_type credential_type
      (vcb_id (credential_issuer +:+ "/credentials/" +:+ credential_type)
      (vcb_add_context (KString (credential_issuer +:+ "/credentials/v1")) vcb_new)))))))) in
  match built with
  | Ok v => ok v
  | Err _ => fail (ServerError "issue building VC")
  | Panic w => panic w
  end.

(** credential.rs 290-309, [Context::jwt_vc_json], with crates/w3c-vc/src/proof.rs
    92-102 ([create], [Payload::Vc]). *)
Definition jwt_vc_json (signer : string) (v : vc) (issuance_date : Z)
  : iprog credential_response_type :=
  let! claims := lift (vc_claims_from v (timestamp issuance_date)) in
  let! jwt := xcall (XSignVc signer claims) in
  let! jwt := of_opt jwt (ServerError "issue generating `jwt_vc_json` credential") in
  ok (CRCredential (KString jwt)).

(** credential.rs 312-319, [Context::mso_mdoc]. *)
Definition mso_mdoc (signer : string) (ds : dataset) : iprog credential_response_type :=
  let! mdl := xcall (XSignMdl signer (ds_claims ds)) in
  let! mdl := of_opt mdl (ServerError "issue generating `mso_mdoc` credential") in
  ok (CRCredential (KString mdl)).

(** credential.rs 183-244, [Context::issue_response]. *)
Definition issue_response (st : state) (iss : issuer) (config : credential_configuration)
    (holder_did : string) (r : credential_request) (ds : dataset) : iprog credential_response :=
  let! issuance_date := now in
  let! signer := xcall (XSigner (cr_credential_issuer r)) in
  ensure signer (ServerError "issue  resolving signer") ;;
  let! response :=
    match cc_format config with
    | FJwtVcJson def =>
        let! v := w3c_vc st iss config holder_did def ds in
        jwt_vc_json (cr_credential_issuer r) v issuance_date
    | FIsoMdl _ _ => mso_mdoc (cr_credential_issuer r) ds
    | FJwtVcJsonLd _ => panic "not yet implemented"
    | FLdpVc _ => panic "not yet implemented"
    | FVcSdJwt _ _ => panic "not yet implemented"
    end in
  let! t1 := now in
  let expires_at := (t1 + expire_access)%Z in
  match s_stage st with
  | Validated token =>
      let! c_nonce := gen GNonce in
      let! t2 := now in
      let token' := Token (tk_access_token token) c_nonce (t2 + expire_nonce)%Z
                      (tk_credentials token) in
      let st' := State (s_subject_id st) (Validated token') expires_at in
      sput (tk_access_token token') st' expires_at (ServerError "issue saving state") ;;
      let! notification_id := gen GNotificationId in
      sput notification_id st' expires_at (ServerError "issue saving state") ;;
      let! t3 := now in
      ok (CredentialResponse response (Some c_nonce) (Some (c_nonce_expires_in token' t3))
            (Some notification_id))
  | _ => fail (AccessDenied "invalid access token state")
  end.

(** credential.rs 165-180, [Context::process]. *)
Definition credential_process (st : state) (iss : issuer) (auth : authorized)
    (config : credential_configuration) (holder_did : string) (r : credential_request)
  : iprog credential_response :=
  let! ds := credential_dataset st auth r in
  if ds_pending ds then defer_response r
  else issue_response st iss config holder_did r ds.

(** credential.rs 39-67, [credential]. *)
Definition credential (r : credential_request) : iprog credential_response :=
  let! st := sget (cr_access_token r) in
  let! st := of_opt st (AccessDenied "invalid access token") in
  let! iss := xcall (XIssuer (cr_credential_issuer r)) in
  let! iss := of_opt iss (ServerError "metadata issue") in
  let! auth := credential_authorized st iss r in
  let! config := of_opt (assoc (au_configuration_id auth) (is_configurations iss))
    (ServerError "credential configuration unable to be found") in
  let! holder_did := credential_verify st config r in
  credential_process st iss auth config holder_did r.

(** ** deferred.rs 34-72 *)
Definition deferred (r : deferred_request) : iprog credential_response :=
  let! st := sget (dr_transaction_id r) in
  let! st := of_opt st (InvalidTransactionId "deferred state not found") in
  let! t := now in
  ensure (negb (is_expired st t)) (InvalidRequest "state expired") ;;
  match s_stage st with
  | Deferred _ cred_req =>
      spurge (dr_transaction_id r) (ServerError "issue purging state") ;;
      let! response := credential (CredentialRequest (dr_credential_issuer r) (dr_access_token r)
                         (cr_credential cred_req) (cr_proof cred_req)) in
      match crs_response response with
      | CRTransactionId _ => fail (IssuancePending 5)
      | CRCredential _ => ok response
      end
  | _ => fail (ServerError "Deferred state not found.")
  end.

(** ** notification.rs 43-67 *)
Definition notification (r : notification_request) : iprog unit :=
  let! st := sget (nr_notification_id r) in
  let! st := of_opt st (AccessDenied "invalid access token") in
  match s_stage st with
  | Issued _ => spurge (nr_notification_id r) (ServerError "failed to purge state")
  | _ => fail (ServerError "issued state not found")
  end.

(** ** register.rs 17-46 *)
Definition register (r : registration_request) : iprog client :=
  let! st := sget (rr_access_token r) in
  let! _ := of_opt st (ServerError "State not found") in
  let! c := xcall (XRegister (rr_client_metadata r)) in
  of_opt c (ServerError "Registration failed").

(** ** metadata.rs 45-53 *)
Definition metadata (credential_issuer : string) : iprog issuer :=
  let! i := xcall (XIssuer credential_issuer) in
  of_opt i (ServerError "issue getting metadata").

(** ** oauth_server.rs: [process] *)
Definition oauth_server (credential_issuer : string) (iss : option string) : iprog server :=
  let! s := xcall (XServer credential_issuer iss) in
  of_opt s (ServerError "issue getting authorization server metadata").

(** ** All endpoints *)

(** vercre-issuer/src/lib.rs: the public endpoints. *)
Definition ihandler (q : irequest) : iprog ireply :=
  match q with
  | QCreateOffer r => let! x := create_offer r in ok (RCreateOffer x)
  | QCredentialOffer r => let! x := credential_offer_endpoint r in ok (RCredentialOffer x)
  | QAuthorize r => let! x := authorize r in ok (RAuthorize x)
  | QPar r => let! x := par r in ok (RPar x)
  | QToken r => let! x := token r in ok (RToken x)
  | QCredential r => let! x := credential r in ok (RCredential x)
  | QDeferred r => let! x := deferred r in ok (RDeferred x)
  | QNotification r => notification r ;; ok RNotification
  | QRegister r => let! x := register r in ok (RRegister x)
  | QMetadata i => let! x := metadata i in ok (RMetadata x)
  | QOauthServer i s => let! x := oauth_server i s in ok (ROauthServer x)
  end.
