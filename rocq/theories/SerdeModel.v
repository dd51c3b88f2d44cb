(** How the issuer's messages and saved state are written as JSON and read back: the [serde]
    derives and hand written implementations of crates/openid/src/issuer.rs, oauth.rs and
    vercre-issuer/src/state.rs.

    serde's derive macros are not part of the repository; what they generate is written from
    serde's documentation.  Left out: the array form a derived struct can also be read from, and
    enum variants given by number.  Fields the types of IssuerTypes.v leave out are not written,
    and ignored when read. *)
From Coq Require Import DecimalString.
From Verif Require Import Base Json MatcherModel JsonParse CoreModel VcModel Prog IssuerTypes.

(** ** Fields *)

(** All values given for [k]. *)
Definition lookups {A} (k : string) (m : list (string * A)) : list A :=
  omap (λ kv, if bool_decide (kv.1 = k) then Some kv.2 else None) m.
(** A field without [default]: given exactly once ("missing field", "duplicate field"). *)
Definition req {A} (d : json → option A) (k : string) (m : list (string * json)) : option A :=
  match lookups k m with [j] => d j | _ => None end.
(** A field with [default]. *)
Definition dflt {A} (d : json → option A) (a : A) (k : string) (m : list (string * json)) : option A :=
  match lookups k m with [] => Some a | [j] => d j | _ => None end.
(** An [Option] field: left out or [null] is [None]. *)
Definition opt {A} (d : json → option A) (k : string) (m : list (string * json)) : option (option A) :=
  match lookups k m with
  | [] | [JNull] => Some None
  | [j] => match d j with Some a => Some (Some a) | None => None end
  | _ => None
  end.
(** [skip_serializing_if = "Option::is_none"]. *)
Definition some_entry {A} (k : string) (f : A → json) (o : option A) : list (string * json) :=
  match o with Some a => [(k, f a)] | None => [] end.
(** An [Option] field without it. *)
Definition null_or {A} (f : A → json) (o : option A) : json :=
  match o with Some a => f a | None => JNull end.
(** [skip_serializing_if = "String::is_empty"]. *)
Definition str_entry (k : string) (s : string) : list (string * json) :=
  if bool_decide (s = "") then [] else [(k, JStr s)].
Definition obj {A} (d : list (string * json) → option A) (j : json) : option A :=
  match j with JObj m => d m | _ => None end.

(** ** Simple values *)
Definition de_str (j : json) : option string := match j with JStr s => Some s | _ => None end.
Definition de_bool (j : json) : option bool := match j with JBool b => Some b | _ => None end.
Definition int_text (z : Z) : string := NilZero.string_of_int (Z.to_int z).
Definition ser_int (z : Z) : json := JNum (int_text z).
(** Integers of [n] bits; "-0" and fractions are floating point numbers. *)
Definition int_range (n : Z) (z : Z) : bool := Z.leb (- 2 ^ (n - 1)) z && Z.ltb z (2 ^ (n - 1)).
Definition de_int (n : Z) (j : json) : option Z :=
  match j with
  | JNum t => match NilZero.int_of_string t with
      | Some d => let z := Z.of_int d in
                  if bool_decide (int_text z = t) && int_range n z then Some z else None
      | None => None end
  | _ => None
  end.
Definition ser_list {A} (f : A → json) (l : list A) : json := JArr (map f l).
Definition de_list {A} (d : json → option A) (j : json) : option (list A) :=
  match j with JArr l => mapM d l | _ => None end.
Definition ser_strs : list string → json := ser_list JStr.
Definition de_strs : json → option (list string) := de_list de_str.
(** [HashMap<String, A>]: written in its order; when read, a repeated key replaces. *)
Definition ser_map {A} (f : A → json) (l : list (string * A)) : json := JObj (map (λ kv, (kv.1, f kv.2)) l).
Fixpoint de_entries {A} (d : json → option A) (m : list (string * json)) (acc : list (string * A))
  : option (list (string * A)) :=
  match m with
  | [] => Some acc
  | (k, v) :: r => match d v with Some a => de_entries d r (ainsert k a acc) | None => None end
  end.
Definition de_map {A} (d : json → option A) : json → option (list (string * A)) := obj (λ m, de_entries d m []).
(** The variant of an enum: its name alone, or an object with the name as its only key. *)
Definition variant (j : json) : option (string * option json) :=
  match j with JStr s => Some (s, None) | JObj [(k, v)] => Some (k, Some v) | _ => None end.
(** A variant without content. *)
Definition unit_variant {A} (names : list (string * A)) (j : json) : option A :=
  match variant j with
  | Some (k, None) | Some (k, Some JNull) => assoc k names
  | _ => None
  end.

(** crates/openid/src/oauth.rs 287-298, 301-315, 386-393. *)
Definition ser_grant_type (g : grant_type) : json :=
  JStr (match g with
        | AuthorizationCode => "authorization_code"
        | PreAuthorizedCode => "urn:ietf:params:oauth:grant-type:pre-authorized_code" end).
Definition de_grant_type : json → option grant_type :=
  unit_variant [("authorization_code", AuthorizationCode);
                ("urn:ietf:params:oauth:grant-type:pre-authorized_code", PreAuthorizedCode)].
Definition ser_response_type (r : response_type) : json :=
  JStr (match r with RTCode => "code" | RTVpToken => "vp_token" | RTIdToken => "id_token vp_token" end).
Definition de_response_type : json → option response_type :=
  unit_variant [("code", RTCode); ("vp_token", RTVpToken); ("id_token vp_token", RTIdToken)].
Definition ser_method (c : code_challenge_method) : json := match c with S256 => JStr "S256" end.
Definition de_method : json → option code_challenge_method := unit_variant [("S256", S256)].
(** crates/openid/src/issuer.rs 119-130. *)
Definition ser_send_type (s : send_type) : json := JStr (match s with ByVal => "ByVal" | ByRef => "ByRef" end).
Definition de_send_type : json → option send_type := unit_variant [("ByVal", ByVal); ("ByRef", ByRef)].

(** ** Claims and formats *)

(** 1890-1897: [Claim], untagged, over 1952-1983 [ClaimDefinition]. *)
Fixpoint ser_claim (c : claim) : json :=
  match c with
  | CEntry mandatory => JObj (some_entry "mandatory" JBool mandatory)
  | CSet l => JObj ((fix go (l : list (string * claim)) :=
      match l with [] => [] | (k, c) :: r => (k, ser_claim c) :: go r end) l)
  end.
Definition ser_claimset : claimset → json := ser_map ser_claim.
(** 1577-1590 [Display] and 1986-2002 [ValueType]: whether they can be read. *)
Definition display_ok (j : json) : bool :=
  match j with
  | JArr l => forallb (λ j, match obj (λ m, match req de_str "name" m, opt de_str "locale" m with
                                            | Some _, Some _ => Some () | _, _ => None end) j with
                            | Some _ => true | None => false end) l
  | _ => false
  end.
Definition value_type_ok (j : json) : bool :=
  match unit_variant [("string", ()); ("number", ()); ("image", ())] j with Some _ => true | None => false end.
(** 1907-1948: [Deserialize for Claim], hand written. *)
Fixpoint de_claim (j : json) {struct j} : option claim :=
  match j with
  | JObj m =>
      (fix go (m : list (string * json)) (mandatory : option bool) (set : claimset) : option claim :=
         match m with
         | [] => Some (match set with [] => CEntry mandatory | _ => CSet set end)
         | (k, v) :: r =>
             if bool_decide (k = "mandatory") then
               match de_bool v with Some b => go r (Some b) set | None => None end
             else if bool_decide (k = "value_type") then if value_type_ok v then go r mandatory set else None
             else if bool_decide (k = "display") then if display_ok v then go r mandatory set else None
             else match de_claim v with Some c => go r mandatory (ainsert k c set) | None => None end
         end) m None []
  | _ => None
  end.
Definition de_claimset : json → option claimset := de_map de_claim.

(** 1853-1885: [CredentialDefinition]. *)
Definition ser_definition (d : credential_definition) : json :=
  JObj (some_entry "@context" ser_strs (cd_context d) ++ some_entry "type" ser_strs (cd_type d)
        ++ some_entry "credentialSubject" ser_claimset (cd_subject d)).
Definition de_definition : json → option credential_definition := obj (λ m,
  match opt de_strs "@context" m, opt de_strs "type" m, opt de_claimset "credentialSubject" m with
  | Some c, Some t, Some s => Some (CredentialDefinition c t s)
  | _, _, _ => None
  end).
(** 715-767: [Format], tagged with [format], over the profiles 836-889. *)
Definition ser_format (f : format) : list (string * json) :=
  match f with
  | FJwtVcJson d => [("format", JStr "jwt_vc_json"); ("credential_definition", ser_definition d)]
  | FLdpVc d => [("format", JStr "ldp-vc"); ("credential_definition", ser_definition d)]
  | FJwtVcJsonLd d => [("format", JStr "jwt_vc_json-ld"); ("credential_definition", ser_definition d)]
  | FIsoMdl doctype c => [("format", JStr "mso_mdoc"); ("doctype", JStr doctype)] ++ some_entry "claims" ser_claimset c
  | FVcSdJwt vct c => [("format", JStr "vc+sd-jwt"); ("vct", JStr vct)] ++ some_entry "claims" ser_claimset c
  end.
Definition de_format (m : list (string * json)) : option format :=
  match req de_str "format" m with
  | Some tag =>
      if bool_decide (tag = "jwt_vc_json") then FJwtVcJson <$> req de_definition "credential_definition" m
      else if bool_decide (tag = "ldp-vc") then FLdpVc <$> req de_definition "credential_definition" m
      else if bool_decide (tag = "jwt_vc_json-ld") then FJwtVcJsonLd <$> req de_definition "credential_definition" m
      else if bool_decide (tag = "mso_mdoc") then
        match req de_str "doctype" m, opt de_claimset "claims" m with Some t, Some c => Some (FIsoMdl t c) | _, _ => None end
      else if bool_decide (tag = "vc+sd-jwt") then
        match req de_str "vct" m, opt de_claimset "claims" m with Some t, Some c => Some (FVcSdJwt t c) | _, _ => None end
      else None
  | None => None
  end.

(** An externally tagged enum behind [flatten]: the first entry whose key names a variant. *)
Fixpoint first_of {A} (ks : list string) (m : list (string * A)) : option (string * A) :=
  match m with
  | [] => None
  | (k, v) :: r => if bool_decide (k ∈ ks) then Some (k, v) else first_of ks r
  end.
(** 803-817: [ProfileClaims], flattened. *)
Definition ser_profile_claims (p : profile_claims) : list (string * json) :=
  match p with
  | PCW3c d => [("credential_definition", ser_definition d)]
  | PCIsoMdl c => [("claims", ser_claimset c)]
  | PCSdJwt c => [("claims", ser_claimset c)]
  end.
Definition de_profile_claims (m : list (string * json)) : option profile_claims :=
  match first_of ["credential_definition"; "claims"] m with
  | Some (k, v) => if bool_decide (k = "credential_definition") then PCW3c <$> de_definition v
                   else PCIsoMdl <$> de_claimset v
  | None => None
  end.
(** 651-671: [CredentialAuthorization], untagged: the first variant that can be read.  A
    flattened [Option] that cannot be read is [None]. *)
Definition ser_authorization (c : credential_authorization) : list (string * json) :=
  match c with
  | ByConfigurationId id claims =>
      [("credential_configuration_id", JStr id)]
      ++ match claims with Some p => ser_profile_claims p | None => [] end
  | ByFormat f => ser_format f
  end.
Definition de_authorization (m : list (string * json)) : option credential_authorization :=
  match req de_str "credential_configuration_id" m with
  | Some id => Some (ByConfigurationId id (de_profile_claims m))
  | None => ByFormat <$> de_format m
  end.
(** 609-648: [AuthorizationDetail].  The credential is read from the other entries; they are not
    taken out here, as their names do not overlap. *)
Definition ser_detail_entries (d : authorization_detail) : list (string * json) :=
  [("type", JStr "openid_credential")] ++ ser_authorization (ad_credential d)
  ++ some_entry "locations" ser_strs (ad_locations d).
Definition ser_detail (d : authorization_detail) : json := JObj (ser_detail_entries d).
Definition de_detail_entries (m : list (string * json)) : option authorization_detail :=
  match req (unit_variant [("openid_credential", ())]) "type" m, opt de_strs "locations" m, de_authorization m with
  | Some _, Some l, Some c => Some (AuthorizationDetail c l)
  | _, _, _ => None
  end.
Definition de_detail : json → option authorization_detail := obj de_detail_entries.
(** 1089-1104: [AuthorizedDetail]. *)
Definition ser_authorized_detail (d : authorized_detail) : json :=
  JObj (ser_detail_entries (atd_detail d) ++ [("credential_identifiers", ser_strs (atd_identifiers d))]).
Definition de_authorized_detail : json → option authorized_detail := obj (λ m,
  match de_detail_entries m, req de_strs "credential_identifiers" m with
  | Some d, Some l => Some (AuthorizedDetail d l)
  | _, _ => None
  end).

(** ** Offers *)

(** 86-117: [CreateOfferRequest]. *)
Definition ser_create_offer (r : create_offer_request) : json :=
  JObj (str_entry "credential_issuer" (co_credential_issuer r)
        ++ some_entry "subject_id" JStr (co_subject_id r)
        ++ [("credential_configuration_ids", ser_strs (co_configuration_ids r))]
        ++ some_entry "grant_types" (ser_list ser_grant_type) (co_grant_types r)
        ++ [("tx_code_required", JBool (co_tx_code_required r)); ("send_type", ser_send_type (co_send_type r))]).
Definition de_create_offer : json → option create_offer_request := obj (λ m,
  match dflt de_str "" "credential_issuer" m, opt de_str "subject_id" m, req de_strs "credential_configuration_ids" m,
        opt (de_list de_grant_type) "grant_types" m, req de_bool "tx_code_required" m, req de_send_type "send_type" m with
  | Some i, Some s, Some c, Some g, Some t, Some st => Some (CreateOfferRequest i s c g t st)
  | _, _, _, _, _, _ => None
  end).
(** 358-386: [TxCode]. *)
Definition ser_tx_code (t : tx_code_spec) : json :=
  JObj (some_entry "input_mode" JStr (tc_input_mode t) ++ some_entry "length" ser_int (tc_length t)
        ++ some_entry "description" JStr (tc_description t)).
Definition de_tx_code : json → option tx_code_spec := obj (λ m,
  match opt de_str "input_mode" m, opt (de_int 32) "length" m, opt de_str "description" m with
  | Some i, Some l, Some d => Some (TxCodeSpec i l d)
  | _, _, _ => None
  end).
(** 308-343: [PreAuthorizedCodeGrant]. *)
Definition ser_pre_grant (g : pre_authorized_code_grant) : json :=
  JObj ([("pre-authorized_code", JStr (pg_code g))] ++ some_entry "tx_code" ser_tx_code (pg_tx_code g)
        ++ some_entry "authorization_server" JStr (pg_authorization_server g)).
Definition de_pre_grant : json → option pre_authorized_code_grant := obj (λ m,
  match req de_str "pre-authorized_code" m, opt de_tx_code "tx_code" m, opt de_str "authorization_server" m with
  | Some c, Some t, Some s => Some (PreAuthorizedCodeGrant c t s)
  | _, _, _ => None
  end).
(** 287-306: [AuthorizationCodeGrant]. *)
Definition ser_code_grant (g : authorization_code_grant) : json :=
  JObj (some_entry "issuer_state" JStr (ag_issuer_state g)
        ++ some_entry "authorization_server" JStr (ag_authorization_server g)).
Definition de_code_grant : json → option authorization_code_grant := obj (λ m,
  match opt de_str "issuer_state" m, opt de_str "authorization_server" m with
  | Some i, Some s => Some (AuthorizationCodeGrant i s)
  | _, _ => None
  end).
(** 264-285: [Grants]. *)
Definition pre_authorized_name : string := "urn:ietf:params:oauth:grant-type:pre-authorized_code".
Definition ser_grants (g : grants) : json :=
  JObj (some_entry "authorization_code" ser_code_grant (gr_authorization_code g)
        ++ some_entry pre_authorized_name ser_pre_grant (gr_pre_authorized_code g)).
Definition de_grants : json → option grants := obj (λ m,
  match opt de_code_grant "authorization_code" m, opt de_pre_grant pre_authorized_name m with
  | Some a, Some p => Some (Grants a p)
  | _, _ => None
  end).
(** 183-216: [CredentialOffer]. *)
Definition ser_offer (o : credential_offer) : json :=
  JObj (str_entry "credential_issuer" (of_credential_issuer o)
        ++ [("credential_configuration_ids", ser_strs (of_configuration_ids o))]
        ++ some_entry "grants" ser_grants (of_grants o)).
Definition de_offer : json → option credential_offer := obj (λ m,
  match dflt de_str "" "credential_issuer" m, req de_strs "credential_configuration_ids" m, opt de_grants "grants" m with
  | Some i, Some c, Some g => Some (CredentialOffer i c g)
  | _, _, _ => None
  end).
(** 152-180: [CreateOfferResponse] with the flattened [OfferType]. *)
Definition ser_create_offer_response (r : create_offer_response) : json :=
  JObj ([match cor_offer r with
         | OfferObject o => ("credential_offer", ser_offer o)
         | OfferUri u => ("credential_offer_uri", JStr u) end]
        ++ some_entry "tx_code" JStr (cor_tx_code r)).
Definition de_create_offer_response : json → option create_offer_response := obj (λ m,
  match first_of ["credential_offer"; "credential_offer_uri"] m, opt de_str "tx_code" m with
  | Some (k, v), Some t =>
      if bool_decide (k = "credential_offer")
      then match de_offer v with Some o => Some (CreateOfferResponse (OfferObject o) t) | None => None end
      else match de_str v with Some u => Some (CreateOfferResponse (OfferUri u) t) | None => None end
  | _, _ => None
  end).

(** ** Authorization *)

(** 523-607: [RequestObject], every field with a default. *)
Definition ser_request_entries (r : request_object) : list (string * json) :=
  str_entry "credential_issuer" (ro_credential_issuer r)
  ++ [("response_type", ser_response_type (ro_response_type r)); ("client_id", JStr (ro_client_id r))]
  ++ some_entry "redirect_uri" JStr (ro_redirect_uri r) ++ some_entry "state" JStr (ro_state r)
  ++ [("code_challenge", JStr (ro_code_challenge r)); ("code_challenge_method", ser_method (ro_code_challenge_method r))]
  ++ some_entry "authorization_details" (ser_list ser_detail) (ro_authorization_details r)
  ++ some_entry "scope" JStr (ro_scope r) ++ [("subject_id", JStr (ro_subject_id r))]
  ++ some_entry "issuer_state" JStr (ro_issuer_state r).
Definition ser_request (r : request_object) : json := JObj (ser_request_entries r).
Definition de_request_entries (m : list (string * json)) : option request_object :=
  match dflt de_str "" "credential_issuer" m, dflt de_response_type RTCode "response_type" m,
        dflt de_str "" "client_id" m, opt de_str "redirect_uri" m, opt de_str "state" m,
        dflt de_str "" "code_challenge" m, dflt de_method S256 "code_challenge_method" m,
        opt (de_list de_detail) "authorization_details" m, opt de_str "scope" m,
        dflt de_str "" "subject_id" m, opt de_str "issuer_state" m with
  | Some i, Some rt, Some c, Some ru, Some st, Some cc, Some cm, Some ad, Some sc, Some su, Some is =>
      Some (RequestObject i rt c ru st cc cm ad sc su is)
  | _, _, _, _, _, _, _, _, _, _, _ => None
  end.
Definition de_request : json → option request_object := obj de_request_entries.

(** 409-418: [Serialize for AuthorizationRequest], untagged, and 448-512 [Deserialize], hand
    written.  Repeated keys replace; the value of a key it does not know is not taken from the
    input, which the JSON text reader answers with an error ([strict]) and the reader of
    [serde_json::Value]s does not notice.  [resource], [wallet_issuer] and [user_hint] are read
    and forgotten. *)
Definition ser_authorization_request (r : authorization_request) : json :=
  match r with
  | ARUri u => JObj [("request_uri", JStr u)]
  | ARObject o => ser_request o
  end.
Definition empty_request : request_object :=
  RequestObject "" RTCode "" None None "" S256 None None "" None.
Definition read_key (strict : bool) (k : string) (v : json) (r : request_object) (uri : string)
  : option (request_object * string) :=
  let '(RequestObject i rt c ru st cc cm ad sc su is) := r in
  let str (f : string → request_object) := match de_str v with Some s => Some (f s, uri) | None => None end in
  if bool_decide (k = "credential_issuer") then str (λ i, RequestObject i rt c ru st cc cm ad sc su is)
  else if bool_decide (k = "response_type") then
    match de_response_type v with Some rt => Some (RequestObject i rt c ru st cc cm ad sc su is, uri) | None => None end
  else if bool_decide (k = "client_id") then str (λ c, RequestObject i rt c ru st cc cm ad sc su is)
  else if bool_decide (k = "redirect_uri") then str (λ x, RequestObject i rt c (Some x) st cc cm ad sc su is)
  else if bool_decide (k = "state") then str (λ x, RequestObject i rt c ru (Some x) cc cm ad sc su is)
  else if bool_decide (k = "code_challenge") then str (λ x, RequestObject i rt c ru st x cm ad sc su is)
  else if bool_decide (k = "code_challenge_method") then
    match de_method v with Some cm => Some (RequestObject i rt c ru st cc cm ad sc su is, uri) | None => None end
  else if bool_decide (k = "authorization_details") then
    match de_list de_detail v with
    | Some x => Some (RequestObject i rt c ru st cc cm (Some x) sc su is, uri) | None => None end
  else if bool_decide (k = "scope") then str (λ x, RequestObject i rt c ru st cc cm ad (Some x) su is)
  else if bool_decide (k ∈ ["resource"; "wallet_issuer"; "user_hint"]) then str (λ _, r)
  else if bool_decide (k = "subject_id") then str (λ x, RequestObject i rt c ru st cc cm ad sc x is)
  else if bool_decide (k = "issuer_state") then str (λ x, RequestObject i rt c ru st cc cm ad sc su (Some x))
  else if bool_decide (k = "request_uri") then
    match de_str v with Some u => Some (r, u) | None => None end
  else if strict then None else Some (r, uri).
Fixpoint read_keys (strict : bool) (m : list (string * json)) (r : request_object) (uri : string)
  : option (request_object * string) :=
  match m with
  | [] => Some (r, uri)
  | (k, v) :: m => match read_key strict k v r uri with Some (r, uri) => read_keys strict m r uri | None => None end
  end.
Definition de_authorization_request (strict : bool) : json → option authorization_request := obj (λ m,
  match read_keys strict m empty_request "" with
  | Some (r, uri) => Some (if bool_decide (uri = "") then ARObject r else ARUri uri)
  | None => None
  end).

(** 890-905 and 923-938. *)
Definition ser_authorization_response (r : authorization_response) : json :=
  JObj ([("code", JStr (ar_code r))] ++ some_entry "state" JStr (ar_state r) ++ [("redirect_uri", JStr (ar_redirect_uri r))]).
Definition de_authorization_response : json → option authorization_response := obj (λ m,
  match req de_str "code" m, opt de_str "state" m, req de_str "redirect_uri" m with
  | Some c, Some s, Some u => Some (AuthorizationResponse c s u)
  | _, _, _ => None
  end).
Definition ser_par_response (r : par_response) : json :=
  JObj [("request_uri", JStr (pr_request_uri r)); ("expires_in", ser_int (pr_expires_in r))].
Definition de_par_response : json → option par_response := obj (λ m,
  match req de_str "request_uri" m, req (de_int 64) "expires_in" m with
  | Some u, Some e => Some (ParResponse u e)
  | _, _ => None
  end).

(** ** Token *)

(** 980-1019: [TokenGrantType], tagged with [grant_type]. *)
Definition ser_token_grant (g : token_grant) : list (string * json) :=
  match g with
  | TGAuthorizationCode code ru cv =>
      [("grant_type", JStr "authorization_code"); ("code", JStr code)]
      ++ some_entry "redirect_uri" JStr ru ++ some_entry "code_verifier" JStr cv
  | TGPreAuthorizedCode code tx =>
      [("grant_type", JStr pre_authorized_name); ("pre-authorized_code", JStr code)] ++ some_entry "tx_code" JStr tx
  end.
Definition de_token_grant (m : list (string * json)) : option token_grant :=
  match req de_str "grant_type" m with
  | Some tag =>
      if bool_decide (tag = "authorization_code") then
        match req de_str "code" m, opt de_str "redirect_uri" m, opt de_str "code_verifier" m with
        | Some c, Some u, Some v => Some (TGAuthorizationCode c u v)
        | _, _, _ => None end
      else if bool_decide (tag = pre_authorized_name) then
        match req de_str "pre-authorized_code" m, opt de_str "tx_code" m with
        | Some c, Some t => Some (TGPreAuthorizedCode c t)
        | _, _ => None end
      else None
  | None => None
  end.
(** 940-978: [TokenRequest]. *)
Definition ser_token_request (r : token_request) : json :=
  JObj (str_entry "credential_issuer" (tr_credential_issuer r) ++ [("client_id", null_or JStr (tr_client_id r))]
        ++ ser_token_grant (tr_grant r)
        ++ some_entry "authorization_details" (ser_list ser_detail) (tr_authorization_details r)).
Definition de_token_request : json → option token_request := obj (λ m,
  match dflt de_str "" "credential_issuer" m, opt de_str "client_id" m, de_token_grant m,
        opt (de_list de_detail) "authorization_details" m with
  | Some i, Some c, Some g, Some d => Some (TokenRequest i c g d)
  | _, _, _, _ => None
  end).
(** 1044-1087: [TokenResponse]. *)
Definition ser_token_response (r : token_response) : json :=
  JObj ([("access_token", JStr (trs_access_token r)); ("token_type", JStr "Bearer");
         ("expires_in", ser_int (trs_expires_in r))]
        ++ some_entry "c_nonce" JStr (trs_c_nonce r) ++ some_entry "c_nonce_expires_in" ser_int (trs_c_nonce_expires_in r)
        ++ some_entry "authorization_details" (ser_list ser_authorized_detail) (trs_authorization_details r)).
Definition de_token_response : json → option token_response := obj (λ m,
  match req de_str "access_token" m, req (unit_variant [("Bearer", ())]) "token_type" m, req (de_int 64) "expires_in" m,
        opt de_str "c_nonce" m, opt (de_int 64) "c_nonce_expires_in" m,
        opt (de_list de_authorized_detail) "authorization_details" m with
  | Some a, Some _, Some e, Some n, Some ne, Some d => Some (TokenResponse a e n ne d)
  | _, _, _, _, _, _ => None
  end).

(** ** Credential *)

(** 1144-1162: [CredentialIssuance], untagged. *)
Definition ser_issuance (c : credential_issuance) : list (string * json) :=
  match c with
  | CIIdentifier id => [("credential_identifier", JStr id)]
  | CIFormat f => ser_format f
  end.
Definition de_issuance (m : list (string * json)) : option credential_issuance :=
  match req de_str "credential_identifier" m with
  | Some id => Some (CIIdentifier id)
  | None => CIFormat <$> de_format m
  end.
(** 1172-1231: [Proof], [SingleProof] (tagged with [proof_type]) and [MultipleProofs], flattened. *)
Definition ser_proof (p : key_proof) : list (string * json) :=
  match p with
  | PSingle jwt => [("proof", JObj [("proof_type", JStr "jwt"); ("jwt", JStr jwt)])]
  | PMultiple jwts => [("proofs", JObj [("jwt", ser_strs jwts)])]
  end.
Definition de_proof (m : list (string * json)) : option key_proof :=
  match first_of ["proof"; "proofs"] m with
  | Some (k, v) =>
      if bool_decide (k = "proof") then
        obj (λ m, match req de_str "proof_type" m with
                  | Some t => if bool_decide (t = "jwt") then PSingle <$> req de_str "jwt" m else None
                  | None => None end) v
      else match variant v with
           | Some (k, Some v) => if bool_decide (k = "jwt") then PMultiple <$> de_strs v else None
           | _ => None end
  | None => None
  end.
(** 1106-1142: [CredentialRequest].  A flattened [Option] that cannot be read is [None]. *)
Definition ser_credential_request (r : credential_request) : json :=
  JObj (str_entry "credential_issuer" (cr_credential_issuer r) ++ str_entry "access_token" (cr_access_token r)
        ++ ser_issuance (cr_credential r) ++ match cr_proof r with Some p => ser_proof p | None => [] end).
Definition de_credential_request : json → option credential_request := obj (λ m,
  match dflt de_str "" "credential_issuer" m, dflt de_str "" "access_token" m, de_issuance m with
  | Some i, Some a, Some c => Some (CredentialRequest i a c (de_proof m))
  | _, _, _ => None
  end).
(** 1334-1352: [DeferredCredentialRequest]; 2037-2065: [NotificationRequest]. *)
Definition ser_deferred_request (r : deferred_request) : json :=
  JObj (str_entry "credential_issuer" (dr_credential_issuer r) ++ str_entry "access_token" (dr_access_token r)
        ++ [("transaction_id", JStr (dr_transaction_id r))]).
Definition de_deferred_request : json → option deferred_request := obj (λ m,
  match dflt de_str "" "credential_issuer" m, dflt de_str "" "access_token" m, req de_str "transaction_id" m with
  | Some i, Some a, Some t => Some (DeferredRequest i a t)
  | _, _, _ => None
  end).

(** ** Saved state: vercre-issuer/src/state.rs *)

(** chrono's RFC 3339 text of a time, and serde's representation of a credential. *)
Record codecs : Type := Codecs {
  date_text : Z → string;
  date_of : string → option Z;
  vc_json : vc → json;
  vc_of : json → option vc;
}.

(** 144-163. *)
Definition ser_item (i : authorized_item) : json :=
  JObj ([match ai_item i with
         | ItemDetail d => ("AuthorizationDetail", ser_detail d)
         | ItemScope s => ("Scope", JStr s) end]
        ++ [("credential_configuration_id", JStr (ai_configuration_id i));
            ("credential_identifiers", ser_strs (ai_identifiers i))]).
Definition de_item : json → option authorized_item := obj (λ m,
  match first_of ["AuthorizationDetail"; "Scope"] m,
        req de_str "credential_configuration_id" m, req de_strs "credential_identifiers" m with
  | Some (k, v), Some c, Some l =>
      if bool_decide (k = "AuthorizationDetail")
      then match de_detail v with Some d => Some (AuthorizedItem (ItemDetail d) c l) | None => None end
      else match de_str v with Some s => Some (AuthorizedItem (ItemScope s) c l) | None => None end
  | _, _, _ => None
  end).
(** 76-87. *)
Definition ser_offered (o : offer) : json :=
  JObj ([("items", null_or (ser_list ser_item) (off_items o))] ++ some_entry "tx_code" JStr (off_tx_code o)).
Definition de_offered : json → option offer := obj (λ m,
  match opt (de_list de_item) "items" m, opt de_str "tx_code" m with
  | Some i, Some t => Some (Offer i t)
  | _, _ => None
  end).
(** 89-109. *)
Definition ser_authorized (a : authorized) : json :=
  JObj ([("credential_identifier", JStr (au_identifier a)); ("credential_configuration_id", JStr (au_configuration_id a))]
        ++ some_entry "claim_ids" ser_strs (au_claim_ids a)).
Definition de_authorized : json → option authorized := obj (λ m,
  match req de_str "credential_identifier" m, req de_str "credential_configuration_id" m, opt de_strs "claim_ids" m with
  | Some i, Some c, Some l => Some (Authorized i c l)
  | _, _, _ => None
  end).
(** 111-130. *)
Definition ser_authz (a : authorization) : json :=
  JObj ([("client_id", JStr (az_client_id a))] ++ some_entry "redirect_uri" JStr (az_redirect_uri a)
        ++ [("code_challenge", JStr (az_code_challenge a)); ("code_challenge_method", ser_method (az_code_challenge_method a));
            ("items", ser_list ser_item (az_items a))]).
Definition de_authz : json → option authorization := obj (λ m,
  match req de_str "client_id" m, opt de_str "redirect_uri" m, req de_str "code_challenge" m,
        req de_method "code_challenge_method" m, req (de_list de_item) "items" m with
  | Some c, Some u, Some cc, Some cm, Some i => Some (Authorization c u cc cm i)
  | _, _, _, _, _ => None
  end).

Section State.
Variable cx : codecs.
Definition ser_date (t : Z) : json := JStr (date_text cx t).
Definition de_date (j : json) : option Z := match j with JStr s => date_of cx s | _ => None end.
(** 170-188. *)
Definition ser_token (t : token_state) : json :=
  JObj [("access_token", JStr (tk_access_token t)); ("c_nonce", JStr (tk_c_nonce t));
        ("c_nonce_expires_at", ser_date (tk_c_nonce_expires_at t));
        ("credentials", ser_map ser_authorized (tk_credentials t))].
Definition de_token : json → option token_state := obj (λ m,
  match req de_str "access_token" m, req de_str "c_nonce" m, req de_date "c_nonce_expires_at" m,
        req (de_map de_authorized) "credentials" m with
  | Some a, Some n, Some e, Some c => Some (Token a n e c)
  | _, _, _, _ => None
  end).
(** 40-74 with 132-139, 200-215. *)
Definition ser_stage (s : stage) : json :=
  match s with
  | Unauthorized => JStr "unauthorized"
  | Pending o => JObj [("pending", ser_offer o)]
  | Offered o => JObj [("offered", ser_offered o)]
  | PushedAuthorization r e =>
      JObj [("pushed_authorization", JObj [("request", ser_request r); ("expires_at", ser_date e)])]
  | StAuthorized a => JObj [("authorized", ser_authz a)]
  | Validated t => JObj [("validated", ser_token t)]
  | Issued c => JObj [("issued", JObj [("credential", vc_json cx c)])]
  | Deferred t r =>
      JObj [("deferred", JObj [("transaction_id", JStr t); ("credential_request", ser_credential_request r)])]
  end.
Definition de_stage (j : json) : option stage :=
  match variant j with
  | Some (k, None) | Some (k, Some JNull) => if bool_decide (k = "unauthorized") then Some Unauthorized else None
  | Some (k, Some v) =>
      if bool_decide (k = "pending") then Pending <$> de_offer v
      else if bool_decide (k = "offered") then Offered <$> de_offered v
      else if bool_decide (k = "pushed_authorization") then
        obj (λ m, match req de_request "request" m, req de_date "expires_at" m with
                  | Some r, Some e => Some (PushedAuthorization r e) | _, _ => None end) v
      else if bool_decide (k = "authorized") then StAuthorized <$> de_authz v
      else if bool_decide (k = "validated") then Validated <$> de_token v
      else if bool_decide (k = "issued") then obj (λ m, Issued <$> req (vc_of cx) "credential" m) v
      else if bool_decide (k = "deferred") then
        obj (λ m, match req de_str "transaction_id" m, req de_credential_request "credential_request" m with
                  | Some t, Some r => Some (Deferred t r) | _, _ => None end) v
      else None
  | None => None
  end.
(** 16-31. *)
Definition ser_state (s : state) : json :=
  JObj (some_entry "subject_id" JStr (s_subject_id s)
        ++ [("stage", ser_stage (s_stage s)); ("expires_at", ser_date (s_expires_at s))]).
Definition de_state : json → option state := obj (λ m,
  match opt de_str "subject_id" m, req de_stage "stage" m, req de_date "expires_at" m with
  | Some s, Some st, Some e => Some (State s st e)
  | _, _, _ => None
  end).
End State.

(** [serde_json::to_string] and [serde_json::from_str]. *)
Definition write {A} (f : A → json) (a : A) : string := json_text (f a).
Definition read {A} (d : json → option A) (s : string) : option A :=
  match parse_json s with Some j => d j | None => None end.
