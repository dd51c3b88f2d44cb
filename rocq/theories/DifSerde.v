(** How the verifier's messages and saved state are written as JSON and read back: the [serde]
    derives and hand written implementations of crates/dif-exch/src/lib.rs,
    crates/openid/src/verifier.rs, crates/openid/src/oauth.rs and vercre-verifier/src/state.rs.

    As in SerdeModel.v, what serde's derive macros generate is written from serde's documentation;
    the array form of a struct is left out.  Fields the types of MatcherModel.v leave out are not
    written, and ignored when read. *)
From Verif Require Import Base Json MatcherModel JsonParse CoreModel VcModel Prog IssuerTypes SerdeModel ErrorModel VcSerde VerifierModel.

(** ** crates/dif-exch/src/lib.rs *)

(** 113-123, [ClaimFormat]. *)
Definition ser_claim_format (f : claim_format) : json :=
  JObj (some_entry "alg" ser_strs (cf_alg f) ++ some_entry "proof_type" ser_strs (cf_proof_type f)).
Definition de_claim_format : json → option claim_format := obj (λ m,
  match opt de_strs "alg" m, opt de_strs "proof_type" m with
  | Some a, Some p => Some (ClaimFormat a p)
  | _, _ => None
  end).

(** 212-239, [Filter] with [FilterValue] flattened.  What is left of the object when the first
    entry that names a variant and the type are taken must be nothing ([deny_unknown_fields]). *)
Definition ser_filter (f : filter) : json :=
  JObj [("type", JStr (fl_type f));
        match fl_value f with
        | FConst s => ("const", JStr s) | FPattern s => ("pattern", JStr s) | FFormat s => ("format", JStr s) end].
Definition de_filter_value (m : list (string * json)) : option filter_value :=
  match m with
  | [(k, v)] =>
      if bool_decide (k = "const") then FConst <$> de_str v
      else if bool_decide (k = "pattern") then FPattern <$> de_str v
      else if bool_decide (k = "format") then FFormat <$> de_str v
      else None
  | _ => None
  end.
Definition de_filter : json → option filter := obj (λ m,
  match req de_str "type" m, de_filter_value (flattened ["type"] m) with
  | Some t, Some v => Some (Filter t v)
  | _, _ => None
  end).

(** 155-210, [Field]. *)
Definition ser_field (f : field) : json :=
  JObj ([("path", ser_strs (fd_path f))] ++ some_entry "filter" ser_filter (fd_filter f)
        ++ some_entry "optional" JBool (fd_optional f)).
Definition de_field : json → option field := obj (λ m,
  match req de_strs "path" m, opt de_filter "filter" m, opt de_bool "optional" m with
  | Some p, Some f, Some o => Some (Field p f o)
  | _, _, _ => None
  end).
(** 125-153, [Constraints]. *)
Definition ser_constraints (c : constraints) : json := JObj (some_entry "fields" (ser_list ser_field) (cn_fields c)).
Definition de_constraints : json → option constraints := obj (λ m,
  Constraints <$> opt (de_list de_field) "fields" m).
(** 72-101, [InputDescriptor]. *)
Definition ser_descriptor (d : input_descriptor) : json :=
  JObj ([("id", JStr (id_id d))] ++ some_entry "name" JStr (id_name d) ++ some_entry "purpose" JStr (id_purpose d)
        ++ some_entry "format" (ser_map ser_claim_format) (id_format d)
        ++ [("constraints", ser_constraints (id_constraints d))]).
Definition de_descriptor : json → option input_descriptor := obj (λ m,
  match req de_str "id" m, opt de_str "name" m, opt de_str "purpose" m, opt (de_map de_claim_format) "format" m,
        req de_constraints "constraints" m with
  | Some i, Some n, Some p, Some f, Some c => Some (InputDescriptor i n p f c)
  | _, _, _, _, _ => None
  end).
(** 36-70, [PresentationDefinition]. *)
Definition ser_presentation_definition (d : presentation_definition) : json :=
  JObj ([("id", JStr (pd_id d)); ("input_descriptors", ser_list ser_descriptor (pd_input_descriptors d))]
        ++ some_entry "name" JStr (pd_name d) ++ some_entry "purpose" JStr (pd_purpose d)
        ++ some_entry "format" (ser_map ser_claim_format) (pd_format d)).
Definition de_presentation_definition : json → option presentation_definition := obj (λ m,
  match req de_str "id" m, req (de_list de_descriptor) "input_descriptors" m, opt de_str "name" m, opt de_str "purpose" m,
        opt (de_map de_claim_format) "format" m with
  | Some i, Some l, Some n, Some p, Some f => Some (PresentationDefinition i l n p f)
  | _, _, _, _, _ => None
  end).

(** 299-309, [PathNested]. *)
Definition ser_nested (p : path_nested) : json := JObj [("format", JStr (pn_format p)); ("path", JStr (pn_path p))].
Definition de_nested : json → option path_nested := obj (λ m,
  match req de_str "format" m, req de_str "path" m with
  | Some f, Some p => Some (PathNested f p)
  | _, _ => None
  end).
(** 272-297, [DescriptorMap]. *)
Definition ser_mapping (d : descriptor_map) : json :=
  JObj [("id", JStr (dm_id d)); ("format", JStr (dm_format d)); ("path", JStr (dm_path d));
        ("path_nested", ser_nested (dm_nested d))].
Definition de_mapping : json → option descriptor_map := obj (λ m,
  match req de_str "id" m, req de_str "format" m, req de_str "path" m, req de_nested "path_nested" m with
  | Some i, Some f, Some p, Some n => Some (DescriptorMap i f p n)
  | _, _, _, _ => None
  end).
(** 249-262, [PresentationSubmission]. *)
Definition ser_submission (s : presentation_submission) : json :=
  JObj [("id", JStr (pb_id s)); ("definition_id", JStr (pb_definition_id s));
        ("descriptor_map", ser_list ser_mapping (pb_descriptor_map s))].
Definition de_submission : json → option presentation_submission := obj (λ m,
  match req de_str "id" m, req de_str "definition_id" m, req (de_list de_mapping) "descriptor_map" m with
  | Some i, Some d, Some l => Some (PresentationSubmission i d l)
  | _, _, _ => None
  end).

(** ** Client metadata *)

(** crates/openid/src/oauth.rs 348-372, [TokenEndpointAuth]. *)
Inductive endpoint_auth : Type := AuthNone | AuthClientSecretJwt | AuthPrivateKeyJwt.
Definition ser_endpoint_auth (a : endpoint_auth) : json :=
  JStr (match a with
        | AuthNone => "none" | AuthClientSecretJwt => "client_secret_jwt" | AuthPrivateKeyJwt => "private_key_jwt" end).
Definition de_endpoint_auth : json → option endpoint_auth :=
  unit_variant [("none", AuthNone); ("client_secret_jwt", AuthClientSecretJwt); ("private_key_jwt", AuthPrivateKeyJwt)].

(** oauth.rs 20-129, [OAuthClient], with 608-628 of
    verifier.rs, [Verifier], which flattens it. *)
Record client_metadata : Type := ClientMetadata {
  mt_client_id : string;
  mt_issued_at : option Z;
  mt_secret_expires_at : option Z;
  mt_redirect_uris : option (list string);
  mt_endpoint_auth : option endpoint_auth;
  mt_grant_types : option (list grant_type);
  mt_response_types : option (list response_type);
  mt_pushed : option bool;
  mt_secret : option string;
  mt_name : option string;
  mt_uri : option string;
  mt_logo : option string;
  mt_scope : option string;
  mt_contacts : option string;
  mt_tos : option string;
  mt_policy : option string;
  mt_jwks_uri : option string;
  mt_jwks : option string;
  mt_software_id : option string;
  mt_software_version : option string;
  mt_offer_endpoint : option string;
  (** crates/openid/src/verifier.rs 608-640: [vp_formats], a map whose only possible key is
      [Format::JwtVpJson]; [VpFormat], 589-597, is like [ClaimFormat]. *)
  mt_vp_formats : option (option claim_format);
}.
Definition ser_vp_formats (f : option claim_format) : json := JObj (some_entry "jwt_vp_json" ser_claim_format f).
(** Any other format is "unknown variant"; a repeated key replaces. *)
Fixpoint de_vp_format_entries (m : list (string * json)) (acc : option claim_format) : option (option claim_format) :=
  match m with
  | [] => Some acc
  | (k, v) :: r =>
      if bool_decide (k = "jwt_vp_json") then
        match de_claim_format v with Some f => de_vp_format_entries r (Some f) | None => None end
      else None
  end.
Definition de_vp_formats : json → option (option claim_format) := obj (λ m, de_vp_format_entries m None).
Definition ser_client_metadata (c : client_metadata) : json :=
  JObj ([("client_id", JStr (mt_client_id c))]
        ++ some_entry "client_id_issued_at" ser_int (mt_issued_at c)
        ++ some_entry "client_secret" JStr (mt_secret c)
        ++ some_entry "client_secret_expires_at" ser_int (mt_secret_expires_at c)
        ++ some_entry "redirect_uris" ser_strs (mt_redirect_uris c)
        ++ some_entry "token_endpoint_auth_method" ser_endpoint_auth (mt_endpoint_auth c)
        ++ some_entry "grant_types" (ser_list ser_grant_type) (mt_grant_types c)
        ++ some_entry "response_types" (ser_list ser_response_type) (mt_response_types c)
        ++ some_entry "client_name" JStr (mt_name c)
        ++ some_entry "client_uri" JStr (mt_uri c)
        ++ some_entry "logo_uri" JStr (mt_logo c)
        ++ some_entry "scope" JStr (mt_scope c)
        ++ some_entry "contacts" JStr (mt_contacts c)
        ++ some_entry "tos_uri" JStr (mt_tos c)
        ++ some_entry "policy_uri" JStr (mt_policy c)
        ++ some_entry "jwks_uri" JStr (mt_jwks_uri c)
        ++ some_entry "jwks" JStr (mt_jwks c)
        ++ some_entry "software_id" JStr (mt_software_id c)
        ++ some_entry "software_version" JStr (mt_software_version c)
        ++ some_entry "require_pushed_authorization_requests" JBool (mt_pushed c)
        ++ some_entry "credential_offer_endpoint" JStr (mt_offer_endpoint c)
        ++ some_entry "vp_formats" ser_vp_formats (mt_vp_formats c)).
Definition de_client_metadata : json → option client_metadata := obj (λ m,
  match req de_str "client_id" m, opt (de_int 64) "client_id_issued_at" m, opt (de_int 64) "client_secret_expires_at" m,
        opt de_strs "redirect_uris" m, opt de_endpoint_auth "token_endpoint_auth_method" m,
        opt (de_list de_grant_type) "grant_types" m, opt (de_list de_response_type) "response_types" m,
        opt de_bool "require_pushed_authorization_requests" m with
  | Some i, Some ia, Some se, Some ru, Some ea, Some gt, Some rt, Some pr =>
  match opt de_str "client_secret" m, opt de_str "client_name" m, opt de_str "client_uri" m, opt de_str "logo_uri" m,
        opt de_str "scope" m, opt de_str "contacts" m, opt de_str "tos_uri" m, opt de_str "policy_uri" m with
  | Some cs, Some cn, Some cu, Some lu, Some sc, Some co, Some tu, Some pu =>
  match opt de_str "jwks_uri" m, opt de_str "jwks" m, opt de_str "software_id" m, opt de_str "software_version" m,
        opt de_str "credential_offer_endpoint" m, opt de_vp_formats "vp_formats" m with
  | Some ju, Some j, Some si, Some sv, Some oe, Some vf =>
      Some (ClientMetadata i ia se ru ea gt rt pr cs cn cu lu sc co tu pu ju j si sv oe vf)
  | _, _, _, _, _, _ => None
  end
  | _, _, _, _, _, _, _, _ => None
  end
  | _, _, _, _, _, _, _, _ => None
  end).
(** In VerifierModel.v metadata is the JSON it is written as. *)
Definition de_metadata (j : json) : option json := ser_client_metadata <$> de_client_metadata j.

(** ** crates/openid/src/verifier.rs *)

(** 228-244, [ResponseType]; 246-318, [ClientIdScheme]; 66-95, [DeviceFlow]. *)
Definition ser_vp_response_type (r : vp_response_type) : json :=
  JStr (match r with VpToken => "vp_token" | VpTokenIdToken => "vp_token id_token" | VpCode => "code" end).
Definition de_vp_response_type : json → option vp_response_type :=
  unit_variant [("vp_token", VpToken); ("vp_token id_token", VpTokenIdToken); ("code", VpCode)].
Definition ser_scheme (s : client_id_scheme) : json :=
  JStr (match s with SchemeRedirectUri => "redirect_uri" | SchemeDid => "did" end).
Definition de_scheme : json → option client_id_scheme :=
  unit_variant [("redirect_uri", SchemeRedirectUri); ("did", SchemeDid)].
Definition ser_flow (f : device_flow) : json := JStr (match f with CrossDevice => "CrossDevice" | SameDevice => "SameDevice" end).
Definition de_flow : json → option device_flow := unit_variant [("CrossDevice", CrossDevice); ("SameDevice", SameDevice)].

(** 116-226, [RequestObject]. *)
Definition ser_vp_request_entries (r : vp_request) : list (string * json) :=
  [("response_type", ser_vp_response_type (vo_response_type r)); ("client_id", JStr (vo_client_id r))]
  ++ some_entry "redirect_uri" JStr (vo_redirect_uri r) ++ some_entry "response_mode" JStr (vo_response_mode r)
  ++ some_entry "response_uri" JStr (vo_response_uri r) ++ some_entry "scope" JStr (vo_scope r)
  ++ [("nonce", JStr (vo_nonce r))] ++ some_entry "state" JStr (vo_state r)
  ++ [("presentation_definition", ser_kind ser_presentation_definition (vo_definition r))]
  ++ some_entry "client_id_scheme" ser_scheme (vo_client_id_scheme r)
  ++ [("client_metadata", vo_client_metadata r)].
Definition ser_vp_request (r : vp_request) : json := JObj (ser_vp_request_entries r).
Definition de_vp_request : json → option vp_request := obj (λ m,
  match req de_vp_response_type "response_type" m, req de_str "client_id" m, opt de_str "redirect_uri" m,
        opt de_str "response_mode" m, opt de_str "response_uri" m, opt de_str "scope" m, req de_str "nonce" m,
        opt de_str "state" m, req (de_kind de_presentation_definition) "presentation_definition" m,
        opt de_scheme "client_id_scheme" m, req de_metadata "client_metadata" m with
  | Some rt, Some ci, Some ru, Some rm, Some ri, Some sc, Some n, Some st, Some d, Some cs, Some cm =>
      Some (VpRequest rt ci ru rm ri sc n st d cs cm)
  | _, _, _, _, _, _, _, _, _, _, _ => None
  end).

(** 45-64, [CreateRequestRequest]; [default]. *)
Definition ser_create_request (r : create_request_request) : json :=
  JObj [("client_id", JStr (vq_client_id r)); ("purpose", JStr (vq_purpose r));
        ("input_descriptors", ser_list ser_descriptor (vq_input_descriptors r));
        ("device_flow", ser_flow (vq_device_flow r))].
Definition de_create_request : json → option create_request_request := obj (λ m,
  match dflt de_str "" "client_id" m, dflt de_str "" "purpose" m, dflt (de_list de_descriptor) [] "input_descriptors" m,
        dflt de_flow CrossDevice "device_flow" m with
  | Some c, Some p, Some l, Some f => Some (CreateRequestRequest c p l f)
  | _, _, _, _ => None
  end).
(** 97-108, [CreateRequestResponse]. *)
Definition ser_create_response (r : create_request_response) : json :=
  JObj (some_entry "request_object" ser_vp_request (vr_request_object r) ++ some_entry "request_uri" JStr (vr_request_uri r)).
Definition de_create_response : json → option create_request_response := obj (λ m,
  match opt de_vp_request "request_object" m, opt de_str "request_uri" m with
  | Some o, Some u => Some (CreateRequestResponse o u)
  | _, _ => None
  end).

(** 437-452, [Serialize for RequestObjectResponse], hand written: an object is written with the
    tag of [RequestObjectType], 418-427, inside an object with the same member. *)
Definition ser_object_response (r : request_object_response) : json :=
  match r with
  | RoObject o => JObj [("request_object", JObj [("request_object", ser_vp_request o)])]
  | RoJwt jwt => JStr jwt
  end.
(** 454-503, [Deserialize for RequestObjectResponse], hand written: later members replace earlier
    ones; with no member at all, the default, [RequestObject::default()]. *)
Definition client_metadata_default : json := JObj [("client_id", JStr "")].
Definition vp_request_default : vp_request :=
  VpRequest VpToken "" None None None None "" None (KString "") None client_metadata_default.
Fixpoint de_object_members (m : list (string * json)) (acc : request_object_response) : option request_object_response :=
  match m with
  | [] => Some acc
  | (k, v) :: r =>
      if bool_decide (k = "request_object") then
        match de_vp_request v with Some o => de_object_members r (RoObject o) | None => None end
      else if bool_decide (k = "jwt") then
        match de_str v with Some s => de_object_members r (RoJwt s) | None => None end
      else None
  end.
Definition de_object_response (j : json) : option request_object_response :=
  match j with
  | JStr s => Some (RoJwt s)
  | JObj m => de_object_members m (RoObject vp_request_default)
  | _ => None
  end.

(** 531-563, [ResponseResponse], without [skip_serializing_if]. *)
Definition ser_response_response (r : response_response) : json :=
  JObj [("redirect_uri", null_or JStr (rs_redirect_uri r)); ("response_code", null_or JStr (rs_response_code r))].
Definition de_response_response : json → option response_response := obj (λ m,
  match opt de_str "redirect_uri" m, opt de_str "response_code" m with
  | Some u, Some c => Some (ResponseResponse u c)
  | _, _ => None
  end).

Section Dates.
Variable cx : codecs.
(** 505-529, [ResponseRequest]. *)
Definition ser_response_request (r : response_request) : json :=
  JObj (some_entry "vp_token" (ser_list (ser_kind (ser_vp cx))) (rq_vp_token r)
        ++ some_entry "presentation_submission" ser_submission (rq_submission r)
        ++ some_entry "state" JStr (rq_state r)).
Definition de_response_request : json → option response_request := obj (λ m,
  match opt (de_list (de_kind (de_vp cx))) "vp_token" m, opt de_submission "presentation_submission" m, opt de_str "state" m with
  | Some l, Some s, Some k => Some (ResponseRequest l s k)
  | _, _, _ => None
  end).
(** vercre-verifier/src/state.rs 21-31, [State]. *)
Definition ser_vstate (s : vstate) : json :=
  JObj [("expires_at", ser_date cx (vs_expires_at s)); ("request_object", ser_vp_request (vs_request s))].
Definition de_vstate : json → option vstate := obj (λ m,
  match req (de_date cx) "expires_at" m, req de_vp_request "request_object" m with
  | Some t, Some o => Some (VState t o)
  | _, _ => None
  end).
End Dates.
