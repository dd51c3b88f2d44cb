(** What metadata of issuers and authorization servers must look like to be read, in terms of its
    JSON; and which metadata survives being written and read. *)
From Verif Require Import Base Json MatcherModel JsonParse CoreModel VcModel Prog IssuerTypes SerdeModel ErrorModel SerdeSpec WireSpec VcSpec DifSerde DifSpec MetaSerde.

(** ** Tables of members *)
Inductive need : Type := Required | Optional | Defaulted.
Definition member_ok (k : string) (n : need) (P : json → Prop) (m : list (string * json)) : Prop :=
  match n with
  | Required => ∃ v, values_of k m = [v] ∧ P v
  | Optional => left_out_or P k m
  | Defaulted => values_of k m = [] ∨ ∃ v, values_of k m = [v] ∧ P v
  end.
(** Each member of the table is as it says; other members may be there. *)
Definition members_as (t : list (string * need * (json → Prop))) (m : list (string * json)) : Prop :=
  Forall (λ e, member_ok e.1.1 e.1.2 e.2 m) t.

(** ** Kinds of values *)
Definition text (v : json) : Prop := ∃ s, v = JStr s.
Definition flag (v : json) : Prop := ∃ b, v = JBool b.
Definition list_of (P : json → Prop) (v : json) : Prop := ∃ l, v = JArr l ∧ Forall P l.
Definition map_of (P : json → Prop) (v : json) : Prop := ∃ m, v = JObj m ∧ ∀ k x, (k, x) ∈ m → P x.
Definition object_of (t : list (string * need * (json → Prop))) (v : json) : Prop := ∃ m, v = JObj m ∧ members_as t m.
(** The text of a number of 64 bits, as it is written here. *)
Definition number (ser : Z → json) (v : json) : Prop := ∃ z, v = ser z ∧ fits 64 z.

(** ** Issuers (OpenID4VCI, section 11.2) *)
Definition display_members : list (string * need * (json → Prop)) := [("name", Required, text); ("locale", Optional, text)].
(** A claim: its description, or claims nested in it. *)
Inductive claim_value : json → Prop :=
| claim_value_obj m :
    (∀ k v, (k, v) ∈ m →
       (k = "mandatory" → flag v) ∧
       (k = "value_type" → name_value ["string"; "number"; "image"] v) ∧
       (k = "display" → list_of (object_of display_members) v) ∧
       (k ∉ reserved → claim_value v)) →
    claim_value (JObj m).
Definition definition_members : list (string * need * (json → Prop)) :=
  [("@context", Optional, texts); ("type", Optional, texts); ("credentialSubject", Optional, map_of claim_value)].
Definition format_members (m : list (string * json)) : Prop :=
  ∃ f, values_of "format" m = [JStr f] ∧
    (f ∈ ["jwt_vc_json"; "ldp-vc"; "jwt_vc_json-ld"] ∧ members_as [("credential_definition", Required, object_of definition_members)] m ∨
     f = "mso_mdoc" ∧ members_as [("doctype", Required, text); ("claims", Optional, map_of claim_value)] m ∨
     f = "vc+sd-jwt" ∧ members_as [("vct", Required, text); ("claims", Optional, map_of claim_value)] m).
Definition image_members : list (string * need * (json → Prop)) := [("uri", Optional, text); ("alt_text", Optional, text)].
Definition credential_display_members : list (string * need * (json → Prop)) :=
  [("name", Required, text); ("locale", Optional, text); ("logo", Optional, object_of image_members); ("description", Optional, text);
   ("background_color", Optional, text); ("background_image", Optional, object_of image_members); ("text_color", Optional, text)].
Definition configuration_members : list (string * need * (json → Prop)) :=
  [("scope", Optional, text); ("cryptographic_binding_methods_supported", Optional, texts);
   ("credential_signing_alg_values_supported", Optional, texts);
   ("proof_types_supported", Optional, map_of (object_of [("proof_signing_alg_values_supported", Required, texts)]));
   ("display", Optional, list_of (object_of credential_display_members))].
Definition configuration_value (v : json) : Prop := ∃ m, v = JObj m ∧ format_members m ∧ members_as configuration_members m.
Definition issuer_members (ser : Z → json) : list (string * need * (json → Prop)) :=
  [("credential_issuer", Defaulted, text); ("authorization_servers", Optional, texts); ("credential_endpoint", Required, text);
   ("deferred_credential_endpoint", Optional, text); ("notification_endpoint", Optional, text);
   ("credential_response_encryption", Optional,
      object_of [("alg_values_supported", Required, texts); ("enc_values_supported", Required, texts); ("encryption_required", Required, flag)]);
   ("batch_credential_issuance", Optional, object_of [("batch_size", Required, number ser)]); ("signed_metadata", Optional, text);
   ("display", Optional, object_of display_members);
   ("credential_configurations_supported", Required, map_of configuration_value)].

(** ** Authorization servers (RFC 8414, RFC 9126, OpenID4VCI) *)
Definition names_of (names : list string) (v : json) : Prop := list_of (name_value names) v.
Definition server_members : list (string * need * (json → Prop)) :=
  [("issuer", Required, text); ("authorization_endpoint", Required, text); ("token_endpoint", Required, text);
   ("jwks_uri", Optional, text); ("registration_endpoint", Optional, text); ("scopes_supported", Optional, texts);
   ("response_types_supported", Required, names_of ["code"; "vp_token"; "id_token vp_token"]);
   ("response_modes_supported", Optional, names_of ["query"; "jarm"]);
   ("grant_types_supported", Optional, names_of ["authorization_code"; "urn:ietf:params:oauth:grant-type:pre-authorized_code"]);
   ("token_endpoint_auth_methods_supported", Optional, names_of ["none"; "client_secret_jwt"; "private_key_jwt"]);
   ("token_endpoint_auth_signing_alg_values_supported", Optional, names_of ["ES256K"; "EdDSA"]);
   ("service_documentation", Optional, text); ("ui_locales_supported", Optional, texts); ("op_policy_uri", Optional, text);
   ("op_tos_uri", Optional, text); ("revocation_endpoint", Optional, text);
   ("revocation_endpoint_auth_methods_supported", Optional, texts);
   ("revocation_endpoint_auth_signing_alg_values_supported", Optional, texts); ("introspection_endpoint", Optional, text);
   ("introspection_endpoint_auth_methods_supported", Optional, texts);
   ("introspection_endpoint_auth_signing_alg_values_supported", Optional, texts);
   ("code_challenge_methods_supported", Optional, names_of ["S256"]); ("signed_metadata", Optional, text);
   ("pushed_authorization_request_endpoint", Optional, text); ("require_pushed_authorization_requests", Optional, flag);
   ("pre-authorized_grant_anonymous_access_supported", Required, flag)].

(** The lists of names that are known here. *)
Definition name_lists : list (string * list string) :=
  [("response_types_supported", ["code"; "vp_token"; "id_token vp_token"]); ("response_modes_supported", ["query"; "jarm"]);
   ("grant_types_supported", ["authorization_code"; "urn:ietf:params:oauth:grant-type:pre-authorized_code"]);
   ("token_endpoint_auth_methods_supported", ["none"; "client_secret_jwt"; "private_key_jwt"]);
   ("token_endpoint_auth_signing_alg_values_supported", ["ES256K"; "EdDSA"]); ("code_challenge_methods_supported", ["S256"])].

(** ** What survives being written and read *)
(** No configuration or proof type is named twice, claims can be told from descriptions (SerdeSpec.v),
    and the batch size is a number of 64 bits. *)
Definition readable_configuration (c : configuration_metadata) : Prop :=
  readable_format (cm_format c) ∧ ∀ l, cm_proof_types c = Some l → NoDup (keys l).
Definition readable_issuer (i : issuer_metadata) : Prop :=
  (∀ z, im_batch i = Some z → fits 64 z) ∧ NoDup (keys (im_configurations i)) ∧
  ∀ k c, (k, c) ∈ im_configurations i → readable_configuration c.
(** How deep its claims are nested. *)
Definition issuer_claims (i : issuer_metadata) : list claimset :=
  flat_map (λ kc, opt_list (format_claims (cm_format kc.2))) (im_configurations i).

(** ** What is written: each member with its value, when it has one *)
Definition format_document (f : format) : list (string * option json) :=
  match f with
  | FJwtVcJson d => [("format", Some (JStr "jwt_vc_json")); ("credential_definition", Some (ser_definition d))]
  | FLdpVc d => [("format", Some (JStr "ldp-vc")); ("credential_definition", Some (ser_definition d))]
  | FJwtVcJsonLd d => [("format", Some (JStr "jwt_vc_json-ld")); ("credential_definition", Some (ser_definition d))]
  | FIsoMdl t c => [("format", Some (JStr "mso_mdoc")); ("doctype", Some (JStr t)); ("claims", option_map ser_claimset c)]
  | FVcSdJwt t c => [("format", Some (JStr "vc+sd-jwt")); ("vct", Some (JStr t)); ("claims", option_map ser_claimset c)]
  end.
Definition image_document (i : image) : list (string * option json) :=
  [("uri", option_map JStr (img_uri i)); ("alt_text", option_map JStr (img_alt i))].
Definition display_document (d : display_metadata) : list (string * option json) :=
  [("name", Some (JStr (ds_name d))); ("locale", option_map JStr (ds_locale d)); ("logo", option_map ser_image (ds_logo d));
   ("description", option_map JStr (ds_description d)); ("background_color", option_map JStr (ds_background_color d));
   ("background_image", option_map ser_image (ds_background_image d)); ("text_color", option_map JStr (ds_text_color d))].
Definition configuration_document (c : configuration_metadata) : list (string * option json) :=
  format_document (cm_format c) ++
  [("scope", option_map JStr (cm_scope c)); ("cryptographic_binding_methods_supported", option_map ser_strs (cm_binding_methods c));
   ("credential_signing_alg_values_supported", option_map ser_strs (cm_signing_algs c));
   ("proof_types_supported", option_map (λ l, JObj (map (λ ka, (ka.1, JObj [("proof_signing_alg_values_supported", ser_strs ka.2)])) l)) (cm_proof_types c));
   ("display", option_map (λ l, JArr (map ser_display l)) (cm_display c))].
Definition encryption_document (e : encryption_metadata) : list (string * option json) :=
  [("alg_values_supported", Some (ser_strs (en_algs e))); ("enc_values_supported", Some (ser_strs (en_encs e)));
   ("encryption_required", Some (JBool (en_required e)))].
Definition issuer_display_document (d : issuer_display) : list (string * option json) :=
  [("name", Some (JStr (id_display_name d))); ("locale", option_map JStr (id_display_locale d))].
Definition issuer_document (i : issuer_metadata) : list (string * option json) :=
  [("credential_issuer", given (im_credential_issuer i)); ("authorization_servers", option_map ser_strs (im_authorization_servers i));
   ("credential_endpoint", Some (JStr (im_credential_endpoint i))); ("deferred_credential_endpoint", option_map JStr (im_deferred_endpoint i));
   ("notification_endpoint", option_map JStr (im_notification_endpoint i));
   ("credential_response_encryption", option_map ser_encryption (im_encryption i));
   ("batch_credential_issuance", option_map (λ z, JObj [("batch_size", ser_int z)]) (im_batch i));
   ("signed_metadata", option_map JStr (im_signed_metadata i)); ("display", option_map ser_issuer_display (im_display i));
   ("credential_configurations_supported", Some (JObj (map (λ kc, (kc.1, ser_configuration kc.2)) (im_configurations i))))].

Definition response_type_name (t : response_type) : string :=
  match t with RTCode => "code" | RTVpToken => "vp_token" | RTIdToken => "id_token vp_token" end.
Definition response_mode_name (m : response_mode) : string := match m with ModeQuery => "query" | ModeJarm => "jarm" end.
Definition grant_type_name (g : grant_type) : string :=
  match g with AuthorizationCode => "authorization_code" | PreAuthorizedCode => "urn:ietf:params:oauth:grant-type:pre-authorized_code" end.
Definition auth_method_name (a : endpoint_auth) : string :=
  match a with AuthNone => "none" | AuthClientSecretJwt => "client_secret_jwt" | AuthPrivateKeyJwt => "private_key_jwt" end.
Definition endpoint_alg_name (a : endpoint_alg) : string := match a with AlgES256K => "ES256K" | AlgEdDSA => "EdDSA" end.
Definition names {A} (f : A → string) (l : list A) : json := JArr (map (λ a, JStr (f a)) l).
Definition server_document (s : server_metadata) : list (string * option json) :=
  [("issuer", Some (JStr (sm_issuer s))); ("authorization_endpoint", Some (JStr (sm_authorization_endpoint s)));
   ("token_endpoint", Some (JStr (sm_token_endpoint s))); ("jwks_uri", option_map JStr (sm_jwks_uri s));
   ("registration_endpoint", option_map JStr (sm_registration_endpoint s)); ("scopes_supported", option_map ser_strs (sm_scopes s));
   ("response_types_supported", Some (names response_type_name (sm_response_types s)));
   ("response_modes_supported", option_map (names response_mode_name) (sm_response_modes s));
   ("grant_types_supported", option_map (names grant_type_name) (sm_grant_types s));
   ("token_endpoint_auth_methods_supported", option_map (names auth_method_name) (sm_auth_methods s));
   ("token_endpoint_auth_signing_alg_values_supported", option_map (names endpoint_alg_name) (sm_auth_algs s));
   ("service_documentation", option_map JStr (sm_documentation s)); ("ui_locales_supported", option_map ser_strs (sm_ui_locales s));
   ("op_policy_uri", option_map JStr (sm_policy_uri s)); ("op_tos_uri", option_map JStr (sm_tos_uri s));
   ("revocation_endpoint", option_map JStr (sm_revocation_endpoint s));
   ("revocation_endpoint_auth_methods_supported", option_map ser_strs (sm_revocation_methods s));
   ("revocation_endpoint_auth_signing_alg_values_supported", option_map ser_strs (sm_revocation_algs s));
   ("introspection_endpoint", option_map JStr (sm_introspection_endpoint s));
   ("introspection_endpoint_auth_methods_supported", option_map ser_strs (sm_introspection_methods s));
   ("introspection_endpoint_auth_signing_alg_values_supported", option_map ser_strs (sm_introspection_algs s));
   ("code_challenge_methods_supported", option_map (names (λ _, "S256")) (sm_challenge_methods s));
   ("signed_metadata", option_map JStr (sm_signed_metadata s)); ("pushed_authorization_request_endpoint", option_map JStr (sm_par_endpoint s));
   ("require_pushed_authorization_requests", option_map JBool (sm_require_par s));
   ("pre-authorized_grant_anonymous_access_supported", Some (JBool (sm_anonymous_access s)))].
