(** How the metadata of issuers and authorization servers is written as JSON and read back: the
    [serde] derives of crates/openid/src/issuer.rs and oauth.rs.

    As in SerdeModel.v, what serde's derive macros generate is written from serde's documentation;
    the array form of a struct is left out.  Claims are those of IssuerTypes.v: their types and
    displays must be readable, but are not kept. *)
From Verif Require Import Base Json MatcherModel JsonParse CoreModel VcModel Prog IssuerTypes SerdeModel ErrorModel VcSerde DifSerde.

(** ** crates/openid/src/issuer.rs *)

(** 1836-1847, [Image]. *)
Record image : Type := Image { img_uri : option string; img_alt : option string }.
Definition ser_image (i : image) : json :=
  JObj (some_entry "uri" JStr (img_uri i) ++ some_entry "alt_text" JStr (img_alt i)).
Definition de_image : json → option image := obj (λ m,
  u ← opt de_str "uri" m; a ← opt de_str "alt_text" m; Some (Image u a)).

(** 1799-1833, [CredentialDisplay]. *)
Record display_metadata : Type := DisplayMetadata {
  ds_name : string;
  ds_locale : option string;
  ds_logo : option image;
  ds_description : option string;
  ds_background_color : option string;
  ds_background_image : option image;
  ds_text_color : option string;
}.
Definition ser_display (d : display_metadata) : json :=
  JObj ([("name", JStr (ds_name d))] ++ some_entry "locale" JStr (ds_locale d) ++ some_entry "logo" ser_image (ds_logo d)
        ++ some_entry "description" JStr (ds_description d) ++ some_entry "background_color" JStr (ds_background_color d)
        ++ some_entry "background_image" ser_image (ds_background_image d) ++ some_entry "text_color" JStr (ds_text_color d)).
Definition de_display : json → option display_metadata := obj (λ m,
  n ← req de_str "name" m; l ← opt de_str "locale" m; g ← opt de_image "logo" m; d ← opt de_str "description" m;
  c ← opt de_str "background_color" m; b ← opt de_image "background_image" m; t ← opt de_str "text_color" m;
  Some (DisplayMetadata n l g d c b t)).

(** 1779-1790, [ProofTypesSupported]: the algorithms. *)
Definition ser_proof_type (l : list string) : json := JObj [("proof_signing_alg_values_supported", ser_strs l)].
Definition de_proof_type : json → option (list string) := obj (λ m, req de_strs "proof_signing_alg_values_supported" m).

(** 1593-1697, [CredentialConfiguration].  Its [default] does not help a missing format, which is
    flattened. *)
Record configuration_metadata : Type := ConfigurationMetadata {
  cm_format : format;
  cm_scope : option string;
  cm_binding_methods : option (list string);
  cm_signing_algs : option (list string);
  cm_proof_types : option (list (string * list string));
  cm_display : option (list display_metadata);
}.
Definition ser_configuration (c : configuration_metadata) : json :=
  JObj (ser_format (cm_format c) ++ some_entry "scope" JStr (cm_scope c)
        ++ some_entry "cryptographic_binding_methods_supported" ser_strs (cm_binding_methods c)
        ++ some_entry "credential_signing_alg_values_supported" ser_strs (cm_signing_algs c)
        ++ some_entry "proof_types_supported" (ser_map ser_proof_type) (cm_proof_types c)
        ++ some_entry "display" (ser_list ser_display) (cm_display c)).
Definition de_configuration : json → option configuration_metadata := obj (λ m,
  f ← de_format m; s ← opt de_str "scope" m; b ← opt de_strs "cryptographic_binding_methods_supported" m;
  a ← opt de_strs "credential_signing_alg_values_supported" m; p ← opt (de_map de_proof_type) "proof_types_supported" m;
  d ← opt (de_list de_display) "display" m; Some (ConfigurationMetadata f s b a p d)).

(** 1536-1563, [SupportedCredentialResponseEncryption]. *)
Record encryption_metadata : Type := EncryptionMetadata {
  en_algs : list string;
  en_encs : list string;
  en_required : bool;
}.
Definition ser_encryption (e : encryption_metadata) : json :=
  JObj [("alg_values_supported", ser_strs (en_algs e)); ("enc_values_supported", ser_strs (en_encs e));
        ("encryption_required", JBool (en_required e))].
Definition de_encryption : json → option encryption_metadata := obj (λ m,
  a ← req de_strs "alg_values_supported" m; e ← req de_strs "enc_values_supported" m; r ← req de_bool "encryption_required" m;
  Some (EncryptionMetadata a e r)).
(** 1565-1575, [BatchCredentialIssuance]: the size. *)
Definition ser_batch (z : Z) : json := JObj [("batch_size", ser_int z)].
Definition de_batch : json → option Z := obj (λ m, req (de_int 64) "batch_size" m).
(** 1577-1590, [Display]. *)
Record issuer_display : Type := IssuerDisplay { id_display_name : string; id_display_locale : option string }.
Definition ser_issuer_display (d : issuer_display) : json :=
  JObj ([("name", JStr (id_display_name d))] ++ some_entry "locale" JStr (id_display_locale d)).
Definition de_issuer_display : json → option issuer_display := obj (λ m,
  n ← req de_str "name" m; l ← opt de_str "locale" m; Some (IssuerDisplay n l)).

(** 1439-1520, [Issuer]. *)
Record issuer_metadata : Type := IssuerMetadata {
  im_credential_issuer : string;
  im_authorization_servers : option (list string);
  im_credential_endpoint : string;
  im_deferred_endpoint : option string;
  im_notification_endpoint : option string;
  im_encryption : option encryption_metadata;
  im_batch : option Z;
  im_signed_metadata : option string;
  im_display : option issuer_display;
  im_configurations : list (string * configuration_metadata);
}.
Definition ser_issuer_metadata (i : issuer_metadata) : json :=
  JObj (str_entry "credential_issuer" (im_credential_issuer i)
        ++ some_entry "authorization_servers" ser_strs (im_authorization_servers i)
        ++ [("credential_endpoint", JStr (im_credential_endpoint i))]
        ++ some_entry "deferred_credential_endpoint" JStr (im_deferred_endpoint i)
        ++ some_entry "notification_endpoint" JStr (im_notification_endpoint i)
        ++ some_entry "credential_response_encryption" ser_encryption (im_encryption i)
        ++ some_entry "batch_credential_issuance" ser_batch (im_batch i)
        ++ some_entry "signed_metadata" JStr (im_signed_metadata i)
        ++ some_entry "display" ser_issuer_display (im_display i)
        ++ [("credential_configurations_supported", ser_map ser_configuration (im_configurations i))]).
Definition de_issuer_metadata : json → option issuer_metadata := obj (λ m,
  i ← dflt de_str "" "credential_issuer" m; s ← opt de_strs "authorization_servers" m; e ← req de_str "credential_endpoint" m;
  d ← opt de_str "deferred_credential_endpoint" m; n ← opt de_str "notification_endpoint" m;
  c ← opt de_encryption "credential_response_encryption" m; b ← opt de_batch "batch_credential_issuance" m;
  g ← opt de_str "signed_metadata" m; p ← opt de_issuer_display "display" m;
  l ← req (de_map de_configuration) "credential_configurations_supported" m;
  Some (IssuerMetadata i s e d n c b g p l)).

(** What the endpoints use of it (IssuerTypes.v). *)
Definition display_of (d : display_metadata) : credential_display :=
  CredentialDisplay (ds_name d) (ds_locale d) (ds_description d).
Definition configuration_of (c : configuration_metadata) : credential_configuration :=
  CredentialConfiguration (cm_format c) (cm_scope c) (map fst <$> cm_proof_types c) (map display_of <$> cm_display c).
Definition issuer_of (i : issuer_metadata) : issuer :=
  Issuer (im_credential_issuer i) (im_authorization_servers i) (map (λ kc, (kc.1, configuration_of kc.2)) (im_configurations i)).

(** ** crates/openid/src/oauth.rs *)

(** 336-346, [ResponseMode]; 374-386, [TokenEndpointAuthSigningAlg]. *)
Inductive response_mode : Type := ModeQuery | ModeJarm.
Definition ser_response_mode (m : response_mode) : json := JStr (match m with ModeQuery => "query" | ModeJarm => "jarm" end).
Definition de_response_mode : json → option response_mode := unit_variant [("query", ModeQuery); ("jarm", ModeJarm)].
Inductive endpoint_alg : Type := AlgES256K | AlgEdDSA.
Definition ser_endpoint_alg (a : endpoint_alg) : json := JStr (match a with AlgES256K => "ES256K" | AlgEdDSA => "EdDSA" end).
Definition de_endpoint_alg : json → option endpoint_alg := unit_variant [("ES256K", AlgES256K); ("EdDSA", AlgEdDSA)].

(** 165-284, [OAuthServer], with issuer.rs 2023-2036, [Server], which flattens it. *)
Record server_metadata : Type := ServerMetadata {
  sm_issuer : string;
  sm_authorization_endpoint : string;
  sm_token_endpoint : string;
  sm_jwks_uri : option string;
  sm_registration_endpoint : option string;
  sm_scopes : option (list string);
  sm_response_types : list response_type;
  sm_response_modes : option (list response_mode);
  sm_grant_types : option (list grant_type);
  sm_auth_methods : option (list endpoint_auth);
  sm_auth_algs : option (list endpoint_alg);
  sm_documentation : option string;
  sm_ui_locales : option (list string);
  sm_policy_uri : option string;
  sm_tos_uri : option string;
  sm_revocation_endpoint : option string;
  sm_revocation_methods : option (list string);
  sm_revocation_algs : option (list string);
  sm_introspection_endpoint : option string;
  sm_introspection_methods : option (list string);
  sm_introspection_algs : option (list string);
  sm_challenge_methods : option (list code_challenge_method);
  sm_signed_metadata : option string;
  sm_par_endpoint : option string;
  sm_require_par : option bool;
  sm_anonymous_access : bool;
}.
Definition ser_server_metadata (s : server_metadata) : json :=
  JObj ([("issuer", JStr (sm_issuer s)); ("authorization_endpoint", JStr (sm_authorization_endpoint s));
         ("token_endpoint", JStr (sm_token_endpoint s))]
        ++ some_entry "jwks_uri" JStr (sm_jwks_uri s) ++ some_entry "registration_endpoint" JStr (sm_registration_endpoint s)
        ++ some_entry "scopes_supported" ser_strs (sm_scopes s)
        ++ [("response_types_supported", ser_list ser_response_type (sm_response_types s))]
        ++ some_entry "response_modes_supported" (ser_list ser_response_mode) (sm_response_modes s)
        ++ some_entry "grant_types_supported" (ser_list ser_grant_type) (sm_grant_types s)
        ++ some_entry "token_endpoint_auth_methods_supported" (ser_list ser_endpoint_auth) (sm_auth_methods s)
        ++ some_entry "token_endpoint_auth_signing_alg_values_supported" (ser_list ser_endpoint_alg) (sm_auth_algs s)
        ++ some_entry "service_documentation" JStr (sm_documentation s) ++ some_entry "ui_locales_supported" ser_strs (sm_ui_locales s)
        ++ some_entry "op_policy_uri" JStr (sm_policy_uri s) ++ some_entry "op_tos_uri" JStr (sm_tos_uri s)
        ++ some_entry "revocation_endpoint" JStr (sm_revocation_endpoint s)
        ++ some_entry "revocation_endpoint_auth_methods_supported" ser_strs (sm_revocation_methods s)
        ++ some_entry "revocation_endpoint_auth_signing_alg_values_supported" ser_strs (sm_revocation_algs s)
        ++ some_entry "introspection_endpoint" JStr (sm_introspection_endpoint s)
        ++ some_entry "introspection_endpoint_auth_methods_supported" ser_strs (sm_introspection_methods s)
        ++ some_entry "introspection_endpoint_auth_signing_alg_values_supported" ser_strs (sm_introspection_algs s)
        ++ some_entry "code_challenge_methods_supported" (ser_list ser_method) (sm_challenge_methods s)
        ++ some_entry "signed_metadata" JStr (sm_signed_metadata s)
        ++ some_entry "pushed_authorization_request_endpoint" JStr (sm_par_endpoint s)
        ++ some_entry "require_pushed_authorization_requests" JBool (sm_require_par s)
        ++ [("pre-authorized_grant_anonymous_access_supported", JBool (sm_anonymous_access s))]).
Definition de_server_metadata : json → option server_metadata := obj (λ m,
  i ← req de_str "issuer" m; ae ← req de_str "authorization_endpoint" m; te ← req de_str "token_endpoint" m;
  ju ← opt de_str "jwks_uri" m; re ← opt de_str "registration_endpoint" m; sc ← opt de_strs "scopes_supported" m;
  rt ← req (de_list de_response_type) "response_types_supported" m; rm ← opt (de_list de_response_mode) "response_modes_supported" m;
  gt ← opt (de_list de_grant_type) "grant_types_supported" m;
  am ← opt (de_list de_endpoint_auth) "token_endpoint_auth_methods_supported" m;
  aa ← opt (de_list de_endpoint_alg) "token_endpoint_auth_signing_alg_values_supported" m;
  sd ← opt de_str "service_documentation" m; ul ← opt de_strs "ui_locales_supported" m;
  pu ← opt de_str "op_policy_uri" m; tu ← opt de_str "op_tos_uri" m;
  ve ← opt de_str "revocation_endpoint" m; vm ← opt de_strs "revocation_endpoint_auth_methods_supported" m;
  va ← opt de_strs "revocation_endpoint_auth_signing_alg_values_supported" m;
  ne ← opt de_str "introspection_endpoint" m; nm ← opt de_strs "introspection_endpoint_auth_methods_supported" m;
  na ← opt de_strs "introspection_endpoint_auth_signing_alg_values_supported" m;
  cm ← opt (de_list de_method) "code_challenge_methods_supported" m; sm ← opt de_str "signed_metadata" m;
  pe ← opt de_str "pushed_authorization_request_endpoint" m; rp ← opt de_bool "require_pushed_authorization_requests" m;
  an ← req de_bool "pre-authorized_grant_anonymous_access_supported" m;
  Some (ServerMetadata i ae te ju re sc rt rm gt am aa sd ul pu tu ve vm va ne nm na cm sm pe rp an)).

(** What the endpoints use of it. *)
Definition server_of (s : server_metadata) : server :=
  Server (sm_scopes s) (sm_response_types s) (sm_grant_types s) (sm_challenge_methods s) (sm_require_par s) (sm_anonymous_access s).
