(** Properties C128 and C129: the metadata of issuers and authorization servers as JSON. *)
From Verif Require Import Base StringSpec Json MatcherModel JsonParse JsonText CoreModel VcModel Prog IssuerTypes SerdeSpec SerdeModel SerdeText
  ErrorModel WireSpec VcSpec DifSerde DifSpec MetaSerde MetaSpec MetaTrips MetaFacts.
Local Open Scope string_scope.

(** C128.  The metadata of an issuer can be read exactly when its members are those of the table
    (MetaSpec.v); others may be there. *)
Theorem C128_read_iff m : is_Some (de_issuer_metadata (JObj m)) ↔ members_as (issuer_members ser_int) m.
Proof. exact (issuer_some_obj m). Qed.
Print Assumptions C128_read_iff.
(** It is read back from its JSON exactly when configurations, proof types and claims are not named
    twice, claims can be told from descriptions, and the batch size is a number of 64 bits: *)
Theorem C128_read_back_iff i : de_issuer_metadata (ser_issuer_metadata i) = Some i ↔ readable_issuer i.
Proof. exact (conj (de_issuer_metadata_readable _ i) (de_issuer_metadata_ser i)). Qed.
Print Assumptions C128_read_back_iff.
(** as is all that was ever read, *)
Theorem C128_what_was_read j i : de_issuer_metadata j = Some i → de_issuer_metadata (ser_issuer_metadata i) = Some i.
Proof. exact (λ H, de_issuer_metadata_ser i (de_issuer_metadata_readable j i H)). Qed.
Print Assumptions C128_what_was_read.
(** from text too, when its claims are not nested too deep for the parser; *)
Theorem C128_text i : readable_issuer i → (∀ l, l ∈ issuer_claims i → 6 + claims_depth l < depth_limit) →
  read de_issuer_metadata (write ser_issuer_metadata i) = Some i.
Proof. exact (read_issuer_metadata i). Qed.
Print Assumptions C128_text.
(** whatever the order of its members, and with others between them. *)
Theorem C128_others_ignored i m0 x m : readable_issuer i → ser_issuer_metadata i = JObj m0 → m ≡ₚ m0 ++ x →
  (∀ k, k ∈ keys x → k ∉ keys (issuer_document i)) → de_issuer_metadata (JObj m) = Some i.
Proof. exact (issuer_others i m0 x m). Qed.
Print Assumptions C128_others_ignored.
Theorem C128_configuration_others_ignored c m0 x m : readable_configuration c → ser_configuration c = JObj m0 → m ≡ₚ m0 ++ x →
  (∀ k, k ∈ keys x → k ∉ keys (configuration_document c)) → de_configuration (JObj m) = Some c.
Proof. exact (configuration_others c m0 x m). Qed.
Print Assumptions C128_configuration_others_ignored.
(** The members that are written, with their values. *)
Theorem C128_members i : exactly (issuer_document i) (ser_issuer_metadata i).
Proof. exact (issuer_values i). Qed.
Print Assumptions C128_members.
Theorem C128_parts_members : (∀ c, exactly (configuration_document c) (ser_configuration c)) ∧
  (∀ d, exactly (display_document d) (ser_display d)) ∧ (∀ x, exactly (image_document x) (ser_image x)) ∧
  (∀ e, exactly (encryption_document e) (ser_encryption e)) ∧ (∀ d, exactly (issuer_display_document d) (ser_issuer_display d)).
Proof. exact (conj configuration_values (conj display_values (conj image_values (conj encryption_values issuer_display_values)))). Qed.
Print Assumptions C128_parts_members.
(** An issuer that gives its display names as OpenID4VCI has them, a list, cannot be read; *)
Theorem C128_display_refuted m l : ("display", JArr l) ∈ m → de_issuer_metadata (JObj m) = None.
Proof. exact (issuer_display_list m l). Qed.
Print Assumptions C128_display_refuted.
(** nor can one that offers, among others, a credential in a format that is not known here, such as
    [ldp_vc]: all of its configurations are lost; *)
Theorem C128_other_formats_refuted m cs k c f : ("credential_configurations_supported", JObj cs) ∈ m → (k, JObj c) ∈ cs →
  ("format", JStr f) ∈ c → f ∉ ["jwt_vc_json"; "ldp-vc"; "jwt_vc_json-ld"; "mso_mdoc"; "vc+sd-jwt"] → de_issuer_metadata (JObj m) = None.
Proof. exact (issuer_format m cs k c f). Qed.
Print Assumptions C128_other_formats_refuted.
(** nor one that says of a claim that it is an image of some type. *)
Theorem C128_value_types_refuted m cs k c f d s n cl t : ("credential_configurations_supported", JObj cs) ∈ m → (k, JObj c) ∈ cs →
  ("format", JStr f) ∈ c → f ∈ ["jwt_vc_json"; "ldp-vc"; "jwt_vc_json-ld"] → ("credential_definition", JObj d) ∈ c →
  ("credentialSubject", JObj s) ∈ d → (n, JObj cl) ∈ s → ("value_type", JStr t) ∈ cl → t ∉ ["string"; "number"; "image"] →
  de_issuer_metadata (JObj m) = None.
Proof. exact (issuer_value_type m cs k c f d s n cl t). Qed.
Print Assumptions C128_value_types_refuted.
(** crates/test-utils/src/store/issuer.json, shortened to one configuration. *)
Definition ex_issuer_text : string :=
   "{""credential_issuer"":""http://vercre.io"",""credential_endpoint"":""http://vercre.io/credential"",""deferred_credential_endpoint"":""http://vercre.io/deferred"""
   ++ ",""display"":{""name"":""Vercre"",""locale"":""en-NZ""},""credential_configurations_supported"":{""EmployeeID_JWT"":{""format"":""jwt_vc_json"",""scope"":""EmployeeIDCrede"
   ++ "ntial"",""cryptographic_binding_methods_supported"":[""did:key"",""did:web""],""credential_signing_alg_values_supported"":[""ES256K"",""EdDSA""],""proof_types_suppo"
   ++ "rted"":{""jwt"":{""proof_signing_alg_values_supported"":[""ES256K"",""EdDSA""]}},""display"":[{""name"":""Employee ID"",""description"":""Vercre employee ID credential"""
   ++ ",""locale"":""en-NZ"",""logo"":{""uri"":""https://vercre.github.io/assets/employee.png"",""alt_text"":""Vercre Logo""},""text_color"":""#ffffff"",""background_color"":""#3"
   ++ "23ed2"",""background_image"":{""uri"":""https://vercre.github.io/assets/vercre-background.png"",""alt_text"":""Vercre Background""}}],""credential_definition"":{""t"
   ++ "ype"":[""VerifiableCredential"",""EmployeeIDCredential""],""credentialSubject"":{""email"":{""mandatory"":true,""value_type"":""string"",""display"":[{""name"":""Email"","""
   ++ "locale"":""en-NZ""}]},""address"":{""country"":{""value_type"":""string"",""display"":[{""name"":""Country"",""locale"":""en-NZ""}]}}}}}}}".
Definition ex_issuer_metadata : issuer_metadata :=
  IssuerMetadata "http://vercre.io" None "http://vercre.io/credential" (Some "http://vercre.io/deferred") None None None None
    (Some (IssuerDisplay "Vercre" (Some "en-NZ")))
    [("EmployeeID_JWT", ConfigurationMetadata
       (FJwtVcJson (CredentialDefinition None (Some ["VerifiableCredential"; "EmployeeIDCredential"])
          (Some [("email", CEntry (Some true)); ("address", CSet [("country", CEntry None)])])))
       (Some "EmployeeIDCredential") (Some ["did:key"; "did:web"]) (Some ["ES256K"; "EdDSA"]) (Some [("jwt", ["ES256K"; "EdDSA"])])
       (Some [DisplayMetadata "Employee ID" (Some "en-NZ")
                (Some (Image (Some "https://vercre.github.io/assets/employee.png") (Some "Vercre Logo")))
                (Some "Vercre employee ID credential") (Some "#323ed2")
                (Some (Image (Some "https://vercre.github.io/assets/vercre-background.png") (Some "Vercre Background"))) (Some "#ffffff")]))].
Example C128_example : read de_issuer_metadata ex_issuer_text = Some ex_issuer_metadata ∧
  readable_issuer ex_issuer_metadata ∧ (∀ l, l ∈ issuer_claims ex_issuer_metadata → 6 + claims_depth l < depth_limit) ∧
  read de_issuer_metadata (write ser_issuer_metadata ex_issuer_metadata) = Some ex_issuer_metadata ∧
  de_issuer_metadata (JObj [("credential_endpoint", JStr "e"); ("credential_configurations_supported", JObj []); ("nonce_endpoint", JStr "n")])
    = Some (IssuerMetadata "" None "e" None None None None None None []) ∧
  de_issuer_metadata (JObj [("credential_endpoint", JStr "e"); ("credential_configurations_supported", JObj []);
    ("display", JArr [JObj [("name", JStr "n")]])]) = None.
Proof.
  assert (read de_issuer_metadata ex_issuer_text = Some ex_issuer_metadata) as H by (vm_compute; reflexivity).
  split; [exact H|]. assert (readable_issuer ex_issuer_metadata) as Hr.
  { unfold read in H. destruct (parse_json ex_issuer_text) as [j|]; [|done]. exact (de_issuer_metadata_readable j _ H). }
  assert (∀ l, l ∈ issuer_claims ex_issuer_metadata → 6 + claims_depth l < depth_limit) as Hd.
  { intros l Hl. apply elem_of_list_singleton in Hl as ->. apply Nat.ltb_lt. reflexivity. }
  split; [exact Hr|]. split; [exact Hd|]. split; [exact (C128_text _ Hr Hd)|]. split; vm_compute; reflexivity.
Qed.

(** C129.  The metadata of an authorization server can be read exactly when its members are those
    of the table; others may be there. *)
Theorem C129_read_iff m : is_Some (de_server_metadata (JObj m)) ↔ members_as server_members m.
Proof. exact (server_some_obj m). Qed.
Print Assumptions C129_read_iff.
(** It is always read back, *)
Theorem C129_read_back s : read de_server_metadata (write ser_server_metadata s) = Some s.
Proof. exact (read_server_metadata s). Qed.
Print Assumptions C129_read_back.
(** whatever the order of its members, and with others between them. *)
Theorem C129_others_ignored s m0 x m : ser_server_metadata s = JObj m0 → m ≡ₚ m0 ++ x →
  (∀ k, k ∈ keys x → k ∉ keys (server_document s)) → de_server_metadata (JObj m) = Some s.
Proof. exact (server_others s m0 x m). Qed.
Print Assumptions C129_others_ignored.
Theorem C129_members s : exactly (server_document s) (ser_server_metadata s).
Proof. exact (server_values s). Qed.
Print Assumptions C129_members.
(** A server that does not say whether it allows anonymous access, which should mean that it does
    not, cannot be read; *)
Theorem C129_anonymous_access_refuted m : "pre-authorized_grant_anonymous_access_supported" ∉ keys m → de_server_metadata (JObj m) = None.
Proof. exact (server_needs m "pre-authorized_grant_anonymous_access_supported" ltac:(do 4 right; left)). Qed.
Print Assumptions C129_anonymous_access_refuted.
(** nor can one that supports, among others, ways of doing things that are not known here, such as
    the [refresh_token] grant or [client_secret_basic], RFC 8414's default. *)
Theorem C129_other_names_refuted k l m vs s : (k, l) ∈ name_lists → (k, JArr vs) ∈ m → JStr s ∈ vs → s ∉ l →
  de_server_metadata (JObj m) = None.
Proof. exact (server_other_names k l m vs s). Qed.
Print Assumptions C129_other_names_refuted.
(** crates/test-utils/src/store/server.json. *)
Definition ex_server_text : string :=
   "{""issuer"":""http://vercre.io"",""authorization_endpoint"":""/auth"",""token_endpoint"":""/token"",""scopes_supported"":[""openid"",""credential""],""response_types_sup"
   ++ "ported"":[""code""],""response_modes_supported"":[""query""],""grant_types_supported"":[""authorization_code"",""urn:ietf:params:oauth:grant-type:pre-authorized_c"
   ++ "ode""],""code_challenge_methods_supported"":[""S256""],""pre-authorized_grant_anonymous_access_supported"":true}".
Definition ex_server_metadata : server_metadata :=
  ServerMetadata "http://vercre.io" "/auth" "/token" None None (Some ["openid"; "credential"]) [RTCode] (Some [ModeQuery])
    (Some [AuthorizationCode; PreAuthorizedCode]) None None None None None None None None None None None None (Some [S256]) None None None true.
Example C129_example : read de_server_metadata ex_server_text = Some ex_server_metadata ∧
  de_server_metadata (JObj [("issuer", JStr "i"); ("authorization_endpoint", JStr "a"); ("token_endpoint", JStr "t");
    ("response_types_supported", JArr [JStr "code"]); ("grant_types_supported", JArr [JStr "authorization_code"; JStr "refresh_token"]);
    ("pre-authorized_grant_anonymous_access_supported", JBool false)]) = None ∧
  ("grant_types_supported", ["authorization_code"; "urn:ietf:params:oauth:grant-type:pre-authorized_code"]) ∈ name_lists.
Proof. split; [vm_compute; reflexivity|]. split; [vm_compute; reflexivity|]. do 2 right. left. Qed.
