(** Property C109: messages have the members OpenID4VCI gives them. *)
From Verif Require Import Base Json JsonParse CoreModel VcModel Prog IssuerTypes SerdeSpec SerdeModel WireSpec WireFacts.

(** C109.  Every message is an object with the members it must have, no other than those it may
    have, and none twice. *)
Theorem C109_create_offer r :
  has_members ["credential_configuration_ids"; "tx_code_required"; "send_type"]
    ["credential_issuer"; "subject_id"; "grant_types"] (ser_create_offer r).
Proof. exact (create_offer_members r). Qed.
Print Assumptions C109_create_offer.
Theorem C109_create_offer_response r :
  match cor_offer r with
  | OfferObject _ => has_members ["credential_offer"] ["tx_code"] (ser_create_offer_response r)
  | OfferUri _ => has_members ["credential_offer_uri"] ["tx_code"] (ser_create_offer_response r)
  end.
Proof. exact (offer_response_members r). Qed.
Print Assumptions C109_create_offer_response.
Theorem C109_credential_offer o : of_credential_issuer o ≠ "" →
  has_members ["credential_issuer"; "credential_configuration_ids"] ["grants"] (ser_offer o).
Proof. exact (offer_members o). Qed.
Print Assumptions C109_credential_offer.
Theorem C109_grants g p a t :
  has_members [] ["authorization_code"; "urn:ietf:params:oauth:grant-type:pre-authorized_code"] (ser_grants g) ∧
  has_members ["pre-authorized_code"] ["tx_code"; "authorization_server"] (ser_pre_grant p) ∧
  has_members [] ["issuer_state"; "authorization_server"] (ser_code_grant a) ∧
  has_members [] ["input_mode"; "length"; "description"] (ser_tx_code t).
Proof. exact (conj (grants_members g) (conj (pre_grant_members p) (conj (code_grant_members a) (tx_code_members t)))). Qed.
Print Assumptions C109_grants.
Theorem C109_request_object r :
  has_members ["response_type"; "client_id"; "code_challenge"; "code_challenge_method"; "subject_id"]
    ["credential_issuer"; "redirect_uri"; "state"; "authorization_details"; "scope"; "issuer_state"] (ser_request r).
Proof. exact (request_members r). Qed.
Print Assumptions C109_request_object.
Theorem C109_authorization_detail d :
  has_members ("type" :: (authorization_members (ad_credential d)).1)
    ("locations" :: (authorization_members (ad_credential d)).2) (ser_detail d).
Proof. exact (detail_members d). Qed.
Print Assumptions C109_authorization_detail.
Theorem C109_authorized_detail d :
  has_members ("type" :: "credential_identifiers" :: (authorization_members (ad_credential (atd_detail d))).1)
    ("locations" :: (authorization_members (ad_credential (atd_detail d))).2) (ser_authorized_detail d).
Proof. exact (authorized_detail_members d). Qed.
Print Assumptions C109_authorized_detail.
Theorem C109_authorization_responses r p :
  has_members ["code"; "redirect_uri"] ["state"] (ser_authorization_response r) ∧
  has_members ["request_uri"; "expires_in"] [] (ser_par_response p).
Proof. exact (conj (authorization_response_members r) (par_response_members p)). Qed.
Print Assumptions C109_authorization_responses.
Theorem C109_token_request r :
  match tr_grant r with
  | TGAuthorizationCode _ _ _ =>
      has_members ["client_id"; "grant_type"; "code"]
        ["credential_issuer"; "redirect_uri"; "code_verifier"; "authorization_details"] (ser_token_request r)
  | TGPreAuthorizedCode _ _ =>
      has_members ["client_id"; "grant_type"; "pre-authorized_code"]
        ["credential_issuer"; "tx_code"; "authorization_details"] (ser_token_request r)
  end.
Proof. exact (token_request_members r). Qed.
Print Assumptions C109_token_request.
Theorem C109_token_response r :
  has_members ["access_token"; "token_type"; "expires_in"] ["c_nonce"; "c_nonce_expires_in"; "authorization_details"]
    (ser_token_response r).
Proof. exact (token_response_members r). Qed.
Print Assumptions C109_token_response.
Theorem C109_credential_request r :
  has_members ((issuance_members (cr_credential r)).1 ++ proof_members (cr_proof r))
    (["credential_issuer"; "access_token"] ++ (issuance_members (cr_credential r)).2) (ser_credential_request r).
Proof. exact (credential_request_members r). Qed.
Print Assumptions C109_credential_request.
Theorem C109_deferred_request r :
  has_members ["transaction_id"] ["credential_issuer"; "access_token"] (ser_deferred_request r).
Proof. exact (deferred_request_members r). Qed.
Print Assumptions C109_deferred_request.

(** With these values. *)
Theorem C109_create_offer_values r : exactly
  [("credential_issuer", given (co_credential_issuer r)); ("subject_id", option_map JStr (co_subject_id r));
   ("credential_configuration_ids", Some (ser_strs (co_configuration_ids r)));
   ("grant_types", option_map (ser_list ser_grant_type) (co_grant_types r));
   ("tx_code_required", Some (JBool (co_tx_code_required r))); ("send_type", Some (ser_send_type (co_send_type r)))]
  (ser_create_offer r).
Proof. exact (create_offer_values r). Qed.
Print Assumptions C109_create_offer_values.
Theorem C109_credential_offer_values o : exactly
  [("credential_issuer", given (of_credential_issuer o));
   ("credential_configuration_ids", Some (ser_strs (of_configuration_ids o))); ("grants", option_map ser_grants (of_grants o))]
  (ser_offer o).
Proof. exact (offer_values o). Qed.
Print Assumptions C109_credential_offer_values.
Theorem C109_grants_values g : exactly
  [("authorization_code", option_map ser_code_grant (gr_authorization_code g));
   ("urn:ietf:params:oauth:grant-type:pre-authorized_code", option_map ser_pre_grant (gr_pre_authorized_code g))] (ser_grants g).
Proof. exact (grants_values g). Qed.
Print Assumptions C109_grants_values.
Theorem C109_pre_authorized_grant_values g : exactly
  [("pre-authorized_code", Some (JStr (pg_code g))); ("tx_code", option_map ser_tx_code (pg_tx_code g));
   ("authorization_server", option_map JStr (pg_authorization_server g))] (ser_pre_grant g).
Proof. exact (pre_grant_values g). Qed.
Print Assumptions C109_pre_authorized_grant_values.
Theorem C109_code_grant_values g : exactly
  [("issuer_state", option_map JStr (ag_issuer_state g)); ("authorization_server", option_map JStr (ag_authorization_server g))]
  (ser_code_grant g).
Proof. exact (code_grant_values g). Qed.
Print Assumptions C109_code_grant_values.
Theorem C109_tx_code_values t : exactly
  [("input_mode", option_map JStr (tc_input_mode t)); ("length", option_map ser_int (tc_length t));
   ("description", option_map JStr (tc_description t))] (ser_tx_code t).
Proof. exact (tx_code_values t). Qed.
Print Assumptions C109_tx_code_values.
Theorem C109_create_offer_response_values r : exactly
  [("credential_offer", match cor_offer r with OfferObject o => Some (ser_offer o) | OfferUri _ => None end);
   ("credential_offer_uri", match cor_offer r with OfferObject _ => None | OfferUri u => Some (JStr u) end);
   ("tx_code", option_map JStr (cor_tx_code r))] (ser_create_offer_response r).
Proof. exact (offer_response_values r). Qed.
Print Assumptions C109_create_offer_response_values.
Theorem C109_request_object_values r : exactly
  [("credential_issuer", given (ro_credential_issuer r)); ("response_type", Some (ser_response_type (ro_response_type r)));
   ("client_id", Some (JStr (ro_client_id r))); ("redirect_uri", option_map JStr (ro_redirect_uri r));
   ("state", option_map JStr (ro_state r)); ("code_challenge", Some (JStr (ro_code_challenge r)));
   ("code_challenge_method", Some (ser_method (ro_code_challenge_method r)));
   ("authorization_details", option_map (ser_list ser_detail) (ro_authorization_details r));
   ("scope", option_map JStr (ro_scope r)); ("subject_id", Some (JStr (ro_subject_id r)));
   ("issuer_state", option_map JStr (ro_issuer_state r))] (ser_request r).
Proof. exact (request_values r). Qed.
Print Assumptions C109_request_object_values.
Theorem C109_authorization_response_values r : exactly
  [("code", Some (JStr (ar_code r))); ("state", option_map JStr (ar_state r)); ("redirect_uri", Some (JStr (ar_redirect_uri r)))]
  (ser_authorization_response r).
Proof. exact (authorization_response_values r). Qed.
Print Assumptions C109_authorization_response_values.
Theorem C109_par_response_values r : exactly
  [("request_uri", Some (JStr (pr_request_uri r))); ("expires_in", Some (ser_int (pr_expires_in r)))] (ser_par_response r).
Proof. exact (par_response_values r). Qed.
Print Assumptions C109_par_response_values.
Theorem C109_token_request_values r : exactly
  ([("credential_issuer", given (tr_credential_issuer r)); ("client_id", Some (null_or JStr (tr_client_id r)))] ++
   match tr_grant r with
   | TGAuthorizationCode code uri verifier =>
       [("grant_type", Some (JStr "authorization_code")); ("code", Some (JStr code)); ("redirect_uri", option_map JStr uri);
        ("code_verifier", option_map JStr verifier)]
   | TGPreAuthorizedCode code pin =>
       [("grant_type", Some (JStr "urn:ietf:params:oauth:grant-type:pre-authorized_code"));
        ("pre-authorized_code", Some (JStr code)); ("tx_code", option_map JStr pin)]
   end ++ [("authorization_details", option_map (ser_list ser_detail) (tr_authorization_details r))]) (ser_token_request r).
Proof. exact (token_request_values r). Qed.
Print Assumptions C109_token_request_values.
Theorem C109_token_response_values r : exactly
  [("access_token", Some (JStr (trs_access_token r))); ("token_type", Some (JStr "Bearer"));
   ("expires_in", Some (ser_int (trs_expires_in r))); ("c_nonce", option_map JStr (trs_c_nonce r));
   ("c_nonce_expires_in", option_map ser_int (trs_c_nonce_expires_in r));
   ("authorization_details", option_map (ser_list ser_authorized_detail) (trs_authorization_details r))] (ser_token_response r).
Proof. exact (token_response_values r). Qed.
Print Assumptions C109_token_response_values.
Theorem C109_format_values f : exactly
  match f with
  | FJwtVcJson d => [("format", Some (JStr "jwt_vc_json")); ("credential_definition", Some (ser_definition d))]
  | FLdpVc d => [("format", Some (JStr "ldp-vc")); ("credential_definition", Some (ser_definition d))]
  | FJwtVcJsonLd d => [("format", Some (JStr "jwt_vc_json-ld")); ("credential_definition", Some (ser_definition d))]
  | FIsoMdl t c => [("format", Some (JStr "mso_mdoc")); ("doctype", Some (JStr t)); ("claims", option_map ser_claimset c)]
  | FVcSdJwt t c => [("format", Some (JStr "vc+sd-jwt")); ("vct", Some (JStr t)); ("claims", option_map ser_claimset c)]
  end (JObj (ser_format f)).
Proof. exact (format_values f). Qed.
Print Assumptions C109_format_values.
Theorem C109_definition_values d : exactly
  [("@context", option_map ser_strs (cd_context d)); ("type", option_map ser_strs (cd_type d));
   ("credentialSubject", option_map ser_claimset (cd_subject d))] (ser_definition d).
Proof. exact (definition_values d). Qed.
Print Assumptions C109_definition_values.
Theorem C109_credential_request_values r : exactly
  ([("credential_issuer", given (cr_credential_issuer r)); ("access_token", given (cr_access_token r))] ++
   match cr_credential r with
   | CIIdentifier id => [("credential_identifier", Some (JStr id))]
   | CIFormat f => map (λ kv, (kv.1, Some kv.2)) (ser_format f)
   end ++
   match cr_proof r with
   | Some (PSingle jwt) => [("proof", Some (JObj [("proof_type", JStr "jwt"); ("jwt", JStr jwt)]))]
   | Some (PMultiple jwts) => [("proofs", Some (JObj [("jwt", ser_strs jwts)]))]
   | None => []
   end) (ser_credential_request r).
Proof. exact (credential_request_values r). Qed.
Print Assumptions C109_credential_request_values.
Theorem C109_deferred_request_values r : exactly
  [("credential_issuer", given (dr_credential_issuer r)); ("access_token", given (dr_access_token r));
   ("transaction_id", Some (JStr (dr_transaction_id r)))] (ser_deferred_request r).
Proof. exact (deferred_request_values r). Qed.
Print Assumptions C109_deferred_request_values.

(** The format is named by its OpenID4VCI identifier, which is also what it is displayed as, *)
Theorem C109_format_names_partial f :
  (∀ d, f ≠ FLdpVc d) → lookups "format" (ser_format f) = [JStr (format_display f)].
Proof. exact (format_named f). Qed.
Print Assumptions C109_format_names_partial.
(** except for [ldp_vc], which is written with a hyphen and not read with the underscore. *)
Theorem C109_ldp_vc_refuted d :
  lookups "format" (ser_format (FLdpVc d)) = [JStr "ldp-vc"] ∧ format_display (FLdpVc d) = "ldp_vc" ∧
  de_format [("format", JStr "ldp_vc"); ("credential_definition", ser_definition d)] = None.
Proof. exact (ldp_misnamed d). Qed.
Print Assumptions C109_ldp_vc_refuted.
Example C109_example :
  ser_credential_request (CredentialRequest "iss" "" (CIFormat (FVcSdJwt "vct" None)) (Some (PSingle "jwt"))) =
  JObj [("credential_issuer", JStr "iss"); ("format", JStr "vc+sd-jwt"); ("vct", JStr "vct");
        ("proof", JObj [("proof_type", JStr "jwt"); ("jwt", JStr "jwt")])].
Proof. reflexivity. Qed.
