{"claims": [
{"property": "C01", "status": "proved", "theorems": ["C01_offer_iff_valid", "C01_panics_only_without_servers"], "note": "Iff over all provider behaviours; the panic on an empty authorization_servers list is a finding."},
{"property": "C02", "status": "proved", "theorems": ["C02_offer_agrees_with_state"], "note": ""},
{"property": "C03", "status": "proved", "theorems": ["C03_offer_independent_of_tx_code"], "note": ""},
{"property": "C04", "status": "proved", "theorems": ["C04_retrieval_iff", "C04_returns_what_was_created"], "note": ""},
{"property": "C05", "status": "proved", "theorems": ["C05_offer_retrieved_once"], "note": "Up to overlap in time: get and purge are two calls."},
{"property": "C06", "status": "proved", "theorems": ["C06_code_redeemed_once", "C06_redeemed_twice_under_overlap"], "note": "Freshness of generated values is a hypothesis; double redemption under overlap is shown by a witness execution."},
{"property": "C07", "status": "proved", "theorems": ["C07_tx_code_must_match", "C07_tx_code_is_the_one_created"], "note": ""},
{"property": "C08", "status": "proved", "theorems": ["C08_client_must_match", "C08_client_is_the_one_authorized"], "note": "The S256 challenge is computed by a model of SHA-256 and base64url."},
{"property": "C09", "status": "proved", "theorems": ["C09_attempt_burns_code"], "note": ""},
{"property": "C10", "status": "proved", "theorems": ["C10_offer_live", "C10_token_live", "C10_credential_live", "C10_deferred_live", "C10_authorize_live", "C10_not_expired_early"], "note": "Expiry is effective one second late because whole seconds are compared."},
{"property": "C100", "status": "proved", "theorems": ["C100_saved_states_read_back", "C100_exactly_the_readable", "C100_read_states_are_stable"], "note": "serde's derived code is modelled from its documentation; dates are read back as written is a hypothesis about chrono."},
{"property": "C101", "status": "partial", "theorems": ["C101_saved_text_reads_back_partial", "C101_exactly_the_shallow", "C101_saved_text_reads_back_refuted"], "note": "Finding: a pushed request with claims nested 120-122 deep is accepted, but what is saved cannot be read from JSON text. Proved up to 119, and exactly for states nested less than 128 deep."},
{"property": "C102", "status": "partial", "theorems": ["C102_create_offer_request", "C102_create_offer_response", "C102_credential_offer", "C102_authorization_response", "C102_pushed_response", "C102_deferred_request", "C102_request_object_partial", "C102_authorization_request_partial", "C102_token_request_partial", "C102_token_response_partial", "C102_credential_request_partial", "C102_sd_jwt_claims_refuted"], "note": "Messages with claims: when the claims are readable and not too deep. Finding: SD-JWT claims by configuration id come back as mDL claims."},
{"property": "C103", "status": "proved", "theorems": ["C103_request_object", "C103_authorization_request", "C103_credential_request"], "note": "At the level of JSON values."},
{"property": "C104", "status": "partial", "theorems": ["C104_claims_read_back_partial", "C104_reserved_names_refuted", "C104_mandatory_is_lost_refuted", "C104_mandatory_container_not_required_refuted", "C104_mandatory_entry_required"], "note": "Findings: reserved names, empty sets, and mandatory is lost on claims with nested claims."},
{"property": "C105", "status": "partial", "theorems": ["C105_identifier_and_format_partial", "C105_configuration_and_format_partial", "C105_two_ways_are_refused_refuted", "C105_unreadable_parts_are_refused_refuted"], "note": "Finding. Proved instead: which one is taken."},
{"property": "C106", "status": "partial", "theorems": ["C106_request_object_partial", "C106_request_uri_refuted", "C106_unknown_parameters_ignored_refuted"], "note": "Findings. Request objects whose strings need no escaping are read back."},
{"property": "C107", "status": "partial", "theorems": ["C107_issuer_errors_partial", "C107_errors_told_apart_partial", "C107_described_errors_partial", "C107_proof_errors_partial", "C107_pending_errors", "C107_codes_differ", "C107_errors_are_reported_refuted", "C107_code_is_the_issuers_refuted"], "note": "Findings: descriptions are not escaped. Proved for descriptions that need no escaping: each of the issuer's errors is reported under its own code with what goes with it, and no two errors are reported alike."},
{"property": "C108", "status": "partial", "theorems": ["C108_issuer_errors_partial", "C108_described_errors_partial", "C108_proof_errors_partial", "C108_pending_errors_refuted"], "note": "Finding: pending issuance has no query string. Proved for the other errors when their descriptions need no escaping."},
{"property": "C109", "status": "partial", "theorems": ["C109_create_offer", "C109_create_offer_response", "C109_credential_offer", "C109_grants", "C109_request_object", "C109_authorization_detail", "C109_authorized_detail", "C109_authorization_responses", "C109_token_request", "C109_token_response", "C109_credential_request", "C109_deferred_request", "C109_create_offer_values", "C109_credential_offer_values", "C109_grants_values", "C109_pre_authorized_grant_values", "C109_code_grant_values", "C109_tx_code_values", "C109_create_offer_response_values", "C109_request_object_values", "C109_authorization_response_values", "C109_par_response_values", "C109_token_request_values", "C109_token_response_values", "C109_format_values", "C109_definition_values", "C109_credential_request_values", "C109_deferred_request_values", "C109_format_names_partial", "C109_ldp_vc_refuted"], "note": "Members and their values (C109_*_values: exactly these members). Finding: ldp_vc is spelled ldp-vc on the wire."},
{"property": "C11", "status": "proved", "theorems": ["C11_token_covers_selection", "C11_denied_only_if_not_authorized"], "note": ""},
{"property": "C110", "status": "proved", "theorems": ["C110_token_granted_iff"], "note": ""},
{"property": "C111", "status": "proved", "theorems": ["C111_credential_granted_iff"], "note": ""},
{"property": "C112", "status": "proved", "theorems": ["C112_offer_is_redeemed"], "note": "For a request that selects no details; a selection is covered by C110."},
{"property": "C113", "status": "proved", "theorems": ["C113_authorization_is_redeemed"], "note": ""},
{"property": "C114", "status": "proved", "theorems": ["C114_access_token_is_honoured"], "note": ""},
{"property": "C115", "status": "proved", "theorems": ["C115_next_nonce_is_honoured"], "note": "For access tokens proper; a notification id used as one is the finding of C22."},
{"property": "C116", "status": "partial", "theorems": ["C116_credentials_read_back", "C116_presentations_read_back", "C116_what_was_read", "C116_presentation_was_read", "C116_text", "C116_presentation_text", "C116_every_credential_refuted"], "note": "Equivalence: read back exactly when readable. Refuted for credentials with a claim called id: CredentialSubject flattens the claims beside its id."},
{"property": "C117", "status": "partial", "theorems": ["C117_signed_credentials_read_back_partial", "C117_every_dataset_refuted"], "note": "Proved for answers of the provider that can be written and read. Refuted by an execution in which the dataset has a claim called id: the credential is signed and returned, and no reader accepts it."},
{"property": "C118", "status": "partial", "theorems": ["C118_signed_members", "C118_members_are_left_out_refuted", "C118_status_names_refuted", "C118_standard_status_refuted", "C118_credential_values", "C118_presentation_values", "C118_language_values"], "note": "The members are exactly those of credential_document. Refuted: null for nbf and validFrom in every credential, snake_case members of a status, standard statuses unreadable."},
{"property": "C119", "status": "partial", "theorems": ["C119_issuer_is_as_written_partial", "C119_mandatory_members_refuted"], "note": "Refuted: serde(default) makes any object a credential."},
{"property": "C12", "status": "proved", "theorems": ["C12_data_was_authorized", "C12_release_was_authorized"], "note": ""},
{"property": "C120", "status": "partial", "theorems": ["C120_signed_presentations_read_back", "C120_signed_members", "C120_types_are_types_refuted"], "note": "Both parts proved for every execution; that the types are types is refuted: any constant a filter asks for becomes one."},
{"property": "C121", "status": "partial", "theorems": ["C121_definitions_read_back", "C121_what_was_read", "C121_text", "C121_submissions_read_back", "C121_definition_members", "C121_descriptor_members", "C121_submission_members", "C121_filters", "C121_every_filter_refuted"], "note": "Proved for all definitions and submissions; what is refuted is that every JSON Schema filter is read."},
{"property": "C122", "status": "partial", "theorems": ["C122_signed_requests_read_back", "C122_answers_read_back", "C122_requests_read_back", "C122_request_members", "C122_standard_requests_refuted"], "note": "Proved for all requests this verifier makes; refuted for other requests OpenID4VP allows."},
{"property": "C123", "status": "partial", "theorems": ["C123_tokens_read_back_partial", "C123_objects_read_back_refuted", "C123_nothing_is_refused_refuted", "C123_read_iff"], "note": "Holds for tokens only; objects are never read back."},
{"property": "C124", "status": "partial", "theorems": ["C124_by_value_partial", "C124_not_fetched", "C124_links_are_read_partial", "C124_every_request_refuted"], "note": "Proved for requests of harmless strings (SerdeQuery.innocents); refuted in general by a JSONPath ending in a bracket."},
{"property": "C125", "status": "partial", "theorems": ["C125_responses_read_back", "C125_any_response", "C125_response_members", "C125_single_token_refuted", "C125_standard_response_refuted"], "note": "The round trip is proved for all responses; refuted is the form OpenID4VP prescribes for a single token."},
{"property": "C126", "status": "partial", "theorems": ["C126_metadata_read_iff", "C126_metadata_read_back", "C126_what_was_read", "C126_metadata_members", "C126_other_formats_refuted", "C126_contacts_refuted"], "note": "Exact condition proved; it refutes that all standard metadata is read."},
{"property": "C127", "status": "proved", "theorems": ["C127_saved_requests_read_back", "C127_owner_requests_read_back", "C127_response_read_back", "C127_left_out_is_refused"], "note": ""},
{"property": "C128", "status": "partial", "theorems": ["C128_read_iff", "C128_read_back_iff", "C128_what_was_read", "C128_text", "C128_others_ignored", "C128_configuration_others_ignored", "C128_members", "C128_parts_members", "C128_display_refuted", "C128_other_formats_refuted", "C128_value_types_refuted"], "note": "Read exactly when the members are those of the tables of MetaSpec.v; read back, in any order and with others between; members with their values. Refuted: metadata in the form OpenID4VCI has it (display list, unknown formats, image types) is not read."},
{"property": "C129", "status": "partial", "theorems": ["C129_read_iff", "C129_read_back", "C129_others_ignored", "C129_members", "C129_anonymous_access_refuted", "C129_other_names_refuted"], "note": "Read exactly when the members are those of the table; always read back. Refuted: without the documented default of pre-authorized_grant_anonymous_access_supported, and with names not known here, nothing is read."},
{"property": "C13", "status": "proved", "theorems": ["C13_released_only_if_entitled", "C13_issued_only_if_entitled", "C13_unknown_token_denied"], "note": ""},
{"property": "C130", "status": "partial", "theorems": ["C130_issuance_read_back_partial", "C130_issuance_same_iff", "C130_sd_jwt_refuted", "C130_presentation_read_back", "C130_issuance_members", "C130_presentation_members", "C130_credential_members", "C130_issuance_exact", "C130_presentation_exact"], "note": "Presentations are read back as saved. Issuances are, exactly when no claims of an SD-JWT credential were accepted; otherwise those come back as mobile document claims (refuted with a witness), which are written the same."},
{"property": "C131", "status": "partial", "theorems": ["C131_offer_read_partial", "C131_created_offers_partial", "C131_every_offer_refuted", "C131_standard_parameter_refuted"], "note": "Refuted for issuer names with an equals sign, and for every wallet that reads the credential_offer parameter; proved for innocent strings and the crate's own reader."},
{"property": "C132", "status": "partial", "theorems": ["C132_answers_read", "C132_text", "C132_read_back_iff", "C132_any_order", "C132_members", "C132_both_refuted"], "note": "Every answer is read back; an answer with both a transaction identifier and credentials is not refused (finding)."},
{"property": "C133", "status": "partial", "theorems": ["C133_notifications", "C133_notification_members", "C133_notification_read_iff", "C133_description_refuted", "C133_registration_read_iff_partial", "C133_registered_read_iff_partial", "C133_endpoint_moves_refuted", "C133_two_endpoints_refuted", "C133_offer_requests", "C133_metadata_requests", "C133_server_requests", "C133_offers_partial", "C133_server_metadata_partial", "C133_offer_at_its_address_refuted", "C133_metadata_at_its_address_refuted"], "note": "Notifications and requests always survive; registrations exactly when the flattened offer endpoint is not used (refuted otherwise). Descriptions are not checked, and offers and server metadata are nested one level below where the standards put them (refuted)."},
{"property": "C134", "status": "partial", "theorems": ["C134_token_requests_partial", "C134_token_requests_same_iff", "C134_authorization_requests_partial", "C134_authorization_requests_same_iff", "C134_credential_requests", "C134_deferred_requests", "C134_sd_jwt_refuted"], "note": "Exact condition proved; SD-JWT claims change kind on the way (finding)."},
{"property": "C135", "status": "partial", "theorems": ["C135_registered_iff_partial", "C135_token_partial", "C135_offer_code_refuted", "C135_pushed_request_refuted", "C135_expired_token_refuted"], "note": "Refuted: any key of the state store is taken for an access token, and expiry is not checked."},
{"property": "C136", "status": "partial", "theorems": ["C136_text_is_value_partial", "C136_value_is_text_partial", "C136_token_responses", "C136_saved_credentials_are_the_subjects", "C136_subject_the_wallet_named", "C136_one_credential_at_most"], "note": "The equivalence of text and values is proved for claims nested at most 122 deep and no SD-JWT claims (C134 shows that it fails for these); the consequences are proved without these conditions."},
{"property": "C137", "status": "partial", "theorems": ["C137_offer_iff", "C137_authorization_built", "C137_authorization_compiles", "C137_token_iff", "C137_credential_iff", "C137_unknown", "C137_last", "C137_order", "C137_offer_json_partial", "C137_authorization_json_partial", "C137_token_json_partial", "C137_credential_json_partial", "C137_wallet", "C137_code_s256", "C137_detail_unknown", "C137_two_grants_refuted", "C137_two_details_refuted", "C137_send_type_refuted", "C137_send_type_scope_refuted", "C137_method_refuted", "C137_mandatory_refuted", "C137_type_refuted", "C137_token_claims_refuted", "C137_subject_refuted", "C137_verifier_refuted"], "note": "Exactly what compiles and what it builds is proved for all four macros; unknown members are refused, the last of repeated members counts, order does not matter. Equality with JSON holds under stated conditions and is refuted without them: send types as texts, challenge methods and response types, locations, properties of claims, claims in token and credential requests, more than one grant type or authorization detail."},
{"property": "C138", "status": "proved", "theorems": ["C138_read_back", "C138_values_unchanged", "C138_no_other_item", "C138_cbor_round_trip", "C138_cbor_written", "C138_cbor_read"], "note": "CBOR is modelled as bytes, with a reader, and shown to be that of RFC 8949 (CborSpec); what the libraries decide (tag, key, dates, floats) is a parameter"},
{"property": "C139", "status": "partial", "theorems": ["C139_iso_reader_refuted"], "note": "refuted for every issued licence: items' member names are in snake case, random values and digests are arrays of numbers, dates are untagged text, there is no certificate; C138 is what does hold"},
{"property": "C14", "status": "partial", "theorems": ["C14_proof_of_possession_partial", "C14_signed_for_the_prover", "C14_no_proof_needed_refuted"], "note": "False as stated: an empty list of proofs is accepted where a proof is required (refutation). Proved for every JWT that is presented."},
{"property": "C140", "status": "proved", "theorems": ["C140_agreement", "C140_verdict", "C140_once"], "note": "Requests by value are assumed to be of harmless strings, as C124 shows is needed; metadata and input descriptors that the owner supplies are readable (C121, C122); keys are not drawn twice. Accepted credentials for several descriptors are refused when the first does not fulfil all of them: see C88."},
{"property": "C141", "status": "partial", "theorems": ["C141_subjects", "C141_password", "C141_token_spent", "C141_refuted"], "note": "Proved: whoever is authorized is the one user or a token of the service, and the user only after a login with the password; a login spends its token. Refuted: a witness execution in which the token serves as subject without any login."},
{"property": "C142", "status": "partial", "theorems": ["C142_subjects", "C142_refuted", "C142_login", "C142_uri"], "note": "Universal negative theorems: pushed requests are passed on only for token subjects, logins need the token of an authorization request, identifiers of pushed requests panic."},
{"property": "C143", "status": "partial", "theorems": ["C143_host", "C143_refuted"], "note": "Proved for all routes but /auth; for /auth the theorem says that the request is the client's own, unchanged."},
{"property": "C144", "status": "partial", "theorems": ["C144_answers", "C144_status_refuted", "C144_redirect", "C144_state_refuted"], "note": "Answers are exactly the library's; every error has status 500 and the redirect does not depend on the state."},
{"property": "C145", "status": "partial", "theorems": ["C145_identifiers", "C145_claims", "C145_works", "C145_unknown_refuted"], "note": "Answers are right and, with known subjects only, always given; after one call about an unknown subject no call is answered again."},
{"property": "C146", "status": "partial", "theorems": ["C146_sequential", "C146_refuted"], "note": "Holds for sequential calls; refuted by a witness schedule of two overlapping calls."},
{"property": "C147", "status": "partial", "theorems": ["C147_state_only", "C147_unsent_refuted", "C147_unread_refuted"], "note": "Refuted universally: no presentation of the wallet can be written as a form, no form is an acceptable response. serde_urlencoded is modelled from its documentation."},
{"property": "C148", "status": "partial", "theorems": ["C148_sent", "C148_details_refuted"], "note": "Exact: written iff there are no authorization details, and then read back; no form with details is read."},
{"property": "C149", "status": "partial", "theorems": ["C149_location", "C149_read_back", "C149_details_refuted", "C149_unread_refuted"], "note": "Read back without details and ampersands; refuted for every request with details; example with an ampersand."},
{"property": "C15", "status": "partial", "theorems": ["C15_nonce_not_reused_partial", "C15_new_nonce_saved", "C15_proof_replayed_refuted"], "note": "Proved for requests made with access tokens; refuted when the notification id is presented as the access token, where the state read keeps its nonce."},
{"property": "C150", "status": "partial", "theorems": ["C150_issuer", "C150_verifier", "C150_lost_refuted"], "note": "Exact equivalence for the verifier and, with claims nested less than 120 deep, for the issuer; refuted for deeper claims. Discharges the assumption of the endpoint models that the store holds values."},
{"property": "C151", "status": "partial", "theorems": ["C151_found", "C151_filtered", "C151_answers", "C151_durable", "C151_removed", "C151_remove_absent", "C151_failed_save_refuted", "C151_failed_remove_refuted"], "note": "Proved: what is found, durability through crashes, removal. Refuted (universal theorems): failed operations have effects."},
{"property": "C152", "status": "partial", "theorems": ["C152_listed", "C152_panics_refuted", "C152_errors_refuted", "C152_detail_partial", "C152_selected", "C152_detail_refuted", "C152_deleted", "C152_deleted_refuted"], "note": "Proved: the list when all credentials have display data, the detail of the selected credential, the claims of one subject, what a deletion removes from the list. Refuted (universal theorems): without display data, errors, several subjects, deletions that failed."},
{"property": "C153", "status": "partial", "theorems": ["C153_latest", "C153_offer_on_screen_partial", "C153_request_on_screen_partial", "C153_pin", "C153_status", "C153_saved", "C153_failure", "C153_ended", "C153_on_screen_refuted"], "note": "Proved: commands act on the last offer or request, which is the one on the screen as long as nothing panics; PIN, status, saved credentials, failures and ends of flows. Refuted by a witness session in which an offer without display data is accepted unseen."},
{"property": "C154", "status": "partial", "theorems": ["C154_links", "C154_offered", "C154_requested", "C154_issuer_refuted", "C154_documented_refuted"], "note": "Proved: which links are taken for what, and what the library is given. Refuted (universal theorems): the issuer's own links and documented prefixes."},
{"property": "C155", "status": "partial", "theorems": ["C155_noticed_partial", "C155_presentation_refuted", "C155_reported_refuted", "C155_others_refuted"], "note": "Proved for tokens, credentials, metadata and request objects, for errors whose texts need no escaping. Refuted (universal theorems) for presentations, for requests of a verifier's owner and for notifications."},
{"property": "C156", "status": "partial", "theorems": ["C156_same_host", "C156_address", "C156_token_read", "C156_status", "C156_client_errors_refuted"], "note": "Proved but for the status of client errors, which is always 500 (universal theorem)."},
{"property": "C157", "status": "proved", "theorems": ["C157_presented_as_shown", "C157_token_as_accepted", "C157_saved_as_accepted"], "note": "Composes the model of the example wallet's session with executions of the wallet library. The relation 'drives' (DriveSpec.v) says that the library's calls are the session's, one after the other, and that answers taken up are those given."},
{"property": "C158", "status": "proved", "theorems": ["C158_accepted_unless_expired"], "note": "One input descriptor; several are C88. Assumed: wallet and verifier read the same credential from a token (reads_alike), the date library reads what it wrote, the JSONPath library finds a first array element. Example: C158_example runs wallet, store and verifier."},
{"property": "C159", "status": "proved", "theorems": ["C159_presented_as_given"], "note": "kept_by (KeepSpec.v) says that the wallet's searches are answered by the example store after operations that saved only what the wallet asked to be saved. Example: C159_example."},
{"property": "C16", "status": "proved", "theorems": ["C16_invalid_proof_gives_the_saved_nonce", "C16_saved_under_the_token"], "note": ""},
{"property": "C160", "status": "proved", "theorems": ["C160_presented_data", "C160_data_read"], "note": "Pre-authorized codes only, as the example wallet knows no other grant. C160_data_read: what the verifier reads from a presented credential, if it reads what was signed (reads_as_issued). Examples: C160_example (with C159_example) and C160_reading."},
{"property": "C17", "status": "proved", "theorems": ["C17_signed_content", "C17_no_other_restriction", "C17_mdl_content", "C17_returned_is_signed"], "note": ""},
{"property": "C18", "status": "proved", "theorems": ["C18_deferred_iff", "C18_original_request", "C18_redeemed_once"], "note": "Overlapping redemptions can both succeed (C18_overlap_example), as the statement allows."},
{"property": "C19", "status": "partial", "theorems": ["C19_pending_transaction_is_lost_refuted", "C19_pending_retry_refuted"], "note": "False: in every execution the transaction id is unknown after an issuance_pending answer."},
{"property": "C20", "status": "partial", "theorems": ["C20_deferred_needs_an_entitled_token_partial", "C20_other_token_redeems_refuted"], "note": "False as stated: any token entitled to the credential redeems the transaction."},
{"property": "C21", "status": "partial", "theorems": ["C21_notification_never_accepted_refuted", "C21_issued_notification_refuted", "C21_notification_iff_partial"], "note": "False: no execution accepts a notification, because no endpoint saves an issued state."},
{"property": "C22", "status": "partial", "theorems": ["C22_notification_id_is_accepted_refuted", "C22_bearer_values_partial"], "note": "False: the token state is saved under the notification id as well. Proved: only generated access tokens and notification ids are accepted."},
{"property": "C23", "status": "proved", "theorems": ["C23_granted_iff_valid"], "note": "Characterisation of a granted authorization for every request, metadata and store behaviour."},
{"property": "C24", "status": "proved", "theorems": ["C24_recorded_under_the_code"], "note": ""},
{"property": "C25", "status": "partial", "theorems": ["C25_offer_for_its_subject_partial", "C25_not_an_offer_refuted"], "note": "The subject and expiry are checked; that the state is an offer is not, and the key of any other live state of the subject is accepted and purged."},
{"property": "C26", "status": "partial", "theorems": ["C26_required_pushing_blocks_all_refuted", "C26_pushed_when_optional_partial"], "note": "Refuted for all executions: with require_pushed_authorization_requests no pushed or direct request is ever accepted."},
{"property": "C27", "status": "partial", "theorems": ["C27_reference_is_the_pushed_request_partial", "C27_reference_used_twice_refuted"], "note": "Binding, re-verification and the 600 s limit are proved; single use is refuted."},
{"property": "C28", "status": "partial", "theorems": ["C28_first_scope_item_partial", "C28_later_items_ignored_refuted"], "note": "Proved for the first scope item; later items are ignored."},
{"property": "C29", "status": "proved", "theorems": ["C29_authorize_mandatory_claims", "C29_token_mandatory_claims", "C26_pushed_when_optional_partial"], "note": "C26_pushed_when_optional_partial is the same statement for the pushed request endpoint."},
{"property": "C30", "status": "partial", "theorems": ["C30_unsupported_claims_accepted_refuted", "C30_unsupported_claims_make_no_difference"], "note": "Refuted by an execution in which a request with a claim the configuration does not have is accepted; the second theorem shows that such claims never change the answer."},
{"property": "C31", "status": "partial", "theorems": ["C31_all_claims_issued_refuted", "C17_no_other_restriction"], "note": "Refuted by an execution that issues claims that were not asked for; C17_no_other_restriction says that no token restricts the claims."},
{"property": "C32", "status": "partial", "theorems": ["C32_token_expires_early_refuted", "C32_token_expires_with_the_code_partial"], "note": "Refuted: the state saved under the token expires with the code."},
{"property": "C33", "status": "partial", "theorems": ["C33_anonymous_refused_refuted", "C33_policy_for_empty_client_partial"], "note": "Refuted for a missing client id; holds for an empty one."},
{"property": "C34", "status": "proved", "theorems": ["C34_only_own_keys", "C34_other_keys_keep_their_value"], "note": ""},
{"property": "C35", "status": "partial", "theorems": ["C35_panics_only_for_cause_partial", "C35_create_offer_panics_refuted", "C35_credential_panics_refuted"], "note": "All panics are characterised; two kinds exist."},
{"property": "C36", "status": "partial", "theorems": ["C36_token_works_at_other_issuer_refuted"], "note": "Refuted by an execution in which a code and a token of one issuer are honoured for another."},
{"property": "C37", "status": "partial", "theorems": ["C37_nonce_used_twice_refuted", "C37_only_under_overlap_partial"], "note": "Refuted for overlapping requests; proved for requests that do not overlap."},
{"property": "C38", "status": "proved", "theorems": ["C38_failed_token_saves_nothing", "C38_failed_par_saves_nothing", "C38_failed_offer_saves_nothing", "C38_failed_authorize_saves_nothing", "C38_failed_deferred_saves_nothing"], "note": "Except for store failures, the renewed nonce and the renewed deferred transaction, which are not validation errors."},
{"property": "C39", "status": "partial", "theorems": ["C39_unknown_configuration_granted_refuted", "C39_unknown_refused_partial"], "note": "Refuted by an execution in which details that name nothing are granted; details that name an unknown configuration are refused."},
{"property": "C40", "status": "proved", "theorems": ["C40_request_created_iff", "C40_request_saved_and_handed_over"], "note": "For every run of create_request."},
{"property": "C41", "status": "proved", "theorems": ["C41_object_given_iff", "C41_object_is_the_stored_one", "C41_store_unchanged", "C41_object_created_for_client"], "note": "Per run, and for every interleaved execution from an empty store."},
{"property": "C42", "status": "proved", "theorems": ["C42_presentations_answer_the_nonce"], "note": "Needs that the JSONPath library selects parts of the document it is given (hypothesis selects_parts): that at least one presentation is given is only enforced through the path lookup. Signature verification is the decode oracle; a presentation given as an object carries the nonce in its proof but is not verified, see C46."},
{"property": "C43", "status": "proved", "theorems": ["C43_every_descriptor_answered"], "note": "Exactly-one selection, format, constraints, validity; constraints as in C50-C52."},
{"property": "C44", "status": "proved", "theorems": ["C44_accepted_once_unless_overlapping", "C44_acceptance_removes_state", "C44_refusal_keeps_state"], "note": "Overlapping responses can both succeed; the example shows it."},
{"property": "C45", "status": "partial", "theorems": ["C45_expired_request_accepted_refuted", "C45_expiry_never_checked_refuted", "C45_store_told_expiry_partial"], "note": "The property is false of the code: neither endpoint looks at the expiry of the state it fetched. Only the store is told when the state expires."},
{"property": "C46", "status": "partial", "theorems": ["C46_unsigned_presentation_accepted_refuted", "C46_tokens_verified_partial"], "note": "False of the code for presentations sent as objects: their embedded proof is not verified (todo in w3c-vc proof.rs). Proved for presentations sent as tokens."},
{"property": "C47", "status": "partial", "theorems": ["C47_other_signer_accepted_refuted", "C47_signed_by_someone_partial"], "note": "False of the code: the DID of the key identifier is never compared with the issuer."},
{"property": "C48", "status": "partial", "theorems": ["C48_other_holder_accepted_refuted", "C48_other_audience_accepted_refuted", "C48_nonce_of_this_request_partial"], "note": "False of the code: neither the audience nor the holder is compared with anything. Proved: the nonce binds the presentation to one authorization request."},
{"property": "C49", "status": "proved", "theorems": ["C49_accepted_iff_acceptable"], "note": "Both directions."},
{"property": "C50", "status": "proved", "theorems": ["C50_satisfied_iff_matched_or_optional"], "note": "For every JSONPath/regex/date engine, every constraints value and every JSON credential; conditional on evaluation ending, which C52 characterises."},
{"property": "C51", "status": "partial", "theorems": ["C51_equal_string_never_matches_refuted", "C51_null_always_matches_refuted", "C51_array_matches_iff_contains_partial"], "note": "Refuted: a string node is compared with the quoted JSON text of the constant, so an equal string never matches; null matches every constant. Holds for array nodes."},
{"property": "C52", "status": "partial", "theorems": ["C52_matching_panics_refuted", "C52_no_other_panic_partial"], "note": "Refuted: const on an object node and a format other than date and date-time reach todo!/unimplemented!. Proved: no other panic."},
{"property": "C55", "status": "proved", "theorems": ["C55_each_bit_is_the_last_status", "C55_made_iff_inside", "C55_each_bit_any_size"], "note": "One-bit lists as documented, and any entry size whose positions stay below 2^64."},
{"property": "C56", "status": "proved", "theorems": ["C56_only_own_purpose_matters"], "note": ""},
{"property": "C57", "status": "partial", "theorems": ["C57_neighbour_erased_refuted", "C57_end_of_list_panics_refuted", "C57_wide_entries_partial"], "note": "A Message entry writes eight bits whatever the entry size, so with smaller entries it erases its neighbours and panics at the end of the list; holds when entries are wide enough."},
{"property": "C58", "status": "partial", "theorems": ["C58_never_published_refuted", "C58_not_a_bitstring_refuted", "C58_text_decodes_partial", "C58_address_refuted"], "note": "Building the status list credential always fails, and the encoded list is the text of the bits."},
{"property": "C59", "status": "partial", "theorems": ["C59_index_wraps_around_refuted", "C59_refused_iff_outside_partial"], "note": "Without overflow checks index times size wraps around."},
{"property": "C60", "status": "partial", "theorems": ["C60_parameters_injected_refuted", "C60_redirect_query_refuted", "C60_numbers_become_strings_refuted", "C60_json_text_partial", "C60_round_trip_partial", "C60_injective_partial", "C60_any_escaping", "C60_form_encoding_refuted"], "note": "The encoder leaves & and = in values; holds for requests whose strings mean nothing to the decoder."},
{"property": "C61", "status": "proved", "theorems": ["C61_adds_accumulate", "C61_counts", "C61_shapes"], "note": "All types, all sequences of additions."},
{"property": "C62", "status": "proved", "theorems": ["C62_verifier_form", "C62_always_generated", "C62_challenge_form", "C62_accepted_at_authorization", "C62_accepted_when_pushed", "C62_accepted_at_redemption"], "note": "For every draw of the generator; the acceptance theorems range over all executions of the issuer with arbitrary interleavings."},
{"property": "C63", "status": "proved", "theorems": ["C63_code_fits_the_offer"], "note": "For every draw."},
{"property": "C64", "status": "proved", "theorems": ["C64_token_form", "C64_no_colon", "C64_nothing_lost"], "note": "For every draw."},
{"property": "C65", "status": "proved", "theorems": ["C65_builds_iff_complete", "C65_fails_otherwise", "C65_carries_everything"], "note": "All sequences of builder calls."},
{"property": "C66", "status": "proved", "theorems": ["C66_claims_mirror", "C66_panics_without_subject", "C66_built_never_panics"], "note": "All credentials; the only panic is on a credential whose list of subjects is empty, which no builder produces."},
{"property": "C67", "status": "proved", "theorems": ["C67_builds_iff_complete", "C67_fails_otherwise", "C67_carries_everything", "C67_new_always_fails"], "note": "Finding: VerifiablePresentation::new() fails every time."},
{"property": "C68", "status": "partial", "theorems": ["C68_translations_accumulate", "C68_counts", "C68_lookup", "C68_plain_string_lost_refuted"], "note": "Accumulation and lookup are proved. Refuted: once a translation is added to a plain string, the plain string is no longer found for any language."},
{"property": "C69", "status": "partial", "theorems": ["C69_from_str_panics_refuted", "C69_reads_partial"], "note": "Refuted: panics on the empty string and on any string whose first character has several bytes; exactly those. Otherwise the string is read as intended."},
{"property": "C70", "status": "proved", "theorems": ["C70_every_element_covered", "C70_no_claim_dropped"], "note": "For every encoder, random draws and data set (keys of a JSON object are distinct)."},
{"property": "C71", "status": "partial", "theorems": ["C71_device_key_is_the_issuers_refuted"], "note": "Refuted for every request: the device key is the issuer's own public key; nothing positive remains to prove."},
{"property": "C72", "status": "partial", "theorems": ["C72_ids_valid_partial", "C72_least_number_refuted", "C72_only_panic_partial"], "note": "Refuted when the least 32-bit number is drawn: a negative id in optimised builds, a panic with overflow checks. Proved otherwise."},
{"property": "C73", "status": "proved", "theorems": ["C73_validity_window"], "note": "Clock readings in order and less than 364 days apart."},
{"property": "C74", "status": "partial", "theorems": ["C74_signed_by_the_issuer_partial", "C74_not_a_cose_signature_refuted"], "note": "Refuted: the bare payload is signed instead of the COSE Sig_structure. Proved: the signature is the issuer's over the payload, under the key named."},
{"property": "C75", "status": "proved", "theorems": ["C75_token_requests", "C75_authorization_requests", "C75_credential_requests", "C75_deferred_requests"], "note": "For all interleavings, store failures and crashes. A token request either redeems the pre-authorized code of an offer that was stored and then accepted, with the code entered by a later call of pin exactly when the offer asks for one, or follows an answered authorization request of the same call; credential and deferred requests use a token received earlier for the same issuance at the same issuer."},
{"property": "C76", "status": "partial", "theorems": ["C76_token_asks_what_was_accepted_partial", "C76_authorization_asks_the_offer_partial", "C76_not_on_offer_refuted", "C76_more_than_accepted_refuted"], "note": "Refuted: accept takes configuration ids that are not on offer (and, without claims, that the issuer does not have); with the authorization code flow the wallet asks for the whole offer although only part was accepted. Proved: the token request asks exactly for what was passed to accept, hence only for what is on offer if that was."},
{"property": "C77", "status": "partial", "theorems": ["C77_all_asked_and_kept_partial", "C77_second_request_refused", "C77_one_credential_at_most", "C77_all_credentials_refuted", "C77_kept_for_good"], "note": "Refuted: all requests of one call carry one proof, whose nonce the issuer uses up with the first credential; so against this issuer a call never gets two credentials, and a call for two fails and loses the first. Proved: a successful call asks once for each wanted identifier in order and stores everything received."},
{"property": "C78", "status": "partial", "theorems": ["C78_saves_all_in_order_partial", "C78_failed_save_keeps_issuance_partial", "C78_forgotten_partial", "C78_saved_twice_refuted"], "note": "Refuted: while a transaction is deferred the credentials already saved stay in the issuance and are saved again. Proved: a successful save stores exactly the credentials of the issuance in order and removes the issuance iff nothing is deferred; a failed one stores a prefix and removes nothing; a removed issuance is never read again (calls not overlapping)."},
{"property": "C79", "status": "proved", "theorems": ["C79_failed_calls_change_nothing"], "note": "No call that fails makes a write that the store reports as done, except that an offer may leave the record created under its own new id (the example shows that this record of a refused offer can be accepted)."},
{"property": "C80", "status": "partial", "theorems": ["C80_sent_after_consent_partial", "C80_second_descriptor_refuted"], "note": "Proved: request, consent and presentation in this order, contents of what is signed and sent. Refuted: with several input descriptors credentials are selected for the first alone and all descriptors are mapped to the first credential."},
{"property": "C81", "status": "partial", "theorems": ["C81_status_round_trip_partial", "C81_parse_inverts_print_partial", "C81_panics_iff", "C81_parse_panics_refuted"], "note": "Refuted: parsing panics on Failed, Failed: and when byte 8 is inside a character; exactly characterised. The round trip holds."},
{"property": "C82", "status": "partial", "theorems": ["C82_presented_twice_refuted", "C80_sent_after_consent_partial"], "note": "Refuted: the status stays Authorized, so present can be called again. Proved (C80): no presentation without an earlier consent."},
{"property": "C83", "status": "partial", "theorems": ["C83_save_tells_the_issuer_partial", "C83_no_notification_refuted"], "note": "Refuted: the notification id of a credential response is never recorded, so no wallet execution ever notifies. Proved: if one were recorded, save would use it after all credentials are saved."},
{"property": "C84", "status": "proved", "theorems": ["C84_verifier_answers_the_challenge"], "note": "All interleavings."},
{"property": "C85", "status": "partial", "theorems": ["C85_proof_claims_partial", "C85_wallet_initiated_refuted"], "note": "Refuted for issuances started by the wallet: the audience is the empty string. Proved for offers; the nonce part is proved for all."},
{"property": "C86", "status": "partial", "theorems": ["C86_no_panic_partial", "C86_panics_refuted"], "note": "Refuted: empty lists in metadata panic. Proved: nothing else does."},
{"property": "C87", "status": "proved", "theorems": ["C87_only_verified_credentials_are_saved"], "note": "All interleavings."},
{"property": "C88", "status": "partial", "theorems": ["C88_accepted_iff_first_credential_fits", "C88_one_descriptor_accepted_partial", "C88_two_descriptors_refuted"], "note": "Exactly characterised: accepted iff the first credential found for the first descriptor fulfils every descriptor. Holds for one descriptor; refuted for two, even when the presentation contains a credential for each, because every descriptor is mapped to the first credential."},
{"property": "C89", "status": "proved", "theorems": ["C89_steps_taken_once", "C89_taken_twice_under_overlap"], "note": "For calls that do not overlap and distinct random identifiers; the second theorem shows that overlapping calls can both succeed."},
{"property": "C90", "status": "proved", "theorems": ["C90_data_of_the_granted_subject"], "note": ""},
{"property": "C91", "status": "proved", "theorems": ["C91_saved_credentials_are_the_subjects", "C91_subject_the_wallet_named"], "note": "Coupling of the two executions is the record coupled in ComposeSpec.v."},
{"property": "C92", "status": "proved", "theorems": ["C92_offer_goes_through_iff", "C92_offer_reported_and_recorded"], "note": ""},
{"property": "C93", "status": "proved", "theorems": ["C93_accept_goes_through_iff", "C93_acceptance_recorded", "C93_code_goes_through_iff", "C93_code_recorded"], "note": ""},
{"property": "C94", "status": "proved", "theorems": ["C94_token_goes_through_iff", "C94_token_kept_and_reported"], "note": "When several details stand for the same configuration, only the identifiers of the last are reported."},
{"property": "C95", "status": "proved", "theorems": ["C95_authorization_goes_through_iff", "C95_authorization_recorded", "C95_scope_or_details"], "note": ""},
{"property": "C96", "status": "proved", "theorems": ["C96_scope_goes_through_iff", "C96_scope_asked", "C96_scope_recorded", "C96_identifiers_go_through_iff"], "note": "A configuration with an empty display list (a panic, C86) is left aside in the second case."},
{"property": "C97", "status": "proved", "theorems": ["C97_deferred_goes_through_iff", "C97_deferred_recorded"], "note": ""},
{"property": "C98", "status": "proved", "theorems": ["C98_cancel_goes_through_iff", "C98_cancelled_is_discarded_and_reported"], "note": ""},
{"property": "C99", "status": "partial", "theorems": ["C99_request_goes_through_iff", "C99_request_recorded", "C99_consent_goes_through_iff", "C99_consent_recorded", "C99_sent_iff_partial", "C99_consented_but_never_sent_refuted"], "note": "Refuted as stated: if no input descriptor has a const filter the presentation cannot be made, although the user consented. Proved: it is sent exactly when some descriptor has one."}
]}
