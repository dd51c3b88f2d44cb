{"id": "C01", "title": "Offers are created only for valid requests", "statement": "create_offer returns an offer exactly when the issuer and server metadata are available, the issuer id is non-empty, at least one credential configuration is requested, every requested configuration is supported by the issuer, every requested grant type is supported by the server (when the server lists its grant types), a subject is given when the pre-authorized grant is requested, the subject's authorization succeeds, and the state can be saved; otherwise it returns an error and no offer.", "quantifier": "all create-offer requests, all issuer/server metadata, all provider answers and failures", "why_tests_cant": "The set of requests, metadata and provider answers is unbounded; tests sample a handful.", "anchors": ["vercre-issuer/src/create_offer.rs: create_offer, Context::verify, Context::process, authorize"]}
{"id": "C02", "title": "A created offer and the saved state agree", "statement": "When create_offer succeeds, the offer names the requested issuer and configurations, carries exactly the requested grants, both grants carry one freshly generated code, and (when any grant is requested) the state saved under that code holds the requested subject, the identifiers the provider authorized for each requested configuration in order, the transaction code handed to the caller (generated exactly when required and pre-authorized), and an expiry five minutes after the clock reading.", "quantifier": "all create-offer requests, metadata, provider answers", "why_tests_cant": "Agreement between what is handed out and what is stored must hold for every request shape.", "anchors": ["vercre-issuer/src/create_offer.rs: Context::process, Context::credential_offer, state_key"]}
{"id": "C03", "title": "The transaction code never leaks into the offer", "statement": "Whatever transaction code is generated, the offer given to the wallet (inline, or stored for retrieval by reference) is the same: the code is only returned in the separate tx_code field of the response.", "quantifier": "all requests and all pairs of generated transaction codes", "why_tests_cant": "Non-interference relates two executions; a unit test observes one.", "anchors": ["vercre-issuer/src/create_offer.rs: Context::process, Context::credential_offer"]}
{"id": "C04", "title": "Offers by reference are returned verbatim and only to the matching issuer endpoint", "statement": "credential_offer succeeds only if the id's saved state is an unexpired by-reference offer whose issuer equals the request's issuer, and then returns exactly the offer that create_offer stored.", "quantifier": "all requests and saved states, all clock values", "why_tests_cant": "All store contents and clock values.", "anchors": ["vercre-issuer/src/credential_offer.rs: process"]}
{"id": "C05", "title": "An offer URI can be retrieved at most once", "statement": "In any execution in which the offer id is not saved again, two successful retrievals of the same id overlap in time; in particular with non-overlapping requests at most one retrieval succeeds, whatever the other requests do and whichever fail or crash.", "quantifier": "all interleavings of all requests at provider-call granularity, all provider failures and crash points", "why_tests_cant": "Needs every schedule and history.", "anchors": ["vercre-issuer/src/credential_offer.rs: process", "vercre-issuer/src/create_offer.rs: Context::process"]}
{"id": "C06", "title": "Authorization and pre-authorized codes are redeemed at most once", "statement": "In any execution in which a code is not saved again, two successful token requests for the same code must overlap in time (each read the code before the other removed it); with non-overlapping requests at most one succeeds. Under overlap, the code can be redeemed twice.", "quantifier": "all interleavings of all requests, provider failures and crashes", "why_tests_cant": "Needs every schedule and history.", "anchors": ["vercre-issuer/src/token.rs: token"]}
{"id": "C07", "title": "Pre-authorized redemption requires the exact transaction code", "statement": "A pre-authorized token request succeeds only if the state saved under the code is a pre-authorized offer and the request's transaction code equals the saved one, both being absent counting as equal: an offer with a code cannot be redeemed without it, nor one without a code by sending one.", "quantifier": "all token requests, saved states, metadata", "why_tests_cant": "All codes and states.", "anchors": ["vercre-issuer/src/token.rs: Context::verify"]}
{"id": "C08", "title": "Authorization-code redemption requires the same client, redirect URI and PKCE verifier", "statement": "An authorization-code token request succeeds only if the saved state is an authorization whose client id and redirect URI equal the request's and whose code challenge equals the S256 challenge of the supplied verifier.", "quantifier": "all token requests, saved states, metadata; any hash function", "why_tests_cant": "All verifiers, clients and states.", "anchors": ["vercre-issuer/src/token.rs: Context::verify", "crates/core/src/pkce.rs: code_challenge"]}
{"id": "C09", "title": "A failed redemption attempt burns the code", "statement": "Once a token request has read the state of a code and the removal was acknowledged, the code is gone whatever the outcome: every later token request for it fails with invalid_grant unless the code is saved again. A transaction code can thus be guessed at most once per non-overlapping attempt.", "quantifier": "all executions, all failures", "why_tests_cant": "Needs every continuation of every history.", "anchors": ["vercre-issuer/src/token.rs: token"]}
{"id": "C10", "title": "Codes, offers, tokens and nonces expire", "statement": "No token, offer, credential, deferred or authorize request succeeds on a saved state whose expiry lies one second or more before the clock reading taken by that request (and none is rejected as expired before its expiry time); likewise for an expired c_nonce.", "quantifier": "all states, requests and clock values", "why_tests_cant": "All clock values.", "anchors": ["vercre-issuer/src/state.rs: State::is_expired, Token::c_nonce_expired", "vercre-issuer/src/token.rs", "vercre-issuer/src/credential.rs", "vercre-issuer/src/deferred.rs", "vercre-issuer/src/credential_offer.rs"]}
{"id": "C11", "title": "A token entitles to exactly the authorized credentials selected", "statement": "A successful token response without authorization_details in the request covers all authorized items; with them, for the pre-authorized grant, each requested detail must match an authorized item (else access_denied) and the token covers exactly the matched items. The identifiers stored with the token are exactly those of the covered items, mapped to their configuration, and the response lists the covered detail items.", "quantifier": "all token requests, saved authorizations and metadata", "why_tests_cant": "All item lists and request subsets.", "anchors": ["vercre-issuer/src/token.rs: Context::process, retain_details, authorized_details, authorized_credentials"]}
{"id": "C12", "title": "Credential data is only released for what the subject was authorized for", "statement": "In any execution starting from an empty store, whenever the issuer asks the provider for the dataset of a subject and credential identifier, the provider had earlier answered an authorization query for that same subject with a list containing that identifier.", "quantifier": "all interleavings of all endpoint requests, all failures and crash points, all provider answers", "why_tests_cant": "End-to-end provenance over every history; no finite test suite covers it.", "anchors": ["vercre-issuer/src/create_offer.rs: authorize", "vercre-issuer/src/authorize.rs: Context::process", "vercre-issuer/src/token.rs: authorized_credentials", "vercre-issuer/src/credential.rs: Context::dataset, authorized", "vercre-issuer/src/deferred.rs: process"]}
{"id": "C13", "title": "No credential without a valid access token and an authorized identifier", "statement": "The credential endpoint signs, defers or issues only if the access token maps to an unexpired validated token state with an unexpired c_nonce and the requested identifier (or a configuration of the requested format) is among the token's authorized credentials; an unknown token yields access_denied without any further provider call.", "quantifier": "all requests, states, metadata, clock values", "why_tests_cant": "All states and requests.", "anchors": ["vercre-issuer/src/credential.rs: credential, Context::verify, authorized"]}
{"id": "C14", "title": "Issuance requires proof of possession bound to the current nonce", "statement": "If the credential configuration lists supported proof types, a credential is issued or deferred only if the request carries a proof and every JWT in it verifies, has the proof type, carries the token's current c_nonce and names a key id; the credential is bound to the DID of the last proof's key.", "quantifier": "all requests, proofs, states and metadata", "why_tests_cant": "All proofs and nonces.", "anchors": ["vercre-issuer/src/credential.rs: Context::verify, w3c_vc"]}
{"id": "C15", "title": "A key proof cannot be replayed after issuance", "statement": "Issuing a credential replaces the token's c_nonce with a freshly generated one before the response is returned, so (with non-repeating nonces and non-overlapping requests) a request whose proof carries an already used nonce is rejected with invalid_proof.", "quantifier": "all histories of requests on the token", "why_tests_cant": "Relates arbitrary pairs of requests in every history.", "anchors": ["vercre-issuer/src/credential.rs: issue_response, invalid_proof"]}
{"id": "C16", "title": "An invalid-proof error carries the nonce to retry with", "statement": "When the credential endpoint answers invalid_proof, the returned c_nonce is the one now saved with the token with a ten-minute expiry and nothing else about the token's entitlements changed.", "quantifier": "all requests and states", "why_tests_cant": "All states.", "anchors": ["vercre-issuer/src/credential.rs: invalid_proof"]}
{"id": "C17", "title": "The issued credential says what was authorized", "statement": "The credential that is signed has the issuer's id as issuer, the holder DID from the proof as subject id, the configured credential type, the provider's status entries, and as claims exactly the provider's dataset for the authorized identifier restricted to the claims named in the request's format when it names any.", "quantifier": "all requests, datasets, configurations", "why_tests_cant": "All datasets and requests.", "anchors": ["vercre-issuer/src/credential.rs: w3c_vc, dataset, issue_response"]}
{"id": "C18", "title": "A deferred transaction is redeemed at most once and issues what was requested", "statement": "A deferred request succeeds only on an unexpired deferred state; it then removes the transaction and answers exactly as the credential endpoint answers the original request under the presented issuer and access token. Non-overlapping repeats fail.", "quantifier": "all interleavings, states, failures", "why_tests_cant": "Every history.", "anchors": ["vercre-issuer/src/deferred.rs: process"]}
{"id": "C19", "title": "A still pending deferred credential can be asked for again", "statement": "After an issuance_pending answer the same transaction id can be presented again later.", "quantifier": "all histories", "why_tests_cant": "Needs every continuation of a pending answer.", "anchors": ["vercre-issuer/src/deferred.rs: process", "vercre-issuer/src/credential.rs: defer_response"]}
{"id": "C20", "title": "A deferred transaction belongs to the access token that created it", "statement": "Only the access token that was used in the original credential request can redeem the transaction id.", "quantifier": "all requests and states", "why_tests_cant": "All pairs of tokens.", "anchors": ["vercre-issuer/src/deferred.rs: process"]}
{"id": "C21", "title": "The notification id handed out with a credential is accepted by the notification endpoint", "statement": "After a successful credential response, a notification request with the returned notification id succeeds (once).", "quantifier": "all histories", "why_tests_cant": "Every history after an issuance.", "anchors": ["vercre-issuer/src/credential.rs: issue_response", "vercre-issuer/src/notification.rs: process"]}
{"id": "C22", "title": "A notification id is not a bearer token", "statement": "A notification id cannot be presented to the credential endpoint as an access token.", "quantifier": "all histories", "why_tests_cant": "Every history.", "anchors": ["vercre-issuer/src/credential.rs: issue_response, credential"]}
{"id": "C23", "title": "Authorization requests are accepted exactly when valid", "statement": "An authorization request is granted exactly when client, server and issuer metadata exist, pushed authorization is used if required, response type, scopes and grant are supported by client and server, the subject is named, a linked offer exists, is unexpired and has the same subject, at least one credential is requested and each is acceptable, the redirect URI is registered with the client, the PKCE method is supported, the challenge is 43 to 128 long and the provider authorizes and saves.", "quantifier": "all requests, metadata, states, provider answers", "why_tests_cant": "About twenty conditions over unbounded inputs; tests exercise few combinations.", "anchors": ["vercre-issuer/src/authorize.rs: authorize, Context::verify, verify_authorization_details, verify_scope, process"]}
{"id": "C24", "title": "A granted authorization is recorded under the returned code for exactly this request", "statement": "The returned code is fresh, the response echoes the request's state and redirect URI, and the state saved under the code records the request's subject, client, redirect URI and challenge and one item per requested configuration with the identifiers the provider authorized, expiring in five minutes; the linked offer is removed.", "quantifier": "all authorization requests, states, provider answers", "why_tests_cant": "All requests.", "anchors": ["vercre-issuer/src/authorize.rs: Context::process"]}
{"id": "C25", "title": "An offer can only be taken up by its own subject", "statement": "An authorization request naming an offer (issuer_state) succeeds only if the saved state under that key is unexpired and its subject is the request's subject; the state must be an offer made by this issuer.", "quantifier": "all requests and states", "why_tests_cant": "All pairs of states and requests.", "anchors": ["vercre-issuer/src/authorize.rs: Context::verify, Context::process"]}
{"id": "C26", "title": "Pushed authorization works when the server requires it", "statement": "If the server requires pushed authorization requests, a valid pushed request is accepted and its request_uri authorizes.", "quantifier": "all metadata and requests", "why_tests_cant": "All metadata.", "anchors": ["vercre-issuer/src/par.rs: verify", "vercre-issuer/src/authorize.rs: Context::verify"]}
{"id": "C27", "title": "A pushed request is verified, bound and expires", "statement": "A request_uri authorizes exactly the request that was pushed (re-verified at use), is refused more than 600 seconds after it was pushed, and cannot be used twice.", "quantifier": "all histories, requests, clock values", "why_tests_cant": "Every history.", "anchors": ["vercre-issuer/src/par.rs: process", "vercre-issuer/src/authorize.rs: authorize"]}
{"id": "C28", "title": "Every scope item requested is considered", "statement": "An authorization by scope covers the configurations of each requested scope item that are not already requested by authorization_details, and is refused if an item is unsupported.", "quantifier": "all scope strings and metadata", "why_tests_cant": "All strings.", "anchors": ["vercre-issuer/src/authorize.rs: verify_scope"]}
{"id": "C29", "title": "Mandatory claims must be requested", "statement": "When a request narrows claims, it is refused unless every mandatory claim of the configuration, at any nesting depth, is requested; a nested claim set requested as a plain claim is refused.", "quantifier": "all claim trees of any depth and width", "why_tests_cant": "Recursive structure of unbounded depth.", "anchors": ["crates/openid/src/issuer.rs: CredentialConfiguration::verify_claims, claims_required"]}
{"id": "C30", "title": "Unsupported claims are refused", "statement": "When a request narrows claims, it is refused if it names a claim that the configuration does not support.", "quantifier": "all claim trees", "why_tests_cant": "Recursive structure of unbounded depth.", "anchors": ["crates/openid/src/issuer.rs: CredentialConfiguration::verify_claims, claims_supported"]}
{"id": "C31", "title": "Claims not asked for at authorization are not issued", "statement": "When the authorization named a subset of claims, the credential issued with the resulting token contains only claims from that subset.", "quantifier": "all histories", "why_tests_cant": "End-to-end over authorize, token and credential for all claim sets.", "anchors": ["vercre-issuer/src/token.rs: authorized_credentials", "vercre-issuer/src/credential.rs: dataset", "vercre-issuer/src/authorize.rs"]}
{"id": "C32", "title": "An access token lives as long as advertised", "statement": "For expires_in seconds after the token response, the credential endpoint does not refuse the token as expired.", "quantifier": "all clock values", "why_tests_cant": "All clock values and histories.", "anchors": ["vercre-issuer/src/token.rs: Context::process", "vercre-issuer/src/credential.rs: Context::verify"]}
{"id": "C33", "title": "Anonymous pre-authorized redemption follows the server's policy", "statement": "A pre-authorized token request without client id is refused as anonymous exactly when the server does not support anonymous access.", "quantifier": "all requests and metadata", "why_tests_cant": "All metadata and request combinations.", "anchors": ["vercre-issuer/src/token.rs: Context::verify"]}
{"id": "C34", "title": "Requests only touch their own session's state", "statement": "Every endpoint reads and writes only the store keys named in its request, recorded in the state it read, or freshly generated during the call; every other key keeps its value through any execution.", "quantifier": "all requests, states, failures", "why_tests_cant": "Frame condition over all keys and all histories.", "anchors": ["vercre-issuer/src/*.rs"]}
{"id": "C35", "title": "Endpoints do not panic", "statement": "No endpoint panics, whatever the request, saved state and provider answers.", "quantifier": "all requests, states, provider answers", "why_tests_cant": "All inputs.", "anchors": ["vercre-issuer/src/*.rs"]}
{"id": "C36", "title": "Codes and tokens of one issuer are not honoured for another", "statement": "A code or token obtained from one credential issuer served by the deployment cannot be used to obtain a credential signed by another issuer.", "quantifier": "all histories with several issuers", "why_tests_cant": "All histories.", "anchors": ["vercre-issuer/src/token.rs", "vercre-issuer/src/credential.rs"]}
{"id": "C37", "title": "Concurrent credential requests do not reuse a nonce", "statement": "One c_nonce value is accepted for at most one issued credential, under every interleaving.", "quantifier": "all interleavings", "why_tests_cant": "Every schedule.", "anchors": ["vercre-issuer/src/credential.rs: credential, issue_response"]}
{"id": "C38", "title": "Failed requests leave no grant behind", "statement": "A token, authorize, PAR, credential-offer or deferred request that returns a validation error saves nothing.", "quantifier": "all requests, states, provider answers", "why_tests_cant": "All failing paths.", "anchors": ["vercre-issuer/src/*.rs"]}
{"id": "C39", "title": "Authorization details name existing configurations", "statement": "An authorization request is refused if one of its authorization details names a credential configuration the issuer does not have.", "quantifier": "all requests and metadata", "why_tests_cant": "All metadata and request combinations.", "anchors": ["vercre-issuer/src/authorize.rs: Context::verify_authorization_details, Context::process"]}
{"id": "C40", "title": "Authorization requests are well formed and saved", "statement": "create_request succeeds exactly when at least one input descriptor is given and metadata and store are available; the object saved under the returned token has a fresh nonce, carries exactly the given descriptors, and is returned by value (same device) or by reference to the key under which it is saved (cross device).", "quantifier": "all requests, provider answers", "why_tests_cant": "All requests.", "anchors": ["vercre-verifier/src/create_request.rs: create_request, verify, process"]}
{"id": "C41", "title": "A request object is only given out to its client", "statement": "request_object returns, signed, exactly the object saved under the id and only if its client id is the requesting client's post endpoint; it changes nothing in the store.", "quantifier": "all requests and stored objects", "why_tests_cant": "All stored objects.", "anchors": ["vercre-verifier/src/request_object.rs: process"]}
{"id": "C42", "title": "Every accepted presentation answers the verifier's nonce", "statement": "response succeeds only if the request's state key is stored, at least one presentation is given, and every presentation in the vp_token verifies and carries the stored request's nonce.", "quantifier": "all responses with any number of presentations, all stored requests", "why_tests_cant": "All numbers of presentations.", "anchors": ["vercre-verifier/src/response.rs: Context::verify"]}
{"id": "C43", "title": "Every input descriptor is answered by a satisfying, unexpired credential", "statement": "response succeeds only if the submission names the stored definition and every input descriptor has a mapping whose path selects exactly one verifiable credential JWT that verifies, whose content satisfies the descriptor's constraints, whose format is accepted, and which is not past its validity.", "quantifier": "all definitions with any number of descriptors, all submissions and presentations", "why_tests_cant": "Universal over lists and JSON values.", "anchors": ["vercre-verifier/src/response.rs: Context::verify", "crates/dif-exch/src/matcher.rs"]}
{"id": "C44", "title": "A presentation response is accepted at most once", "statement": "A successful response removes the request state; two successful responses for the same request must overlap in time; a failed response leaves the state so that the wallet can retry.", "quantifier": "all interleavings, failures", "why_tests_cant": "Every schedule.", "anchors": ["vercre-verifier/src/response.rs: response, process"]}
{"id": "C45", "title": "Expired authorization requests are refused", "statement": "response and request_object refuse a request state whose five-minute expiry has passed.", "quantifier": "all clock values", "why_tests_cant": "All clock values.", "anchors": ["vercre-verifier/src/response.rs", "vercre-verifier/src/request_object.rs", "vercre-verifier/src/state.rs"]}
{"id": "C46", "title": "Presentations must be signed by their holder", "statement": "response accepts a presentation only if its signature verifies.", "quantifier": "all presentations", "why_tests_cant": "All presentations.", "anchors": ["vercre-verifier/src/response.rs", "crates/w3c-vc/src/proof.rs: verify"]}
{"id": "C47", "title": "Credentials must be signed by their issuer", "statement": "A credential is accepted only if the DID of the key that signed it is the credential's issuer.", "quantifier": "all credentials", "why_tests_cant": "All credentials.", "anchors": ["crates/w3c-vc/src/proof.rs: verify", "vercre-verifier/src/response.rs"]}
{"id": "C48", "title": "Presentations are bound to holder and verifier", "statement": "An accepted presentation was made for this verifier and by the subject of the credentials it contains.", "quantifier": "all presentations", "why_tests_cant": "All presentations.", "anchors": ["vercre-verifier/src/response.rs", "crates/w3c-vc/src/proof/jose.rs"]}
{"id": "C49", "title": "Exactly the answers to the stored request are accepted", "statement": "When the state key of a response is stored, tokens decode consistently and the store works, response succeeds if and only if every presentation answers the nonce of the stored request, the submission names its definition and every input descriptor is answered by a satisfying, unexpired credential; no other response is refused or accepted.", "quantifier": "all responses, stored requests, JSONPath libraries, signature oracles and clock values", "why_tests_cant": "Both directions range over all responses and all provider answers.", "anchors": ["vercre-verifier/src/response.rs: Context::verify, process"]}
{"id": "C50", "title": "Constraints are satisfied exactly when each field is matched or optional", "statement": "A credential satisfies a descriptor's constraints exactly when for every field either the field is optional or the first of its paths that selects something selects first a value that passes the field's filter (if any).", "quantifier": "all constraints, JSON documents and JSONPath engines", "why_tests_cant": "All documents.", "anchors": ["crates/dif-exch/src/matcher.rs: Constraints::satisfied, Field::matched"]}
{"id": "C51", "title": "A const filter matches equal values", "statement": "A const filter matches a JSON value exactly when the value equals the constant or is an array containing it.", "quantifier": "all JSON values", "why_tests_cant": "All JSON values.", "anchors": ["crates/dif-exch/src/matcher.rs: FilterValue::match_const"]}
{"id": "C52", "title": "Matching never panics", "statement": "Evaluating constraints against a credential never panics.", "quantifier": "all JSON values and filters", "why_tests_cant": "All inputs.", "anchors": ["crates/dif-exch/src/matcher.rs"]}
{"id": "C55", "title": "The status list tells each credential's own status", "statement": "For revocation and suspension lists, bit i of the generated list is set exactly when the last log entry for the list's purpose at index i has a non-zero value; an index beyond the list is an error.", "quantifier": "all logs of any length, all sizes and indices", "why_tests_cant": "All logs.", "anchors": ["crates/status/src/bitstring.rs: bitstring"]}
{"id": "C56", "title": "Entries of other purposes have no effect", "statement": "Adding or removing log entries with another purpose does not change the list.", "quantifier": "all logs", "why_tests_cant": "All logs.", "anchors": ["crates/status/src/bitstring.rs: bitstring"]}
{"id": "C57", "title": "Message statuses do not disturb each other", "statement": "For a message list with n-bit entries, writing one entry changes only that entry's n bits and never fails for an index inside the list.", "quantifier": "all logs, indices and sizes", "why_tests_cant": "All logs.", "anchors": ["crates/status/src/bitstring.rs: bitstring"]}
{"id": "C58", "title": "A status list credential can be published", "statement": "For a valid configuration and log, generating the status list credential succeeds and its encoded list decodes to the bits.", "quantifier": "all configurations and logs", "why_tests_cant": "All logs.", "anchors": ["crates/status/src/bitstring.rs: credential, bitstring", "crates/w3c-vc/src/model/vc.rs: VcBuilder::build"]}
{"id": "C59", "title": "Status indices beyond the list are refused", "statement": "A log with an index outside a purpose's list is refused, whatever the entry size of that list and whether or not overflow checks are compiled in.", "quantifier": "all logs, list configurations and indices", "why_tests_cant": "All 64-bit indices and sizes.", "anchors": ["crates/status/src/bitstring.rs: bitstring"]}
{"id": "C60", "title": "Query strings round-trip", "statement": "Encoding a request as a query string and decoding it gives the request back.", "quantifier": "all requests with arbitrary string values", "why_tests_cant": "All strings.", "anchors": ["crates/core/src/urlencode.rs: from_str", "crates/core/src/urlencode/ser.rs: to_string"]}
{"id": "C61", "title": "Multi-valued VC properties accumulate", "statement": "Adding values to a one-or-many property keeps all earlier values in order; length and emptiness agree with the contents.", "quantifier": "all sequences of additions", "why_tests_cant": "All sequences.", "anchors": ["crates/core/src/lib.rs: Quota::add, len, is_empty"]}
{"id": "C62", "title": "Generated PKCE pairs are always accepted", "statement": "A generated verifier is 43 to 128 characters from the allowed alphabet, and the challenge derived from it passes the issuer's checks at authorization and at redemption.", "quantifier": "all random choices", "why_tests_cant": "All random outcomes.", "anchors": ["crates/core/src/pkce.rs", "vercre-issuer/src/authorize.rs", "vercre-issuer/src/token.rs"]}
{"id": "C63", "title": "Generated transaction codes fit the offer's description", "statement": "Every generated transaction code has exactly the length and the digits-only form announced in the offer.", "quantifier": "all random choices", "why_tests_cant": "All random outcomes.", "anchors": ["crates/core/src/gen.rs: tx_code", "vercre-issuer/src/create_offer.rs: credential_offer"]}
{"id": "C64", "title": "Generated codes, tokens and nonces are URL-safe and lose no randomness", "statement": "Every generated authorization code, token, nonce, issuer state, notification id and transaction id consists of URL-safe characters only, contains no colon (the separator of stored keys), and distinct draws give distinct values.", "quantifier": "all byte draws", "why_tests_cant": "Random draws cannot be enumerated by tests.", "anchors": ["crates/core/src/gen.rs: auth_code, issuer_state, nonce, notification_id, uri_token, token, transaction_id"]}
{"id": "C65", "title": "The credential builder only builds complete credentials", "statement": "build succeeds exactly when at least two contexts, two types, a non-empty issuer and a subject with content were given, and the result carries everything added in order.", "quantifier": "all sequences of builder calls", "why_tests_cant": "All sequences.", "anchors": ["crates/w3c-vc/src/model/vc.rs: VcBuilder"]}
{"id": "C66", "title": "Signed credential claims mirror the credential", "statement": "The JWT claims of a credential carry its first subject id, issuer, id, issuance time and expiry, and the full credential.", "quantifier": "all credentials", "why_tests_cant": "All credentials.", "anchors": ["crates/w3c-vc/src/proof/jose.rs: VcClaims::from_vc"]}
{"id": "C67", "title": "The presentation builder only builds complete presentations", "statement": "build succeeds exactly when at least two contexts and two types were given; all credentials added are kept in order.", "quantifier": "all sequences of builder calls", "why_tests_cant": "All sequences.", "anchors": ["crates/w3c-vc/src/model/vp.rs: VpBuilder"]}
{"id": "C68", "title": "Translated strings keep every translation", "statement": "Adding translations to a name or description keeps the earlier ones in order, and a lookup by language gives the first value added with that tag; adding a translation does not change what other languages see.", "quantifier": "all sequences of additions, all language tags", "why_tests_cant": "All sequences and tags.", "anchors": ["crates/w3c-vc/src/model/types.rs: LangString::add, len, is_empty, value"]}
{"id": "C69", "title": "Reading a presentation from a string never panics", "statement": "Parsing a presentation from any string gives a presentation or an error.", "quantifier": "all strings", "why_tests_cant": "All strings, including empty ones and those that start with a multi-byte character.", "anchors": ["crates/w3c-vc/src/model/vp.rs: FromStr for VerifiablePresentation"]}
{"id": "C70", "title": "Every mDL element is covered by exactly one digest", "statement": "In an issued mDL, each namespace's digest table has exactly one entry per element, keyed by the element's digest id, equal to the digest of the element as issued; ids are unique within a namespace.", "quantifier": "all datasets and random choices", "why_tests_cant": "All datasets and random draws.", "anchors": ["crates/iso-mdl/src/lib.rs: to_credential", "crates/iso-mdl/src/mso.rs: DigestIdGenerator::gen"]}
{"id": "C71", "title": "An mDL is bound to the holder's key", "statement": "The device key in the signed security object is the holder's key from the key proof.", "quantifier": "all requests", "why_tests_cant": "All requests.", "anchors": ["crates/iso-mdl/src/lib.rs: to_credential", "vercre-issuer/src/credential.rs: mso_mdoc"]}
{"id": "C72", "title": "mDL digest ids are in range", "statement": "Every digest id of an issued mDL is at least 0 and smaller than 2^31, and generating ids never panics.", "quantifier": "all datasets and random draws", "why_tests_cant": "One draw in 2^32 matters.", "anchors": ["crates/iso-mdl/src/mso.rs: DigestIdGenerator::gen, DigestId"]}
{"id": "C73", "title": "mDL validity is well formed", "statement": "In an issued mDL, the signing time is not after the start of validity, which is before its end; the end is 365 days after issuance.", "quantifier": "all datasets and clock readings", "why_tests_cant": "All clock readings.", "anchors": ["crates/iso-mdl/src/mso.rs: MobileSecurityObject::new"]}
{"id": "C74", "title": "mDL signatures are COSE signatures", "statement": "The signature in an issued mDL is the issuer's signature, under the key named in the header, over the COSE signature structure of the security object.", "quantifier": "all datasets and signers", "why_tests_cant": "All datasets and signers.", "anchors": ["crates/iso-mdl/src/lib.rs: to_credential"]}
{"id": "C75", "title": "The wallet follows the issuance order", "statement": "In any sequence of wallet calls, a token is only requested for an accepted offer, a transaction code is supplied before the token request when the offer asks for one, and credentials are only requested after a token was received.", "quantifier": "all sequences of wallet calls, all issuer and provider answers", "why_tests_cant": "All call sequences.", "anchors": ["vercre-holder/src/issuance/*.rs"]}
{"id": "C76", "title": "The wallet only asks for what was offered", "statement": "Every credential the wallet asks for at the token or authorization endpoint was in the offer that the user accepted.", "quantifier": "all sequences of wallet calls", "why_tests_cant": "All sequences.", "anchors": ["vercre-holder/src/issuance/accept.rs: narrow_scope", "vercre-holder/src/issuance/token.rs", "vercre-holder/src/issuance/authorize.rs"]}
{"id": "C77", "title": "All accepted credentials are obtained", "statement": "A wallet that accepted several credentials and runs the flow against the issuer obtains all of them.", "quantifier": "all offers with any number of credentials", "why_tests_cant": "Composition of wallet and issuer for all offer sizes.", "anchors": ["vercre-holder/src/issuance/credentials.rs: credentials, credential_by_identifier", "vercre-issuer/src/credential.rs"]}
{"id": "C78", "title": "Saved credentials are saved once", "statement": "save stores every credential received exactly once, in order, and forgets the issuance when nothing is deferred.", "quantifier": "all sequences of wallet calls", "why_tests_cant": "All sequences.", "anchors": ["vercre-holder/src/issuance/save.rs"]}
{"id": "C79", "title": "Errors do not corrupt the wallet's issuance", "statement": "A wallet call that fails leaves the stored issuance as it was.", "quantifier": "all calls, failures", "why_tests_cant": "All failing paths.", "anchors": ["vercre-holder/src/issuance/*.rs"]}
{"id": "C80", "title": "The wallet presents only after consent and only what was selected", "statement": "A presentation is only sent after the request was explicitly authorized, contains exactly the credentials selected for the request, and answers every descriptor of the definition.", "quantifier": "all sequences of wallet calls", "why_tests_cant": "All sequences.", "anchors": ["vercre-holder/src/presentation/*.rs"]}
{"id": "C81", "title": "Wallet status strings round-trip", "statement": "Parsing the printed form of a presentation status gives the status back and parsing never panics.", "quantifier": "all status values and strings", "why_tests_cant": "All strings.", "anchors": ["vercre-holder/src/presentation.rs: Status"]}
{"id": "C82", "title": "One consent, one presentation", "statement": "After the user consents to a presentation request, one presentation is sent; another needs another consent.", "quantifier": "all sequences of wallet calls", "why_tests_cant": "All sequences of calls, not the one a test replays.", "anchors": ["vercre-holder/src/presentation/authorize.rs: authorize", "vercre-holder/src/presentation/present.rs: present"]}
{"id": "C83", "title": "The issuer is told what became of its credentials", "statement": "When the issuer asked to be notified, saving or cancelling an issuance notifies it.", "quantifier": "all sequences of wallet calls, all issuer answers", "why_tests_cant": "All sequences and answers.", "anchors": ["vercre-holder/src/issuance/save.rs: save", "vercre-holder/src/issuance/cancel.rs: cancel", "vercre-holder/src/issuance/credentials.rs: credentials"]}
{"id": "C84", "title": "The token request answers the authorization request", "statement": "A token request with an authorization code carries the code of an answer to an authorization request of the same call, the same redirect URI and client, and a verifier whose challenge that request carried.", "quantifier": "all sequences and interleavings of wallet calls, all issuer answers", "why_tests_cant": "All interleavings and answers.", "anchors": ["vercre-holder/src/issuance/authorize.rs: authorize, authorization_request, token_request"]}
{"id": "C85", "title": "Key proofs are addressed to the issuer", "statement": "Every key proof the wallet signs names the issuer of its issuance as audience, and carries a nonce this issuer gave for this issuance.", "quantifier": "all sequences and interleavings of wallet calls, all issuer answers", "why_tests_cant": "All interleavings and answers.", "anchors": ["vercre-holder/src/issuance/credentials.rs: credentials"]}
{"id": "C86", "title": "The wallet does not panic", "statement": "No answer of an issuer, a verifier or a store makes a wallet call panic.", "quantifier": "all sequences of wallet calls, all answers", "why_tests_cant": "All answers.", "anchors": ["vercre-holder/src/issuance/*.rs", "vercre-holder/src/presentation/*.rs"]}
{"id": "C87", "title": "Only verified credentials are saved", "statement": "Every credential that is saved was contained in an answer of the issuer to a request for that issuance, and its signature was verified first.", "quantifier": "all sequences and interleavings of wallet calls, all answers", "why_tests_cant": "All interleavings and answers.", "anchors": ["vercre-holder/src/issuance/credentials.rs: credential, process_credential_response", "vercre-holder/src/issuance/deferred.rs: deferred", "vercre-holder/src/issuance/save.rs: save"]}
{"id": "C88", "title": "A wallet's presentation is accepted by the verifier that asked for it", "statement": "When the wallet answers a verifier's authorization request and has found credentials that fulfil every input descriptor of the request, the verifier that stored the request accepts the response it is sent.", "quantifier": "for every execution of the wallet, every request it answers, every set of credentials its store finds and every run of the verifier's response endpoint on what the wallet sent", "why_tests_cant": "Wallet and verifier are separate crates tested against canned inputs of each other; whether what one builds is what the other accepts depends on every number of descriptors, every set of stored credentials and every constraint.", "anchors": ["vercre-holder/src/presentation/present.rs: present, create_submission, create_vp", "vercre-holder/src/presentation/request.rs: build_filter", "vercre-verifier/src/response.rs: Context::verify"]}
{"id": "C89", "title": "Steps of the wallet's flows are taken once", "statement": "When wallet calls do not overlap, an issuance is accepted once, takes one transaction code and one token, and a presentation request is consented to once.", "quantifier": "all sequences of wallet calls, all answers, store failures and crashes", "why_tests_cant": "All sequences.", "anchors": ["vercre-holder/src/issuance/accept.rs: accept", "vercre-holder/src/issuance/pin.rs: pin", "vercre-holder/src/issuance/token.rs: token", "vercre-holder/src/issuance/authorize.rs: authorize", "vercre-holder/src/presentation/authorize.rs: authorize"]}
{"id": "C90", "title": "Released data belong to the subject of the grant", "statement": "Whenever the issuer fetches a holder's data, the access token presented was issued for a code, and the subject and credential of the data are those the code was made for: the subject the offer was created for (pre-authorized code), or the subject that was authorized (authorization code), who was found authorized for this very credential by the call that made the code.", "quantifier": "all sequences and interleavings of requests by any number of clients, all provider answers and failures", "why_tests_cant": "Data are separated from the grant by several saved states and calls that other requests can interleave with; no test covers all interleavings or token substitutions.", "anchors": ["vercre-issuer/src/create_offer.rs", "vercre-issuer/src/authorize.rs", "vercre-issuer/src/token.rs", "vercre-issuer/src/credential.rs: dataset", "vercre-issuer/src/deferred.rs"]}
{"id": "C91", "title": "Credentials in the wallet carry the granted subject's data", "statement": "When the wallet talks to this issuer, every credential it saves was signed by the issuer from the data of the subject that the wallet's own grant was made for; with the authorization code flow, of the subject the wallet itself named.", "quantifier": "all executions of the wallet and of the issuer, with any other clients, lost messages and provider failures", "why_tests_cant": "Composition of two concurrent systems over all interleavings.", "anchors": ["vercre-holder/src/issuance/token.rs", "vercre-holder/src/issuance/credentials.rs", "vercre-holder/src/issuance/deferred.rs", "vercre-holder/src/issuance/save.rs", "vercre-issuer/src/credential.rs", "vercre-issuer/src/token.rs"]}
{"id": "C92", "title": "When the wallet takes an offer up, and what it records", "statement": "An offer is taken up exactly when it offers something, every configuration it offers is in the issuer's metadata and no provider fails; the reply then describes exactly the offered configurations, and a new issuance, with nothing received yet, is recorded under the id that is returned.", "quantifier": "every request, every stored record, and every sequence of answers of the providers", "why_tests_cant": "The condition is an equivalence: it needs every way the step can be refused or fail, over all records and provider answers, not the handful of cases a test sets up.", "anchors": ["vercre-holder/src/issuance/offer.rs: offer"]}
{"id": "C93", "title": "When accepting an offer and giving the transaction code go through", "statement": "Accepting goes through exactly for an issuance that is ready, with at least one item if any are listed and claims only for supported configurations; giving a code goes through exactly for an issuance that waits for one. The record changes in what was accepted, the code and the status, and in nothing else.", "quantifier": "every request, every stored record, and every sequence of answers of the providers", "why_tests_cant": "The condition is an equivalence: it needs every way the step can be refused or fail, over all records and provider answers, not the handful of cases a test sets up.", "anchors": ["vercre-holder/src/issuance/accept.rs: accept", "vercre-holder/src/issuance/pin.rs: pin"]}
{"id": "C94", "title": "When the wallet gets a token for an accepted offer", "statement": "A token is obtained exactly when the issuance was accepted, its offer has a pre-authorized code, the providers answer and every authorized detail stands for a configuration; the token is recorded and what it authorizes is reported per configuration.", "quantifier": "every request, every stored record, and every sequence of answers of the providers", "why_tests_cant": "The condition is an equivalence: it needs every way the step can be refused or fail, over all records and provider answers, not the handful of cases a test sets up.", "anchors": ["vercre-holder/src/issuance/token.rs: token"]}
{"id": "C95", "title": "When the wallet's authorization goes through", "statement": "Authorization goes through exactly when the issuance was accepted (or is started by the user with a scope or details, not both), there is something to ask for, the server's metadata is complete, the providers answer and every authorized detail stands for a configuration; the token, the PKCE verifier and its challenge are recorded and what is authorized is reported. A request has a scope or details, never both and never neither.", "quantifier": "every request, every stored record, and every sequence of answers of the providers", "why_tests_cant": "The condition is an equivalence: it needs every way the step can be refused or fail, over all records and provider answers, not the handful of cases a test sets up.", "anchors": ["vercre-holder/src/issuance/authorize.rs: authorize"]}
{"id": "C96", "title": "When the wallet's requests for credentials go through", "statement": "With a scope: exactly when a token was received, a format and no identifiers are given and some configuration has the scope and the format; the first such configuration is asked for once, and what came is recorded. Without a scope: exactly when a token was received, it has authorization details, and each stands for a supported configuration; in both cases the providers must answer and everything received be a JWT with a date that exists.", "quantifier": "every request, every stored record, and every sequence of answers of the providers", "why_tests_cant": "The condition is an equivalence: it needs every way the step can be refused or fail, over all records and provider answers, not the handful of cases a test sets up.", "anchors": ["vercre-holder/src/issuance/credentials.rs: credentials"]}
{"id": "C97", "title": "When a deferred credential is fetched, and what is recorded", "statement": "Fetching a deferred credential goes through exactly when a token was received, the configuration is known, the providers answer and what came can be taken in; the transaction is then no longer awaited, the credentials or the new transaction are added, and the record is discarded only when nothing is left in it.", "quantifier": "every request, every stored record, and every sequence of answers of the providers", "why_tests_cant": "The condition is an equivalence: it needs every way the step can be refused or fail, over all records and provider answers, not the handful of cases a test sets up.", "anchors": ["vercre-holder/src/issuance/deferred.rs: deferred"]}
{"id": "C98", "title": "When cancelling an issuance goes through", "statement": "Cancelling goes through exactly when the issuance exists and the providers answer; the record is then discarded, and the issuer is told that the credential was deleted exactly if it gave a notification id.", "quantifier": "every request, every stored record, and every sequence of answers of the providers", "why_tests_cant": "The condition is an equivalence: it needs every way the step can be refused or fail, over all records and provider answers, not the handful of cases a test sets up.", "anchors": ["vercre-holder/src/issuance/cancel.rs: cancel"]}
{"id": "C99", "title": "A presentation the user has consented to can be sent", "statement": "A request is taken exactly when it can be fetched and asks for something by value, consent is taken exactly for a request, and a presentation that was consented to is sent whenever the providers answer.", "quantifier": "every request, every stored record, and every sequence of answers of the providers", "why_tests_cant": "The condition is an equivalence: it needs every way the step can be refused or fail, over all records and provider answers, not the handful of cases a test sets up.", "anchors": ["vercre-holder/src/presentation/request.rs: request", "vercre-holder/src/presentation/authorize.rs: authorize", "vercre-holder/src/presentation/present.rs: present", "vercre-holder/src/presentation/present.rs: create_vp"]}
{"id": "C100", "title": "Saved issuer state survives serialization", "statement": "Every state the issuer saves while serving requests that arrived as JSON is exactly the state it gets back when the store keeps the serialized value. The states for which this can hold at all are exactly those whose claims are readable.", "quantifier": "every execution of the issuer on any requests and schedule, and every saved state", "why_tests_cant": "Round trips of derived and hand-written (de)serializers have to be checked for every value of nine mutually nested types, and for every state an execution can produce.", "anchors": ["vercre-issuer/src/state.rs: State", "vercre-issuer/src/state.rs: Stage", "crates/openid/src/issuer.rs: Claim", "crates/openid/src/issuer.rs: AuthorizationDetail"]}
{"id": "C101", "title": "Saved issuer state survives being stored as JSON text", "statement": "Every state the issuer saves is read back from its JSON text. (False: serde_json stops reading at 128 levels, a saved request is nested three levels deeper than the request that was received, so a pushed request can be accepted and answered and yet never be found again.)", "quantifier": "every execution of the issuer, and claims nested to any depth", "why_tests_cant": "The limit is only hit at one particular depth of nesting, and the failure shows up in a later request than the one that causes it.", "anchors": ["vercre-issuer/src/state.rs: State", "vercre-issuer/src/par.rs: par", "crates/openid/src/issuer.rs: Claim"]}
{"id": "C102", "title": "Messages are read from the text they are written as", "statement": "Each request and response of the issuance protocol, serialized as JSON text and deserialized, is the same message.", "quantifier": "every message value of each type", "why_tests_cant": "Optional, flattened, tagged and untagged members interact; a round trip test covers one shape of a message at a time.", "anchors": ["crates/openid/src/issuer.rs: CreateOfferRequest", "crates/openid/src/issuer.rs: CreateOfferResponse", "crates/openid/src/issuer.rs: CredentialOffer", "crates/openid/src/issuer.rs: RequestObject", "crates/openid/src/issuer.rs: AuthorizationRequest", "crates/openid/src/issuer.rs: TokenRequest", "crates/openid/src/issuer.rs: TokenResponse", "crates/openid/src/issuer.rs: CredentialRequest", "crates/openid/src/issuer.rs: DeferredCredentialRequest"]}
{"id": "C103", "title": "A request that was received can be sent on unchanged", "statement": "Whatever JSON a request was read from (members in any order, nulls, unknown members), serializing it gives JSON that is read as the same request.", "quantifier": "every JSON value", "why_tests_cant": "The input is arbitrary JSON, not JSON our serializer wrote.", "anchors": ["crates/openid/src/issuer.rs: RequestObject", "crates/openid/src/issuer.rs: AuthorizationRequest", "crates/openid/src/issuer.rs: CredentialRequest"]}
{"id": "C104", "title": "Claim descriptions keep their meaning", "statement": "A description of claims is read back as it was written, and a claim that is described as mandatory has to be requested. (False for claims named mandatory, value_type or display inside a set, for empty sets, and for mandatory claims that have nested claims.)", "quantifier": "every set of claims, nested to any depth", "why_tests_cant": "Which names and shapes break can only be seen over all names and nestings.", "anchors": ["crates/openid/src/issuer.rs: Claim", "crates/openid/src/issuer.rs: ClaimDefinition", "crates/openid/src/issuer.rs: CredentialConfiguration::verify_claims"]}
{"id": "C105", "title": "A request that contradicts itself or cannot be read in part is refused", "statement": "A request that names both a credential identifier (or a configuration) and a format is refused, and so is one whose proof or claims cannot be read. (False: the identifier wins, whatever the format says, and unreadable parts count as absent.)", "quantifier": "every JSON object", "why_tests_cant": "The order in which untagged and flattened members are tried decides, for every combination of members.", "anchors": ["crates/openid/src/issuer.rs: CredentialIssuance", "crates/openid/src/issuer.rs: CredentialAuthorization", "crates/openid/src/issuer.rs: Proof", "crates/openid/src/issuer.rs: ProfileClaims"]}
{"id": "C106", "title": "An authorization request survives being sent as a query string", "statement": "An authorization request, by value or by URI, is read back from its query string, and parameters that are not known are ignored. (False: a request URI is never read back, and any unknown parameter makes the request unreadable.)", "quantifier": "every authorization request and every extra parameter", "why_tests_cant": "Escaping, the choice between JSON and query string, and the embedded JSON of authorization details have to agree for all strings.", "anchors": ["crates/openid/src/issuer.rs: AuthorizationRequest", "crates/core/src/urlencode.rs: to_string", "crates/core/src/urlencode.rs: from_str"]}
{"id": "C107", "title": "Errors are reported to the client as what they are", "statement": "The JSON of an error has the code of its kind and its description, and different kinds have different codes. (False when the description holds a quotation mark: then the error is null, or has a code chosen by the client.)", "quantifier": "every error and every description", "why_tests_cant": "The description can hold text the client sent, so the property is about all strings.", "anchors": ["crates/openid/src/error.rs: Error", "crates/openid/src/error.rs: Error::to_json", "vercre-issuer/src/authorize.rs: Context::verify_scope"]}
{"id": "C108", "title": "Errors can be sent as a query string", "statement": "The query string of an error has its code and its encoded description. (False for pending issuance, which gives an empty string.)", "quantifier": "every error and every description", "why_tests_cant": "Same as for JSON: about all strings and all kinds of errors.", "anchors": ["crates/openid/src/error.rs: Error::to_querystring", "crates/openid/src/error.rs: OidError"]}
{"id": "C109", "title": "Messages have the members OpenID4VCI gives them", "statement": "Every message of the issuance protocol, as JSON, is an object with all members the message requires, no member but those it may have, and none twice; the credential format is given by its OpenID4VCI identifier. (False for ldp_vc, which is written as ldp-vc.)", "quantifier": "every message value of each type", "why_tests_cant": "Flattened members could collide or be left out only for some combinations of the optional parts.", "anchors": ["crates/openid/src/issuer.rs: TokenRequest", "crates/openid/src/issuer.rs: CredentialRequest", "crates/openid/src/issuer.rs: AuthorizationDetail", "crates/openid/src/issuer.rs: AuthorizedDetail", "crates/openid/src/issuer.rs: Format"]}
{"id": "C110", "title": "A token request is granted exactly when it answers its grant", "statement": "A token request is granted if and only if the state saved under its code can be read and removed and is not expired, the server supports the grant type, the client id is present and (for authorization codes) the one authorized, the redirect URI, verifier or transaction code match, the client's scopes are supported, the details selected with a pre-authorized code were authorized, and no provider call fails.", "quantifier": "every token request and every sequence of provider answers", "why_tests_cant": "It is an equivalence over all requests and all answers of the provider: a test shows one refusal or one success.", "anchors": ["vercre-issuer/src/token.rs: token", "vercre-issuer/src/token.rs: Context::verify", "vercre-issuer/src/token.rs: Context::process"]}
{"id": "C111", "title": "A credential request is granted exactly when the token, the proof and the configuration allow it", "statement": "A request for a credential is granted if and only if its access token is known and live, the credential it asks for is one the token lists, the configuration is known, the nonce is live, the key proofs that the configuration asks for are all valid and carry the nonce, the token has a subject, the format can be issued (or the data are pending) and no provider call fails.", "quantifier": "every credential request and every sequence of provider answers", "why_tests_cant": "It is an equivalence over all requests and all answers of the provider.", "anchors": ["vercre-issuer/src/credential.rs: credential", "vercre-issuer/src/credential.rs: Context::verify", "vercre-issuer/src/credential.rs: Context::process"]}
{"id": "C112", "title": "An offer that was created can be redeemed", "statement": "When an offer with a pre-authorized code has been created, a later token request with that code, the transaction code returned with the offer and a client id is granted, provided it comes within five minutes, nobody else has removed the code, the server supports the grant and the client's scopes, and no provider call fails; the response lists every configuration of the offer with the identifiers authorized for the subject.", "quantifier": "every reachable execution with any number of interleaved requests", "why_tests_cant": "It must hold whatever other requests run before, between and at the same time, and whatever they save.", "anchors": ["vercre-issuer/src/create_offer.rs: create_offer", "vercre-issuer/src/token.rs: token"]}
{"id": "C113", "title": "An authorization code can be redeemed by the client it was given to", "statement": "When an authorization request (inline or pushed) has been answered with a code, a later token request with that code and the client id, redirect URI and verifier of the authorization request is granted, provided it comes within five minutes, nobody else has removed the code, the server supports the grant and the client's scopes, and no provider call fails; the access token covers every configuration asked for by detail or scope.", "quantifier": "every reachable execution with any number of interleaved requests", "why_tests_cant": "It must hold whatever other requests run before, between and at the same time, and whatever they save.", "anchors": ["vercre-issuer/src/authorize.rs: authorize", "vercre-issuer/src/token.rs: token"]}
{"id": "C114", "title": "An access token gets the credentials it lists", "statement": "A request that presents an access token and asks for one of the identifiers listed with it is granted, provided the token and its nonce are live, no other request uses the token in between, the configuration the identifier was authorized for is known and can be issued, the key proofs carry the nonce returned with the token, and no provider call fails.", "quantifier": "every reachable execution with any number of interleaved requests", "why_tests_cant": "It must hold whatever other requests run before, between and at the same time, and whatever they save.", "anchors": ["vercre-issuer/src/token.rs: token", "vercre-issuer/src/credential.rs: credential"]}
{"id": "C115", "title": "The nonce returned by the credential endpoint is good for the next request", "statement": "When a credential request has been answered with a nonce, along with a credential or because its proof was not valid, the next request with the same access token and a proof for that nonce is granted, provided it comes within ten minutes, no other request uses the token in between, the identifier is one of the token's and its configuration can be issued, and no provider call fails.", "quantifier": "every reachable execution with any number of interleaved requests", "why_tests_cant": "It must hold whatever other requests run before, between and at the same time, and whatever they save.", "anchors": ["vercre-issuer/src/credential.rs: credential", "vercre-issuer/src/credential.rs: Context::invalid_proof"]}
{"id": "C116", "title": "Credentials and presentations are read back as written", "statement": "Reading the JSON of a credential or of a presentation gives the same credential or presentation, for every one that has no claim called \"id\", no object with a repeated name, no empty list of proofs and indices of 64 bits; as text too, up to the parser's nesting limit. Whatever was read once is read back. Any credential should be: one about a subject with an identifier and a claim called \"id\" is not read at all.", "quantifier": "every credential and presentation, with any claims, contexts, names, dates, statuses and proofs", "why_tests_cant": "Credentials have arbitrary JSON in them, and the readers try alternatives in turn (string or object, one or many), so that one case may shadow another.", "anchors": ["crates/w3c-vc/src/model/vc.rs: VerifiableCredential", "crates/w3c-vc/src/model/vc.rs: CredentialSubject", "crates/w3c-vc/src/model/vc.rs: CredentialStatus", "crates/w3c-vc/src/model/vp.rs: VerifiablePresentation", "crates/core/src/lib.rs: Kind", "crates/core/src/lib.rs: Quota"]}
{"id": "C117", "title": "Every credential the issuer signs can be read", "statement": "What the issuer signs for a credential can be read by whoever gets it, as the credential it signed, whatever the data of the subject, if the provider's answers can be written as JSON. It is not when the data has a claim called \"id\": then the issuer hands out a credential that no reader accepts.", "quantifier": "every execution of the issuer with any number of interleaved requests, every credential signed in it", "why_tests_cant": "It ranges over all data a provider can return and all requests that narrow it down.", "anchors": ["vercre-issuer/src/credential.rs: Context::w3c_vc", "vercre-issuer/src/credential.rs: Context::jwt_vc_json", "crates/w3c-vc/src/proof/jose.rs: VcClaims", "crates/w3c-vc/src/model/vc.rs: CredentialSubject"]}
{"id": "C118", "title": "A signed credential has the members it should have", "statement": "What is signed for a credential has exactly the registered JWT claims and the members of a credential that the issuer's metadata, the data, the status and the clock give, and leaves out what is not set. It does not: \"nbf\" and \"validFrom\" are always there, as null; and the members of a status have other names than the specification gives them, so that a credential with a standard status is not read.", "quantifier": "every execution of the issuer, every credential signed in it; every status", "why_tests_cant": "The members depend on metadata, data and status of any shape.", "anchors": ["crates/w3c-vc/src/proof/jose.rs: VcClaims", "crates/w3c-vc/src/model/vc.rs: VerifiableCredential", "crates/w3c-vc/src/model/vc.rs: CredentialStatusType", "crates/w3c-vc/src/model/vc.rs: Bitstring"]}
{"id": "C119", "title": "What is read as a credential has the mandatory members", "statement": "A JSON value that has no issuer, type, subject or context is not read as a credential, and the issuer that is read is the one that is written. Only the latter holds: any object is read as a credential, with empty members for those it lacks.", "quantifier": "every JSON value", "why_tests_cant": "It ranges over all JSON values.", "anchors": ["crates/w3c-vc/src/model/vc.rs: VerifiableCredential", "crates/w3c-vc/src/model/vc.rs: Issuer"]}
{"id": "C120", "title": "Every presentation the wallet signs can be read and has the members it should have", "statement": "What the wallet signs for a presentation can be read back by a verifier as the presentation it signed, and has exactly: the holder as issuer and holder, the verifier as audience with its nonce, a fresh identifier, the credentials found for the request, and as types \"VerifiablePresentation\" followed by the constants the filters ask for. The latter should be types, but constants of any filter are taken.", "quantifier": "every execution of the wallet with any number of interleaved requests, every presentation signed in it", "why_tests_cant": "It ranges over all requests a verifier can make and all credentials in the wallet.", "anchors": ["vercre-holder/src/presentation/present.rs: present", "vercre-holder/src/presentation/present.rs: create_vp", "crates/w3c-vc/src/proof/jose.rs: VpClaims", "crates/w3c-vc/src/model/vp.rs: VpBuilder"]}
{"id": "C121", "title": "Presentation definitions and submissions are read back as written", "statement": "Reading the JSON of a presentation definition or submission gives it back, and each member is written under the name DIF Presentation Exchange gives it, or left out when not set. A definition with any valid JSON Schema as filter should be read: one whose filter is anything but a type together with one of const, pattern and format makes the whole definition unreadable.", "quantifier": "every presentation definition, submission and JSON value", "why_tests_cant": "It ranges over all definitions and over all JSON values in place of a filter.", "anchors": ["crates/dif-exch/src/lib.rs: PresentationDefinition", "crates/dif-exch/src/lib.rs: Filter", "crates/dif-exch/src/lib.rs: FilterValue", "crates/dif-exch/src/lib.rs: PresentationSubmission"]}
{"id": "C122", "title": "Every authorization request the verifier signs can be read by the wallet", "statement": "The text of every authorization request that the verifier signs, or hands to its owner, is read by the wallet as exactly the request created for the owner's query, with the members OpenID4VP names. Standard requests that give no client metadata, or the definition by URI or scope, should be read as well, and are refused.", "quantifier": "every execution of the verifier with any number of interleaved requests; every JSON object", "why_tests_cant": "It ranges over all queries of the owner and all interleavings, and over all messages of other verifiers.", "anchors": ["crates/openid/src/verifier.rs: RequestObject", "vercre-verifier/src/create_request.rs: create_request", "vercre-verifier/src/request_object.rs: request_object"]}
{"id": "C123", "title": "The answer to a request for an authorization request is read back", "statement": "A request object response is read back as what was written. This is so for tokens; an object never is, and an empty answer is taken as an authorization request without nonce, client and definition instead of being refused.", "quantifier": "every request object response", "why_tests_cant": "It ranges over all authorization requests.", "anchors": ["crates/openid/src/verifier.rs: RequestObjectResponse", "crates/openid/src/verifier.rs: RequestObjectType"]}
{"id": "C124", "title": "An authorization request in a link is read as it was", "statement": "An authorization request written as the query string of a link is read by the wallet as it was, and the wallet does not try to fetch it. This is so for requests of harmless strings; a JSONPath that ends in a bracket is enough for it to be refused.", "quantifier": "every authorization request; every execution of the verifier for those it hands its owner", "why_tests_cant": "It ranges over all requests: nested objects are written as JSON inside percent encoding, and guessed back.", "anchors": ["crates/core/src/urlencode.rs: to_string", "crates/core/src/urlencode.rs: from_str", "crates/openid/src/verifier.rs: RequestObject::to_querystring", "vercre-holder/src/presentation/request.rs: request"]}
{"id": "C125", "title": "What the wallet sends is read by the verifier as it was sent", "statement": "The text of every response a wallet sends is read by the verifier as the same response, with vp_token, presentation_submission and state under these names. A single token should be sent, and accepted, as a string: it is always sent as an array of one, and a string is not read.", "quantifier": "every execution of the wallet with any number of interleaved requests; every response", "why_tests_cant": "It ranges over all presentations, which contain arbitrary claims, and all executions.", "anchors": ["crates/openid/src/verifier.rs: ResponseRequest", "vercre-holder/src/presentation/present.rs: present"]}
{"id": "C126", "title": "Client metadata is read exactly when its members have the right kind", "statement": "A JSON object is read as client metadata exactly when client_id is a string and each other known member is left out, null or of the kind its specification gives; it is written with exactly the members that are set, and read back. Clients that support presentation formats other than jwt_vp_json, or list their contacts as RFC 7591 has it, should be read too, and are not.", "quantifier": "every JSON object and every client's metadata", "why_tests_cant": "It ranges over all JSON objects.", "anchors": ["crates/openid/src/verifier.rs: Verifier", "crates/openid/src/oauth.rs: OAuthClient", "crates/openid/src/verifier.rs: VpFormat"]}
{"id": "C127", "title": "What the verifier saves is read back", "statement": "The text of everything the verifier saves for a request is read back as what was saved, in every execution; so is a query of its owner. A query that leaves out the credentials wanted is read, and then refused without any effect.", "quantifier": "every execution of the verifier with any number of interleaved requests; every query", "why_tests_cant": "It ranges over all queries and all interleavings.", "anchors": ["vercre-verifier/src/state.rs: State", "crates/openid/src/verifier.rs: CreateRequestRequest", "vercre-verifier/src/create_request.rs: verify"]}
{"id": "C128", "title": "Issuer metadata is read exactly when its members have the right kind, and read back as written", "statement": "A JSON object is read as the metadata of a credential issuer exactly when its known members are there when required and of the right kind, at all levels; other members and their order do not matter. Metadata is written under the names OpenID4VCI gives its members and is read back. Metadata as OpenID4VCI has it should be read: a list of display names, a configuration in a format that is not known here (such as ldp_vc), or a claim that is an image of some type make all of it unreadable.", "quantifier": "every JSON object and every issuer's metadata", "why_tests_cant": "It ranges over all JSON objects, in particular over those other issuers publish.", "anchors": ["crates/openid/src/issuer.rs: Issuer", "crates/openid/src/issuer.rs: CredentialConfiguration", "crates/openid/src/issuer.rs: CredentialDisplay", "crates/openid/src/issuer.rs: Format", "crates/openid/src/issuer.rs: Claim", "crates/openid/src/issuer.rs: Display"]}
{"id": "C129", "title": "Authorization server metadata is read exactly when its members have the right kind, and read back as written", "statement": "A JSON object is read as the metadata of an authorization server exactly when its known members are there when required and of the right kind; other members and their order do not matter. Metadata is written under the names of RFC 8414 and always read back. Whether anonymous access is allowed is documented to default to false, but metadata that does not say so is not read; nor is that of a server that also supports grant types, response types, authentication methods or algorithms not known here.", "quantifier": "every JSON object and every server's metadata", "why_tests_cant": "It ranges over all JSON objects, in particular over those other servers publish.", "anchors": ["crates/openid/src/issuer.rs: Server", "crates/openid/src/oauth.rs: OAuthServer", "crates/openid/src/oauth.rs: GrantType", "crates/openid/src/oauth.rs: ResponseType", "crates/openid/src/oauth.rs: TokenEndpointAuth"]}
{"id": "C130", "title": "What the wallet saves is read back as it was", "statement": "Whatever the wallet saves in the course of an issuance or a presentation, in every execution in which what its client and providers hand it are readable values, its JSON text is read back as the same record, and the text of an issuance is not read as a presentation or the other way round. Of issuances this fails exactly when claims of an SD-JWT credential were accepted: they come back as claims of a mobile document. The record has these members with these values and no others, and exactly the readable records survive.", "quantifier": "every execution of the wallet, every record saved in it, and every metadata of the issuer", "why_tests_cant": "It ranges over all executions of the wallet and all values its providers may return, nested to any depth below the parser's limit.", "anchors": ["vercre-holder/src/issuance.rs: Issuance", "vercre-holder/src/issuance.rs: Status", "vercre-holder/src/presentation.rs: Presentation", "vercre-holder/src/presentation.rs: Status", "vercre-holder/src/credential.rs: Credential"]}
{"id": "C131", "title": "An offer in a link is the offer", "statement": "The link (or QR code) made for a credential offer is read by a wallet as that offer. This holds with the query-string reader of this code when nothing in the offer's strings looks like a JSON value or has reserved characters, and so of every offer that is created by an issuer whose names are innocent. It fails when the name of the issuer has an equals sign; and a wallet that follows OpenID4VCI and reads the parameter credential_offer of the link never gets the offer.", "quantifier": "every offer, and every execution that creates one", "why_tests_cant": "It ranges over all offers and all strings in them.", "anchors": ["crates/openid/src/issuer.rs: CredentialOffer::to_querystring", "crates/openid/src/issuer.rs: CredentialOffer::to_qrcode", "crates/core/src/urlencode.rs: to_string", "crates/core/src/urlencode.rs: from_str"]}
{"id": "C132", "title": "A wallet reads the credential responses an issuer sends", "statement": "Every answer the issuer gives to a credential request or to a deferred one, written as JSON, is read by the wallet as exactly that answer: the credential or transaction identifier, the nonce and its lifetime and the notification identifier; members may come in any order and unknown ones are ignored. An answer has exactly one of credential, credentials and transaction_id; one that has a transaction_id and credentials is refused. The last part does not hold: the first of the three members decides and the others are ignored.", "quantifier": "every execution of the issuer and every answer in it; every answer with readable credentials; every order of members", "why_tests_cant": "It ranges over all executions, all answers and all orders and additions of JSON members.", "anchors": ["crates/openid/src/issuer.rs: CredentialResponse", "crates/openid/src/issuer.rs: CredentialResponseType", "crates/openid/src/issuer.rs: DeferredCredentialResponse"]}
{"id": "C133", "title": "Notifications, registrations, offers and server metadata are read as they were written, and where the standards put them", "statement": "A notification, a client registration and its answer, a request for an offer, for metadata or for a server's metadata, and the answers with an offer or with a server's metadata are read by the other side as the value that was written. A notification is read exactly when it has the members of OpenID4VCI, and is refused when its description has characters that OpenID4VCI forbids. What is found at the address of an offer is the offer, and what is found at the well-known address of a server is its metadata.", "quantifier": "every value of these messages, every JSON value for what can be read, and every execution of the issuer for the offers it hands out", "why_tests_cant": "The messages have dozens of optional members and free texts; a test covers single messages, and none gives a client both of the fields that share a name.", "anchors": ["crates/openid/src/issuer.rs: NotificationRequest", "crates/openid/src/issuer.rs: NotificationEvent", "crates/openid/src/issuer.rs: RegistrationRequest", "crates/openid/src/issuer.rs: RegistrationResponse", "crates/openid/src/issuer.rs: Client", "crates/openid/src/oauth.rs: OAuthClient", "crates/openid/src/issuer.rs: CredentialOfferRequest", "crates/openid/src/issuer.rs: CredentialOfferResponse", "crates/openid/src/issuer.rs: MetadataRequest", "crates/openid/src/issuer.rs: OAuthServerRequest", "crates/openid/src/issuer.rs: OAuthServerResponse"]}
{"id": "C134", "title": "An issuer reads the requests the wallet sends", "statement": "Every authorization, token, credential and deferred credential request that the wallet sends in any execution, written as JSON, is read by the issuer as exactly that request. This fails exactly for requests with claims of an SD-JWT credential named along with its configuration identifier: they are read as claims of a mobile document. A wallet that is offered an SD-JWT credential sends such claims, taken from the issuer's own metadata.", "quantifier": "every execution of the wallet whose issuers' metadata nest claims at most 122 deep, and every request sent in it", "why_tests_cant": "It ranges over all executions of the wallet, all metadata, offers and selections of claims.", "anchors": ["vercre-holder/src/issuance/authorize.rs: authorize", "vercre-holder/src/issuance/token.rs: token", "vercre-holder/src/issuance/credentials.rs: credentials", "vercre-holder/src/issuance/deferred.rs: deferred", "crates/openid/src/issuer.rs: TokenRequest", "crates/openid/src/issuer.rs: RequestObject", "crates/openid/src/issuer.rs: CredentialRequest", "crates/openid/src/issuer.rs: AuthorizationDetail"]}
{"id": "C135", "title": "Registering a client takes a live access token", "statement": "A dynamic client registration is answered with what the provider registered, and only if the request's access token was issued and has not expired. Only the following holds: in every execution the value given as access token is one under which the issuer had stored something. The code of an offer, the identifier of a pushed authorization request and an access token that has expired are all accepted.", "quantifier": "every execution of the issuer and every registration request in it", "why_tests_cant": "It ranges over all executions, with any values presented as access tokens at any time.", "anchors": ["vercre-issuer/src/register.rs: register", "vercre-issuer/src/register.rs: verify", "vercre-issuer/src/register.rs: process"]}
{"id": "C136", "title": "A wallet and an issuer that talk in JSON work together as if they handed over values", "statement": "When every request of the wallet and every answer of the issuer is written as JSON text by one side and read from it by the other, both see what they would see if the values themselves were handed over, as long as claims are not nested too deep and no claims of SD-JWT credentials are asked for. Whatever is in the requests, answers and metadata, a credential saved in the wallet is made of the data of the subject whom the issuer granted it to, that is the subject the wallet named if it used the authorization code flow, and a call for credentials that succeeds was given at most one.", "quantifier": "every execution of the wallet and every execution of the issuer, with any other clients, that are connected by JSON text", "why_tests_cant": "It ranges over all pairs of concurrent executions and all values in the messages between them.", "anchors": ["crates/openid/src/issuer.rs: TokenRequest", "crates/openid/src/issuer.rs: TokenResponse", "crates/openid/src/issuer.rs: CredentialRequest", "crates/openid/src/issuer.rs: CredentialResponse", "crates/openid/src/issuer.rs: AuthorizationRequest", "crates/openid/src/issuer.rs: AuthorizationResponse", "vercre-holder/src/issuance/credentials.rs: credentials", "vercre-issuer/src/credential.rs: credential"]}
{"id": "C137", "title": "A request written with a request macro is the request the same text gives as JSON", "statement": "A call of create_offer_request!, authorization_request!, token_request! or credential_request! either does not compile or builds the request that deserializing the same text as JSON would give; a required member that is missing and a member that is not known do not compile; of a member given twice the last counts and the order of members does not matter.", "quantifier": "every text between the braces of a macro: any members, nesting, literals and expressions of type String, &str and SendType", "why_tests_cant": "The macro tests compile eight fixed calls; a call that does not compile, or one whose value is silently changed or dropped, cannot be met by a test that has to compile with the crate.", "anchors": ["crates/macros/src/parse.rs: Json, Value", "crates/macros/src/create_offer.rs: request", "crates/macros/src/authorization.rs: request", "crates/macros/src/token.rs: request", "crates/macros/src/credential.rs: request", "crates/openid/src/issuer.rs: CreateOfferRequest, AuthorizationRequest, TokenRequest, CredentialRequest", "vercre-holder/src/issuance/credentials.rs: credential_request!"]}
{"id": "C138", "title": "What is issued as a driving licence can be read back, and its digests check", "statement": "The text that issuing an mDL returns is the CBOR of a licence, in base64url: a reader of the same types finds exactly one licence and one security object in it. The items found in each name space say the data set's elements, one each and in its order, with their values unchanged when their numbers are 64-bit integers; the signed table holds exactly one digest for each item, under the id read from the item and of the bytes found; and any other bytes that a reader would accept as an item give a SHA-256 collision.", "quantifier": "every data set, every sequence of draws and salts, every time, signer and library behaviour (Tag24 with or without the tag, key and date encodings); every text put in an item's place", "why_tests_cant": "the one round-trip test decodes one data set and checks two constant members; ids, salts, order of name spaces, sizes (which change the CBOR heads) and substituted items range over unbounded sets", "anchors": ["crates/iso-mdl/src/lib.rs: to_credential", "crates/iso-mdl/src/mdoc.rs: IssuerSigned, IssuerSignedItem", "crates/iso-mdl/src/mso.rs: MobileSecurityObject, IssuerAuth, DeviceKeyInfo, ValidityInfo"]}
{"id": "C139", "title": "A reader for ISO/IEC 18013-5 can read an issued licence", "statement": "Items, digests, dates and the signer's certificate in an issued licence are in the form that ISO/IEC 18013-5 gives them, so that a reader for the standard can read them.", "quantifier": "every data set, draw, salt, time and signer for which a licence is issued", "why_tests_cant": "the tests read the licence with the same types that wrote it, so a form that only they understand passes", "anchors": ["crates/iso-mdl/src/mdoc.rs: IssuerSignedItem", "crates/iso-mdl/src/mso.rs: Digest, ValidityInfo, IssuerAuth", "crates/iso-mdl/src/lib.rs: to_credential"]}
{"id": "C140", "title": "A wallet and a verifier that talk in text agree on the request", "statement": "Let a wallet get authorization requests from a verifier, by value in a link or in a signed token, and post presentations to it, everything written to and read from text. If the wallet is told that a presentation is accepted, then the verifier accepted exactly the presentation the wallet made; it judged it against the very request that the wallet got, that its owner was shown and authorized, and that the verifier created earlier; and the presentation is acceptable for that request. Whether or not it is accepted is decided by whether the first credential found for the first descriptor of the request the wallet got fulfils every descriptor of it. Two presentations for the same request are both accepted only if the verifier handled them at the same time.", "quantifier": "all executions of a wallet and of a verifier that may serve other wallets too, with any number of concurrent flows, in which messages may be lost, delayed or repeated and what is delivered was sent; all requests, credentials and answers of the providers", "why_tests_cant": "It relates two programs through an encoding in both directions over all interleavings of both; a test runs one pair of flows with one request.", "anchors": ["crates/dif-exch/src/lib.rs PresentationDefinition", "crates/openid/src/verifier.rs RequestObject, ResponseRequest", "vercre-holder/src/presentation/request.rs request", "vercre-holder/src/presentation/present.rs present", "vercre-verifier/src/create_request.rs", "vercre-verifier/src/request_object.rs", "vercre-verifier/src/response.rs response"]}
{"id": "C141", "title": "The example issuer authorizes only users who logged in", "statement": "An authorization request that the example issuer passes to the library names a subject who logged in before, with user name and password. As built it may also name a token that the service itself made for a login form, so that no login is needed (refuted).", "quantifier": "all executions of the example issuer with any number of concurrent requests to all of its routes, any interleaving, any answers of the library", "why_tests_cant": "A test follows one browser; who is in the table depends on every request that any client made before.", "anchors": ["examples/issuer/src/main.rs authorize, handle_login, AUTH_REQUESTS"]}
{"id": "C142", "title": "A user who logged in can push authorization requests and use them", "statement": "After a login a pushed authorization request of that user is passed to the library, and the identifier it gives can be used at the authorization endpoint. As built no login leads there: pushed requests are passed on only for subjects that are tokens of the service, logins take no token of a pushed request, and an authorization request with an identifier is a panic (refuted).", "quantifier": "all executions of the example issuer with any number of concurrent requests to all of its routes, any interleaving, any answers of the library", "why_tests_cant": "That something never happens, whatever is sent in whatever order, is not shown by sending something.", "anchors": ["examples/issuer/src/main.rs par, authorize, handle_login, PAR_REQUESTS"]}
{"id": "C143", "title": "The issuer named to the library is the host that was asked, the access token that of the header", "statement": "Whatever body a client sends, the request passed to the library names as issuer the host of the HTTP request, and as access token the bearer token of its header, and is otherwise the client's. The authorization endpoint is an exception: the library gets the client's request with the issuer the client named (refuted).", "quantifier": "all executions of the example issuer with any number of concurrent requests to all of its routes, any interleaving, any answers of the library; all hosts, headers and bodies", "why_tests_cant": "It must hold for each value of the body, in particular for those that contradict the header.", "anchors": ["examples/issuer/src/main.rs create_offer, credential_offer, metadata, oauth_server, par, notification, token, credential, deferred_credential, authorize"]}
{"id": "C144", "title": "Clients get the library's answer, with the status and state that OAuth prescribes", "statement": "What the library answers is what the client gets, as JSON or as a redirect to the address it named, with the code or the error in it. As built every error has status 500, and the redirect with a code does not have the state of the request: requests that differ only in the state get the same answer (refuted).", "quantifier": "all executions of the example issuer with any number of concurrent requests to all of its routes, any interleaving, any answers of the library; all answers and errors", "why_tests_cant": "It quantifies over every error of the library and over pairs of executions.", "anchors": ["examples/issuer/src/main.rs AxResult::into_response, authorize", "crates/openid/src/error.rs"]}
{"id": "C145", "title": "The sample store of subjects answers about all subjects, and one call does not break others", "statement": "The identifiers and claims that the store gives are those of the subject and the configuration asked for. While all calls are about known subjects, each is answered. As built a call about an unknown subject is a panic that holds the lock, after which every call of every other client is a panic (refuted).", "quantifier": "all tables of subjects, all interleavings of any number of calls, any later execution", "why_tests_cant": "One bad call matters to all later ones of others; no finite set of sequences shows that nothing recovers.", "anchors": ["crates/test-utils/src/store/issuance.rs DatasetStore", "examples/issuer/src/provider.rs Subject"]}
{"id": "C146", "title": "A credential that is pending is called pending once", "statement": "The first call for the claims of a pending credential says that it is pending and the next ones do not, so that it is deferred once. This holds for calls one after the other; two calls that overlap can both be told that it is pending (refuted).", "quantifier": "all tables, subjects and credentials; all sequences of earlier calls; all interleavings", "why_tests_cant": "The failing schedule is a race between two locks of one call.", "anchors": ["crates/test-utils/src/store/issuance.rs DatasetStore::dataset"]}
{"id": "C147", "title": "A presentation posted as a form reaches the verifier", "statement": "What the example wallet posts as a form, the example verifier reads as it was. Only responses with neither token nor submission can be written as a form, and these are read back; for every presentation the wallet makes writing the form fails, and no form at all is read as a response that could be accepted for any request (refuted).", "quantifier": "all responses, all executions of the wallet with all presentations in them, all texts of forms, all requests", "why_tests_cant": "No value works, so that a test that has none passes; a test that calls the library without the transport does not see it.", "anchors": ["examples/wallet/src-tauri/src/provider/verifier_client.rs present", "examples/verifier/src/main.rs response", "crates/openid/src/verifier.rs ResponseRequest"]}
{"id": "C148", "title": "A token request sent as a form is read as it was", "statement": "The form that the example wallet sends for a token request is read by the example issuer as the same request, for both grants and whatever characters the texts have. Requests with authorization details cannot be written, and no form with authorization details in it is read (refuted for these).", "quantifier": "all token requests, all texts of forms", "why_tests_cant": "It is a round trip over every text, with escapes, and a failure for all values of one field.", "anchors": ["examples/wallet/src-tauri/src/provider/issuer_client.rs token", "examples/issuer/src/main.rs token", "crates/openid/src/issuer.rs TokenRequest"]}
{"id": "C149", "title": "After the login the browser asks for what it asked for before", "statement": "A login that succeeds sends the browser to the authorization endpoint with a request that was made there before, and it is read there as it was. This holds for requests without authorization details and ampersands; with authorization details the endpoint cannot read what the login sends it, nor any other way of writing them (refuted).", "quantifier": "all executions of the example issuer; all requests, all texts", "why_tests_cant": "It relates a writer and a reader of two different libraries over all requests and characters.", "anchors": ["examples/issuer/src/main.rs handle_login, authorize", "crates/core/src/urlencode.rs to_string", "crates/openid/src/issuer.rs AuthorizationRequest"]}
{"id": "C150", "title": "A state store that keeps JSON text serves as well as one that keeps values", "statement": "Over a store that keeps states as JSON text and never fails, like the one the examples use, the issuer and the verifier have exactly the executions they have over a store that keeps the states themselves and never fails: what is found under a key is what was last put there. For the issuer this needs requests that were read from text, with claims nested less than 120 deep; with deeper claims a pushed request is acknowledged and lost (refuted).", "quantifier": "all executions of the issuer and of the verifier with any number of concurrent requests, any interleaving, any answers of other providers", "why_tests_cant": "It equates two sets of executions, and the states put depend on all earlier calls.", "anchors": ["crates/test-utils/src/store/state.rs Store", "examples/issuer/src/provider.rs StateStore", "examples/verifier/src/provider.rs StateStore", "vercre-issuer/src/state.rs State", "vercre-verifier/src/state.rs State"]}
{"id": "C151", "title": "The example wallet's store keeps what was saved", "statement": "After any sequence of saves and removals, any of which may fail to write the file, and of crashes and restarts: finding credentials gives each saved credential once and nothing that was not saved, with constraints exactly those that meet them; a credential whose saving succeeded is there until it is saved anew or removed; one whose removal succeeded is gone until it is saved again; removing fails for one that is not there. That an operation that fails has no effect is refuted: a credential that failed to be saved is found nevertheless, and one that failed to be removed cannot be removed by trying again and is back after a restart.", "quantifier": "all sequences of operations, outcomes of writing the file, crash points, credentials that were read from JSON, and constraints", "why_tests_cant": "It ranges over all histories, crash points and constraints.", "anchors": ["examples/wallet/src-tauri/src/provider/store.rs CredentialStorer", "vercre-holder/src/credential.rs Credential", "crates/dif-exch/src/matcher.rs satisfied"]}
{"id": "C152", "title": "The example wallet shows the credentials it has", "statement": "Listing shows every stored credential, and nothing else, with its name, colours, logo and issuer, if every one of them says how to display it; the detail of a credential is of the one selected, with its name, dates and description, and all claims of its subject; a deleted credential, and no other, leaves the list. Refuted: one credential without display data, which is optional, makes every listing panic, also at the end of issuances and presentations; errors are recorded but never shown; of the claims of several subjects with the same name one is shown; a credential whose deletion failed stays listed although it is no longer found and cannot be deleted.", "quantifier": "all stores reached by operations, all states of the app and all commands", "why_tests_cant": "It speaks of every stored collection of credentials and every state of the app.", "anchors": ["examples/wallet/src-tauri/src/view.rs ViewModel", "examples/wallet/src-tauri/src/view/credential.rs CredentialView", "examples/wallet/src-tauri/src/app/credential.rs reset", "examples/wallet/src-tauri/src/app/credential.rs delete", "examples/wallet/src-tauri/src/lib.rs reset"]}
{"id": "C153", "title": "A command acts on the flow that is on the screen", "statement": "Commands of an issuance act on the last offer taken up, commands of a presentation on the last request, or on none. As long as nothing panics, the offer acted on is the one whose credentials, issuer and PIN are on the screen, and the request is the one whose credentials are. The PIN the library gets is the user's, the status shown the library's; an issuance that reports success has saved every credential; a command for which the library failed says so and changes nothing; after a flow has ended there is none. Refuted in general: an offer that comes by a link and does not say how to display its credentials leaves the screen as it was, and the next command of the user accepts it instead of the offer shown.", "quantifier": "all sessions: sequences of commands and links, with all answers of the library", "why_tests_cant": "It relates the screen to the calls of the library after every possible session.", "anchors": ["examples/wallet/src-tauri/src/lib.rs accept", "examples/wallet/src-tauri/src/lib.rs deep_link", "examples/wallet/src-tauri/src/app/issuance.rs AppState", "examples/wallet/src-tauri/src/app/presentation.rs AppState", "examples/wallet/src-tauri/src/view/issuance.rs IssuanceView", "examples/wallet/src-tauri/src/view/presentation.rs PresentationView"]}
{"id": "C154", "title": "The example wallet opens links of offers and requests", "statement": "A link is an offer or a request to the wallet exactly if it begins as its README says; of an offer given as JSON, percent-encoded in any way, the library gets that offer, and of a request the text as it is. Refuted: every link that the issuer's library makes of an offer is an error to the wallet, and links with the prefixes that the libraries' documentation gives, or of offers by reference, are ignored.", "quantifier": "all links, all offers, all states of the app", "why_tests_cant": "It is about all texts and all offers.", "anchors": ["examples/wallet/src-tauri/src/lib.rs deep_link", "examples/wallet/src-tauri/src/app/issuance.rs offer", "crates/openid/src/issuer.rs to_qrcode", "crates/openid/src/issuer.rs to_querystring", "crates/openid/src/verifier.rs to_qrcode"]}
{"id": "C155", "title": "A refusal is not taken for success", "statement": "When the issuer or the verifier refuses a request, the wallet's clients, which read the body of an answer whatever its status, do not read it as what was asked for. This holds for tokens, credentials, metadata and request objects. Refuted for presentations: every refusal is read as an acceptance, and the wallet reports the presentation as made; likewise for the requests of a verifier's owner and for notifications.", "quantifier": "every error the issuer or verifier reports, with texts that need no escaping (for others see C107), and every run of the wallet's present step that gets it", "why_tests_cant": "the property is about every error against every kind of answer; the tests' providers give errors as errors, so that no body of a refusal is ever read", "anchors": ["examples/wallet/src-tauri/src/provider/verifier_client.rs (request_object, present)", "examples/wallet/src-tauri/src/provider/issuer_client.rs", "crates/openid/src/verifier.rs (ResponseResponse, CreateRequestResponse, RequestObjectResponse)", "crates/openid/src/error.rs (to_json)", "examples/verifier/src/main.rs (AxResult)"]}
{"id": "C156", "title": "The example verifier gives out a request on the host it was asked for at", "statement": "A request object is given out by the example verifier only on the host on which it was asked for, whatever client identifier the body had; the address handed out is on that host, and leads to the request as long as the store has it; the wallet's client reads the token in the answer. Answers have status 200 exactly when the library went through; refuted: what the client did wrong is answered with a status of the 400s.", "quantifier": "every execution of the service: all interleavings of requests to all hosts, with failing providers", "why_tests_cant": "creation and retrieval are different requests with other requests in between; tests use one host and one order", "anchors": ["examples/verifier/src/main.rs (create_request, request_object, response, AxResult)", "vercre-verifier/src/create_request.rs", "vercre-verifier/src/request_object.rs"]}
{"id": "C157", "title": "What the example wallet sends is what its user saw and agreed to", "statement": "In any session of the example wallet: a presentation is sent to a verifier only by a present command that follows an authorize command of the user for the request taken up last, with no other request taken up in between; it carries exactly the credentials of that request, which are the ones on the screen when the user authorized (as long as nothing panicked), is addressed to that request's verifier with its nonce and goes to its response URI. A token is asked for only by a get-credentials command that follows an accept command of the user for the offer taken up last; it is asked from the issuer of that offer with the offer's code, and with a PIN exactly when the offer asks for one, namely one the user entered in between. Whatever the example wallet saves was in an answer of the issuer of an offer the user had accepted, to a request with the token obtained for that offer.", "quantifier": "every sequence of commands given to the example wallet, with any answers, together with every execution of the wallet library that makes the session's calls one after the other and gives the answers the session took up; random identifiers do not repeat and are not empty", "why_tests_cant": "The claim relates the wallet's screen, the user's commands and the provider calls of the library over whole histories, including abandoned flows, failed steps and offers or requests that arrive by links in between; tests follow one flow at a time.", "anchors": ["examples/wallet/src-tauri/src/app/issuance.rs: offer, accept, pin, credentials", "examples/wallet/src-tauri/src/app/presentation.rs: request, authorize, present", "examples/wallet/src-tauri/src/lib.rs", "vercre-holder/src/presentation/present.rs: present", "vercre-holder/src/issuance/token.rs: token", "vercre-holder/src/issuance/save.rs: save"]}
{"id": "C158", "title": "What the example wallet keeps is accepted when it is presented, unless it has expired", "statement": "A wallet keeps its credentials in the example wallet's store. When a verifier asked for one credential, as a JWT, it accepts the wallet's presentation exactly if the store found a credential for the request and the first one found has not expired. Every credential found was saved by the wallet before.", "quantifier": "every execution of the wallet library whose searches are answered by the example store after any operations, failures, removals and restarts included, that saved only what the wallet asked to be saved; every request with one input descriptor; every execution of the verifier's response endpoint that stored this request, reads tokens as they were signed and does not fail to delete the request", "why_tests_cant": "It joins three programs, the wallet library, the example wallet's store and the verifier, over whole histories: that saved credentials pass through serialization, search, presentation and verification unharmed depends on every value and constraint, not on the few in a test.", "anchors": ["examples/wallet/src-tauri/src/provider/store.rs: CredentialStorer", "crates/dif-exch/src/matcher.rs: satisfied", "vercre-holder/src/issuance/save.rs: save", "vercre-holder/src/presentation/request.rs: build_filter", "vercre-holder/src/presentation/present.rs: present", "vercre-verifier/src/response.rs: Context::verify"]}
{"id": "C159", "title": "What the example wallet presents it was given for an offer its user accepted", "statement": "In any session of the example wallet, with its store: each credential in a presentation that is sent to a verifier was in an answer of the issuer of an offer the user had accepted, to a request with the token obtained for that offer, and was saved before the verifier's request was taken up.", "quantifier": "every sequence of commands given to the example wallet, with any answers, every execution of the wallet library that makes the session's calls, and every history of the store, failures, removals and restarts included; the store starts empty; random identifiers do not repeat and are not empty; credentials that were verified had been read from JSON", "why_tests_cant": "It follows a credential through two flows and a store that can be restarted in between; offers and requests may arrive, fail and be abandoned in any order.", "anchors": ["examples/wallet/src-tauri/src/provider/store.rs: CredentialStorer", "examples/wallet/src-tauri/src/app/issuance.rs: accept, credentials", "examples/wallet/src-tauri/src/app/presentation.rs: request, present", "vercre-holder/src/issuance/save.rs: save", "vercre-holder/src/presentation/present.rs: present"]}
{"id": "C160", "title": "What the example wallet presents are the data of the subject of an accepted offer", "statement": "When the example wallet talks to this issuer, each credential it presents to a verifier was signed by the issuer from the data of the subject for whom the issuer had created an offer, and the user of the wallet accepted an offer with the code of that one. So what the verifier reads from such a credential are data of that subject.", "quantifier": "every sequence of commands given to the example wallet, every execution of the wallet library that makes the session's calls, every history of the store, and every execution of the issuer, with any other clients, whose answers the wallet received; requests and answers may be lost; random values do not repeat; the store starts empty", "why_tests_cant": "It joins the histories of four programs: the issuer, the wallet library, the example wallet with its screen, and its store; other offers, users and clients may interleave anywhere.", "anchors": ["vercre-issuer/src/create_offer.rs: create_offer", "vercre-issuer/src/token.rs: token", "vercre-issuer/src/credential.rs: credential", "examples/wallet/src-tauri/src/app/issuance.rs: accept, credentials", "examples/wallet/src-tauri/src/provider/store.rs: CredentialStorer", "vercre-holder/src/presentation/present.rs: present"]}
