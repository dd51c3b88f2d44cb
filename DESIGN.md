# Formal model of vercre/vercre in Rocq (Coq 8.16.1)

The model is a set of executable Gallina definitions written function by
function from the Rust source in `/repo`.  The properties are listed in
`properties.jsonl`; `MANIFEST.json` says which theorem settles which property.

## 1. Approach

### 1.1 Endpoints as programs over provider calls

Every endpoint of the three protocol crates (issuer, verifier, holder) is an
`async fn` that only touches the outside world through a `Provider`.  The model
of an endpoint is therefore a *program tree* (`theories/Prog.v`):

* `Ret a` – the endpoint returned `a`;
* `Call c k` – the endpoint awaits provider call `c` and continues with `k r`
  where `r` is the answer.

Store calls (`get`, `put`, `purge` of `StateStore`) are interpreted by a
key/value store; all the others (metadata, subject authorization, datasets,
signing, JWT verification, the clock `Utc::now`, the random generators of
`vercre_core::gen`, hash-map iteration order) are answered by an arbitrary
oracle.  Nothing is assumed about an oracle unless a theorem says so in its
hypotheses (for example "the generator never returned this key before").

Three semantics are derived from the same tree:

* `path p es q`: running `p` may perform the calls with answers `es` and reach `q`.
  Statements about *one* request quantify over every path.
* `run`: one request against a store and an oracle, executable.
* `cexec`: arbitrary interleaving of arbitrarily many requests at provider-call
  granularity.  Every store call may fail, with or without taking effect, at any
  point; a request that is never scheduled again is a crash (or a dropped
  future).  Statements about *histories* quantify over every schedule.

A request result is `Ok`, `Err` (an OpenID error) or `Panic`.

### 1.2 Pure code

JSON text, serialized messages, matching, claim verification, bitstring generation, query-string encoding,
builders, mdoc digest tables are ordinary total functions.  Panics (`todo!()`,
`unimplemented!()`, index out of bounds, arithmetic overflow in debug builds)
are an explicit result.

### 1.3 Kinds of theorems

* plain name – the property holds of the model;
* `_partial` – part of the property; the missing part is said next to it;
* `_refuted` – the faithful model violates the property; the theorem exhibits
  the witness.  These are findings about the code.

Property theorems live in `theories/P_*.v`, which contain only statements closed by
`exact lemma`, `Print Assumptions`, and non-vacuity `Example`s.

## 2. Plan per property

| Property | Modelled | Proof |
|---|---|---|
| C01, C02, C03 | `create_offer.rs` complete | characterisation of all successful paths; non-interference by comparing two paths |
| C04, C05 | `credential_offer.rs` | path characterisation; history theorem over `cexec` using a store/trace lemma |
| C06–C11 | `token.rs` complete, SHA-256 written out | path characterisation (iff); history theorem; witness schedule for double redemption |
| C12 | all issuer endpoints | invariant on store and trace over every schedule |
| C13–C17 | `credential.rs` complete; signing and JWT verification are oracles | path characterisation |
| C18–C20 | `deferred.rs` | path characterisation, history theorem, witnesses |
| C21, C22 | `notification.rs` | path characterisation and invariant: no `Issued` state is ever stored |
| C23–C28 | `authorize.rs`, `par.rs` | path characterisation (iff), witnesses |
| C29, C30 | `verify_claims` on claim trees | structural induction against a path-based specification |
| C31–C39 | whole issuer | path characterisations, witnesses, `cexec` invariants |
| C40–C49 | `vercre-verifier`, `w3c-vc` proof verification; JSONPath engine and JWT decode are oracles | path characterisation (iff for C49), history theorems, witnesses |
| C50–C52 | `matcher.rs` on a JSON value type; JSONPath, regex and date parsers are parameters | case analysis, witnesses |
| C55–C59 | `bitstring.rs`; gzip/base64 as parameters | induction over the log |
| C60 | `urlencode` encoder and decoder on strings | induction over strings; witnesses for `&`, `=` |
| C61, C65–C69 | `Quota`, builders, JWT claims, `LangString`, reading presentations from strings | algebraic laws; exact characterisation of panics |
| C62–C64 | generators over an arbitrary random source, PKCE | induction; then through the issuer's endpoints |
| C70–C74 | `iso-mdl` with digest, signature and CBOR encoder as parameters | induction over datasets; witnesses |
| C75–C87, C89 | `vercre-holder`, with issuer and verifier as oracle | invariants over call sequences and executions, witnesses |
| C88 | wallet and verifier composed | the wallet's presentation is run through the verifier's checks |
| C77, C90, C91 | wallet and issuer composed: the oracle's answers are those of an issuer execution | coupling of two executions |
| C92–C99 | each step of the wallet | equivalence: goes through iff..., and what is recorded |
| C100, C101 | serde of `state.rs` and everything in it, JSON text writer and parser with the nesting limit | round trip by induction; invariant that saved states come from requests that were read; exact condition; witness execution |
| C102, C103, C105 | serde of the issuance messages, including flattened, tagged and untagged parts | round trip lemmas; the image of reading is readable |
| C104 | `Claim` and its hand-written reader | induction over nested claims; exact condition |
| C106 | `AuthorizationRequest` from/to query strings, over C60 | composition of the query string and JSON round trips |
| C107, C108 | `error.rs`: Display, `to_json`, `to_querystring` | parser lemmas; witness executions |
| C109 | the same serializers | key lists are sublists of the specified ones |
| C110, C111 | `token.rs`, `credential.rs`: when the requests are granted | symbolic execution in both directions: equivalence with the conditions of `RedeemSpec.v` |
| C112–C115 | pairs of requests in an execution of the issuer: offer and token, authorization and token, token and credential, credential and the next one | what one saves is read back by the other (store lemma), then C110/C111 |
| C116, C119 | serde of credentials, presentations and what is in them: flattened claims, string-or-object, one-or-many | round trip lemmas and their converses; reading lemmas |
| C117, C118 | the claims the issuer signs, as JSON text | C17 gives the signed value in every execution; round trip; witness execution |
| C120 | the claims the wallet signs, as JSON text | provenance of the signed value in every execution; round trip |
| C121, C126 | serde of `dif-exch` and of client metadata | round trips; exact conditions of reading; reading lemmas for what is refused |
| C122, C123, C127 | serde of the verifier's messages and of its saved state | every signed, saved and answered request of an execution comes from `create_request` (invariant), whose result is readable; round trip |
| C124 | `RequestObject` as a query string, over C60 | composition of the query string and JSON round trips; no fetching call on any path of the wallet |
| C128, C129 | serde of the metadata of issuers and authorization servers | tables of members; each decoder is a chain of members, so that reading is equivalent to the table; round trips from the table alone, hence for any order and additional members |
| C130 | serde of the wallet's issuances, presentations and credentials | what is saved is traced to requests and answers in every execution; round trip and its converse |
| C131 | query string of an offer (`to_querystring`, `to_qrcode`) | reuse of the C60 printer and parser on the JSON of offers; a standard parameter reader written separately |
| C132 | serde of credential responses, the flattened enum in them | what the issuer answers, in all executions; round trip and its converse; permutations of members |
| C133 | serde of notifications, registrations, requests for offers and metadata and their answers | round trips; exact condition for clients, whose flattened field shares a name with another; table of members for notifications |
| C134 | the wallet's requests as JSON | every request sent is traced to readable requests and metadata, in all executions; exact condition; witness execution |
| C136 | the wallet and the issuer connected by JSON text | a simulation: what each reads of the other's text is what was sent, up to the details that C105 changes; C77 and C91 then apply |
| C135 | `register` | all executions by the key-origin invariant; witnesses for the values wrongly accepted |
| C125 | serde of the wallet's response | provenance of the sent value in every execution; round trip |
| C137 | the request macros, from the text between the braces to the request built; compilation as a partial function | characterisation of what compiles and what it builds; comparison with the JSON readers of C134; refuted where the two differ |
| C138, C139 | CBOR (RFC 8949) as bytes with writer and reader; the licence's types written and read; a reader for ISO/IEC 18013-5 and the representation of RFC 8949 as separate specifications | induction over CBOR values (round trip for every size below 2^64 bytes); invariants of the issuer's tables; injectivity of base64url; the ISO reader refuses every issued licence |
| C140 | the wallet and the verifier connected by text (links, the claims of signed tokens, JSON) | what each reads of the other's text is what was sent (C122, C124, C125); state keys are not shared, so the state found for a presentation is that of the request the wallet got; C42, C44 and C88 then apply |
| C141 | the routes of the example issuer with their tables, the library an oracle | invariants over reachable states: whose request is in the table; refuted by an execution |
| C142 | same | same; universal negative theorems |
| C143 | same | what is passed on, by cases of the route |
| C144 | same | what is answered, by cases; two executions compared |
| C145 | the sample store of subjects, calls as steps between locks, the mutex with its poison | invariants: the table has the same subjects; poison stays |
| C146 | same | sequences of whole calls by induction; a witness schedule |
| C147 | forms as serde_urlencoded writes and reads them; the serde models of C124 and C125 | a form has text values only; `presented_shape` says what the wallet sends |
| C148 | same, with the token request of C102 | escapes are undone, pairs are split where they were joined; by cases of the grant |
| C149 | the login of C141, the query writer of C106, the form reader | what the login redirects to was stored by an authorization request; the query is read pair by pair |
| C150 | the store of text of the examples under any handler | simulation in both directions: the text under a key is what is written of the value, and C101 and C127 say that it is read |
| C151 | the wallet's table of JSON values, its file, failing writes, restarts | induction over the operations: every value was saved, both tables agree on what was not touched |
| C152 | the app's state and the views made of it; a panic is an outcome | what `find` gives and when `displays[0]` is there; folds over claims |
| C153 | commands under the app's lock as steps, the library's answers as their inputs | invariants over sessions: the flow is the last one taken up, the screen is the view of the state |
| C154 | how a link is cut and told apart | prefixes; the query writer of C131 |
| C155 | the body of an error answer (C107), read by each reader of the wallet's clients; the wallet's present step | the body is an object with the members of the error, of which the readers ask or do not ask for others |
| C156 | the example verifier's handlers as a map from HTTP requests to the library's, and its answers | C41 for executions whose requests all come from the service; the host can be read off the client identifier |
| C157 | a session of the example wallet together with an execution of the library that makes the session's calls (`drives`, `DriveSpec.v`) | C80 and C75 give the library calls behind a presentation or a token request; their numbers place them in the session; fresh identifiers tie the flow to the request or offer taken up last (C153) |
| C158 | an execution of the wallet library whose searches are answered by the example wallet's store (`kept_by`, `KeepSpec.v`), and the verifier of C88 | C87: what was saved was verified; C151: what the store finds was saved and meets the constraints; C88 reduces acceptance to the first credential found; only expiry is left |
| C159 | the session and library of C157 with the store of C158 | C80 gives the search behind a presentation; what it found was saved (lemma of C158); C157 gives the offer behind what was saved |
| C160 | the session, library and store of C159 together with an issuer (`coupled_but_details`, `ComposeSpec.v`) | what was presented was saved (C158); C91 gives the data, subject and token request behind what was saved; C157 gives the accepted offer behind the token request, whose code ties it to the offer the issuer created |

No property of the list was found inexpressible in the model.  Numbers C53 and C54 are not
used.

## 3. What is modelled and what is not

Modelled, file by file (definitions cite the lines):

* `vercre-issuer/src`: all endpoints and `state.rs`; `register.rs`, `metadata.rs`,
  `oauth_server.rs` only as far as they are one provider call.
* `vercre-verifier/src`: all endpoints.
* `vercre-holder/src`: all issuance and presentation endpoints, serde of its records.
* `crates/dif-exch`: constraints and matching, serde.
* `crates/iso-mdl`: the issuer-signed part (`to_credential`), all there is, down to its bytes (`MdlCbor.v`, `CborModel.v`).
* `crates/status`: configuration, log, bitstring.
* `crates/w3c-vc`: builders, JWT claims, verification of proofs, parsing of presentations,
  `LangString`, serde of credentials, presentations and signed claims.
* `crates/core`: `Kind`, `Quota`, `urlencode`, `gen`, `pkce`.
* `crates/openid`: types used above, `verify_claims`, `error.rs`, serde of the issuer's and the
  verifier's messages and of the metadata of clients, issuers and servers.
* `crates/macros`: what each request macro takes and the request its code builds; that code which
  the compiler refuses is `None`.
* `examples/issuer/src/main.rs`: all routes, the tables of logins, the answers (`ServiceModel.v`); the library is an oracle there.
* `examples/verifier/src/main.rs`: what each route asks of the library and answers (`ReplyModel.v`).
* `examples/wallet/src-tauri/src`: the clients as far as the bodies they read (`ReplyModel.v`), the store of credentials, the state of the app, its commands and views, links (`WalletModel.v`); the
  wallet library's answers are inputs there (C157 connects them with executions of the library), and the store plugin is assumed to write its file as a whole or not at all.
* `crates/test-utils/src/store/issuance.rs`: `DatasetStore` (`DatasetModel.v`). `store/state.rs` (`TextStore.v`).

Not modelled:

* `vercre-infosec` (JWS, JWK, COSE: another repository): signing and verification are oracle
  calls or parameters; nothing about them is assumed unless a theorem says so;
* CBOR: modelled for C138 and C139 except values of indefinite length, UTF-8 checks and the reader's nesting limit; whether `Tag24::to_vec` writes
  the tag, COSE keys, RFC 3339 dates and the bits of floats are parameters. In C70–C74 the whole encoder is a parameter;
* the `serde` derive macros and `serde_json`, which are not in the repository: what they do is
  written from their documentation (`SerdeModel.v`, `JsonParse.v`).  Left out: reading a struct
  from an array and enum variants given by number;
* in the models of the endpoints the store holds values, that is, `put` followed by `get` gives
  the value back.  C100, C101 (issuer), C127 (verifier) and C130 (wallet) say when this is so, and C150 carries executions over;
* `serde_urlencoded`, which the examples use for forms, is written from its documentation (`FormModel.v`); headers are not modelled, so
  that the content type that the example wallet sets by hand on forms plays no part;
* HTTP transport, tracing, the example applications and `test-utils` except as above; of `crates/macros` the tokens (how text becomes
  literals, names and expressions) and expressions of other types than `String`, `&str` and `SendType`;
* texts of error descriptions that come from providers (the fixed part is kept);
* Unicode whitespace beyond ASCII in `split_whitespace`; strings are byte strings.

Assumptions that a theorem needs (fresh generated keys, sequential requests, providers that
answer, dates that are read back as written) are hypotheses in its statement, and an
`Example` next to it exhibits a concrete case that meets them.

## 4. Trusted base

* Coq 8.16.1 kernel (the whole development is also accepted by `coqchk`);
* the model's faithfulness (each definition cites the lines it models);
* the English reading of the statements.

Axioms: `Print Assumptions` is run below every property theorem and answers "Closed under the
global context" for each of them: no axioms are used.  std++ loads `Coq.ssr.ssrunder`, a module of
Coq's own library that declares seven parameters (`Under_rel`, `Under_relE`, `Under_rel_from_rel`,
`Over_rel`, `over_rel`, `over_rel_done`, `under_rel_done`) inside a sealed module; a scan of the loaded libraries
lists them, no theorem uses them.

The development has no `Axiom`, `Parameter`, `Admitted` or `admit`, no functors or module types, and
`Variable`/`Hypothesis` only inside sections that are closed.

## 5. Findings

Theorems named `_refuted` exhibit behaviour of the modelled code that contradicts the property.

Issuer: a proof list that is empty satisfies "proof required" (C14); a notification id works as an
access token and keeps its nonce (C15, C22); a deferred transaction is lost after
`issuance_pending` (C19) and open to any token for the credential (C20); no notification is ever
accepted (C21); `issuer_state` accepts the key of any live state of the subject (C25); with
`require_pushed_authorization_requests` nothing is accepted (C26); pushed requests can be used
repeatedly (C27); only the first scope item counts (C28); unsupported claims are not refused (C30) and
claims not asked for are issued (C31); tokens die with the code (C32); a missing client id passes the
anonymous policy (C33); panics (C35); codes and tokens of one issuer honoured for another (C36);
overlapping credential requests reuse a nonce (C37); authorization details can name nothing (C39).

Verifier: expired requests are honoured (C45); embedded proofs are not verified (C46); issuer and key
are not compared (C47), nor audience and holder (C48).

Matching: `const` never matches an equal string and `null` matches everything (C51); panics (C52).

Status lists: neighbours are erased (C57); the list credential cannot be built, and would be at an address with a double slash (C58); index
arithmetic wraps (C59).

Core and credentials: `&` and `=` break query strings, and `+` is not read as a space (C60); a plain string is lost when a
translation is added (C68); parsing panics (C69).

mDL: bound to the issuer's key instead of the holder's (C71); negative digest ids or panic (C72); not
a COSE signature (C74).

Wallet: asks for more than was accepted (C76); two credentials in one call always fail against this
issuer, and the first is lost (C77); credentials saved twice (C78); all descriptors mapped to the
first credential (C80, C88); status parsing panics (C81); a consent can be used repeatedly (C82); the
issuer is never notified (C83); empty audience in proofs (C85); panics (C86); consented
presentations that cannot be made (C99).

Wire formats: an accepted pushed request that cannot be read back (C101); SD-JWT claims read as mDL
claims (C102); reserved claim names, empty sets and lost `mandatory` (C104); contradictory and partly
unreadable requests accepted (C105); request URIs never parsed and unknown parameters fatal (C106);
unescaped error descriptions, so that a client can suppress or choose the error (C107); no query string
for pending issuance (C108); `ldp-vc` for `ldp_vc` (C109); a claim called `id` makes credentials
unreadable (C116, C117); `null` members and misnamed status members (C118); any object is a
credential (C119); any constant of a filter becomes a type of the presentation (C120);
filters other than type with const, pattern or format make a definition unreadable (C121); requests
without client metadata or with the definition by reference are refused (C122); request object
responses with an object are not read back, and an empty one is a request (C123); a JSONPath ending
in a bracket breaks links (C124); a single token is sent as an array and not read as a string (C125);
clients that name other presentation formats, or several contacts, cannot be read (C126);
issuers that list display names, offer any credential in an unknown format or have images as claims
cannot be read (C128), nor servers that leave out whether they allow anonymous access or name other
grants, methods or algorithms (C129); the wallet's accepted SD-JWT claims come back as mobile
document claims (C130); links made for offers are not what OpenID4VCI readers expect, and are not read at
all when the issuer name has an equals sign (C131); registration takes codes, pushed request identifiers and
expired tokens for access tokens (C135); a credential response with a transaction identifier and credentials
is not refused (C132); a client whose offer endpoint is given in both of its places cannot be read, and offers and server
metadata are not found at their addresses but one level down (C133); the claims a wallet asks of an SD-JWT credential reach the issuer as those of a mobile
document (C134); the request macros refuse two grant types or two authorization details, take `ByRef` for by value and any
challenge method for S256, and drop locations and, in credential requests, the claims asked for (C137). No issued licence is one that a reader for
ISO/IEC 18013-5 can read (C139). In the example issuer a token of a login form is as good as a login (C141), pushed
requests are never available to a user who logged in (C142), `/auth` takes the issuer the client names (C143), every error has status
500 and redirects lose the state (C144). A call about an unknown subject makes the sample store useless for all (C145), and overlapping
calls may defer a credential twice (C146). The example wallet cannot post any presentation, as forms have no lists or objects (C147), nor
token requests with authorization details (C148); with such details there is no coming back from the login either (C149).
In the example wallet operations of the store that fail have effects (C151), one credential without display data makes the app unusable, and
errors are not shown (C152). An offer without display data that comes by a link is accepted in place of the one on the screen (C153), and the
links that the issuer makes are not understood (C154). Whatever the verifier refuses about a presentation, the wallet takes for success (C155),
and the example verifier answers all errors with status 500 (C156).

## 6. Seeded edits

`seeded/LOG.jsonl` records edits made to the model in a scratch copy, the claim each breaks, the
lemmas and theorems that fail, and the theorems that were tightened because they did not.
