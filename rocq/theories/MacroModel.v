(** The macros that write an issuer's requests in a program in the shape of JSON:
    crates/macros/src.

    A macro runs when the calling program is compiled.  It reads the text between its braces,
    and either refuses it or writes Rust code in its place, which is compiled in turn.  The
    model goes from the text to the request that this code builds when it runs; [None] is a
    program that does not compile: the macro returns an error, it panics, or the code it writes
    is refused by the compiler.  Which code is refused follows from the types of the fields in
    crates/openid/src/issuer.rs and the conversions defined there and in oauth.rs.

    Expressions and names of the calling program are given by their value, and only those of type
    [String], [&str] and [SendType] are modelled. *)
From Verif Require Import Base Json MatcherModel JsonParse CoreModel VcModel Prog IssuerTypes SerdeModel.

(** crates/macros/src/parse.rs 52-63, [Value], as it is written: what is given twice is there
    twice.  [MText] is an expression of type [String] ([owned]) or [&str], and [MSend] one of
    type [SendType]; a [&] before them is dropped (138-141).  A number is an [i64]. *)
Inductive mvalue : Type :=
| MBool (b : bool)
| MNum (z : Z)
| MStr (s : string)
| MArr (l : list mvalue)
| MObj (m : list (string * mvalue))
| MText (owned : bool) (s : string)
| MSend (t : send_type).
Definition mfields : Type := list (string * mvalue).

(** parse.rs 78-83 and 113-123: a later entry replaces an earlier one. *)
Definition into_map {A} (m : list (string * A)) : list (string * A) :=
  fold_left (λ acc kv, ainsert kv.1 kv.2 acc) m [].
(** parse.rs 15-26, 36-44: [get], [expect], [check_consumed]. *)
Definition adelete {A} (k : string) (m : list (string * A)) : list (string * A) :=
  List.filter (λ kv, negb (bool_decide (kv.1 = k))) m.
Definition get (k : string) (m : mfields) : option mvalue * mfields := (assoc k m, adelete k m).
Definition expect (k : string) (m : mfields) : option (mvalue * mfields) :=
  match get k m with (Some v, m) => Some (v, m) | (None, _) => None end.
Definition check_consumed (m : mfields) : option unit := match m with [] => Some () | _ => None end.

(** ** The code written for a value (parse.rs 153-184), in a place of the type given *)

(** [.into()] in the place of a [String]. *)
Definition text (v : mvalue) : option string :=
  match v with MStr s | MText _ s => Some s | _ => None end.
(** A [String] as it is. *)
Definition own_text (v : mvalue) : option string :=
  match v with MStr s | MText true s => Some s | _ => None end.
(** A [Vec<String>] as it is. *)
Definition own_texts (v : mvalue) : option (list string) :=
  match v with MArr l => mapM own_text l | _ => None end.
(** parse.rs 28-34: [option]. *)
Definition option_of {A} (f : mvalue → option A) (o : option mvalue) : option (option A) :=
  match o with Some v => Some <$> f v | None => Some None end.
(** crates/openid/src/oauth.rs 317-333 and 395-411: [From<String>] and [From<&str>]; other texts give
    the default, which is the same. *)
Definition response_type_of_text (s : string) : response_type :=
  if bool_decide (s = "code") then RTCode else RTCode.
Definition method_of_text (s : string) : code_challenge_method :=
  if bool_decide (s = "S256") then S256 else S256.
(** crates/openid/src/issuer.rs 143-150: only [From<String>]. *)
Definition send_type_of_text (s : string) : send_type := if bool_decide (s = "by_ref") then ByRef else ByVal.
Definition send_type_of (v : mvalue) : option send_type :=
  match v with MSend t => Some t | _ => send_type_of_text <$> own_text v end.

(** Code that is written one piece after the other into [vec!], without commas. *)
Definition juxtaposed {A} (l : list A) : option (list A) :=
  match l with [] | [_] => Some l | _ => None end.

(** ** crates/macros/src/create_offer.rs *)

(** 51-78: [grant_types]. *)
Definition grant_of (v : mvalue) : option grant_type :=
  match v with
  | MStr s => if bool_decide (s = "urn:ietf:params:oauth:grant-type:pre-authorized_code") then Some PreAuthorizedCode
              else if bool_decide (s = "authorization_code") then Some AuthorizationCode else None
  | _ => None
  end.
Definition grant_types_of (o : option mvalue) : option (option (list grant_type)) :=
  match o with
  | None => Some None
  | Some (MArr l) => l ← mapM grant_of l; Some <$> juxtaposed l
  | Some _ => None
  end.
(** 9-49: [request].  [imported]: the calling program has [SendType] in scope, which the code
    written for a [send_type] that is left out needs. *)
Definition create_offer_macro (imported : bool) (m : mfields) : option create_offer_request :=
  let m := into_map m in
  '(issuer, m) ← expect "credential_issuer" m;
  let '(subject, m) := get "subject_id" m in
  '(ids, m) ← expect "credential_configuration_ids" m;
  ids ← match ids with MArr (v :: l) => Some (v :: l) | _ => None end;
  let '(grants, m) := get "grant_types" m in
  let '(tx_code, m) := get "tx_code_required" m in
  let '(send, m) := get "send_type" m in
  _ ← check_consumed m;
  i ← text issuer;
  s ← option_of text subject;
  c ← mapM own_text ids;
  g ← grant_types_of grants;
  t ← match tx_code with None => Some false | Some (MBool b) => Some b | Some _ => None end;
  st ← match send with None => if imported then Some ByVal else None | Some v => send_type_of v end;
  Some (CreateOfferRequest i s c g t st).

(** ** crates/macros/src/authorization.rs *)

(** 77-86, token.rs 102-111: the type of an authorization detail, looked at only when it is a literal. *)
Definition detail_type (d : mfields) : option unit :=
  match assoc "type" d with
  | Some (MStr t) => if bool_decide (t = "openid_credential") then Some () else None
  | Some _ => Some ()
  | None => None
  end.
(** 222-239: [claims]. *)
Fixpoint macro_claim (v : mvalue) : claim :=
  match v with
  | MObj (kv :: m) =>
      CSet (into_map ((fix go (m : list (string * mvalue)) :=
        match m with [] => [] | (k, v) :: r => (k, macro_claim v) :: go r end) (kv :: m)))
  | _ => CEntry None
  end.
Definition macro_claims (m : mfields) : claimset := into_map (map (λ kv, (kv.1, macro_claim kv.2)) m).
(** 205-220: [subject]. *)
Definition subject_of (d : mfields) : option (option claimset) :=
  match assoc "credentialSubject" d with
  | None => Some None
  | Some (MObj m) => Some (Some (macro_claims m))
  | Some _ => None
  end.
(** 148-175: [configuration_definition], and 177-203: [format_definition]. *)
Definition configuration_definition (v : mvalue) : option credential_definition :=
  match v with
  | MObj d =>
      let d := into_map d in
      s ← subject_of d;
      t ← option_of own_texts (assoc "type" d);
      Some (CredentialDefinition None t s)
  | _ => None
  end.
Definition format_definition (v : mvalue) : option credential_definition :=
  match v with
  | MObj d =>
      let d := into_map d in
      t ← assoc "type" d;
      s ← subject_of d;
      t ← own_texts t;
      Some (CredentialDefinition None (Some t) s)
  | _ => None
  end.
(** 133-145, credential.rs 50-59: the format must be a literal. *)
Definition the_format (v : mvalue) : option unit :=
  match v with MStr f => if bool_decide (f = "jwt_vc_json") then Some () else None | _ => None end.
(** 103-146: [credential_authorization]. *)
Definition macro_authorization (d : mfields) : option credential_authorization :=
  match assoc "credential_configuration_id" d with
  | Some id =>
      claims ← match assoc "credential_definition" d with
               | Some v => c ← configuration_definition v; Some (Some (PCW3c c))
               | None => Some None end;
      id ← own_text id;
      Some (ByConfigurationId id claims)
  | None =>
      f ← assoc "format" d;
      v ← assoc "credential_definition" d;
      c ← format_definition v;
      _ ← the_format f;
      Some (ByFormat (FJwtVcJson c))
  end.
(** 62-101: [authorization_details]. *)
Definition macro_detail (v : mvalue) : option authorization_detail :=
  match v with
  | MObj d =>
      let d := into_map d in
      _ ← detail_type d;
      c ← macro_authorization d;
      Some (AuthorizationDetail c None)
  | _ => None
  end.
Definition details_of (f : mvalue → option authorization_detail) (o : option mvalue)
  : option (option (list authorization_detail)) :=
  match o with
  | None => Some None
  | Some (MArr l) => l ← mapM f l; Some <$> juxtaposed l
  | Some _ => None
  end.
(** 9-60: [request].  [resource], [wallet_issuer] and [user_hint] are checked and left out of the
    modelled request. *)
Definition authorization_macro (m : mfields) : option request_object :=
  let m := into_map m in
  '(issuer, m) ← expect "credential_issuer" m;
  '(response_type, m) ← expect "response_type" m;
  '(client_id, m) ← expect "client_id" m;
  '(code_challenge, m) ← expect "code_challenge" m;
  '(method, m) ← expect "code_challenge_method" m;
  '(subject, m) ← expect "subject_id" m;
  let '(redirect_uri, m) := get "redirect_uri" m in
  let '(state, m) := get "state" m in
  let '(scope, m) := get "scope" m in
  let '(resource, m) := get "resource" m in
  let '(wallet_issuer, m) := get "wallet_issuer" m in
  let '(user_hint, m) := get "user_hint" m in
  let '(issuer_state, m) := get "issuer_state" m in
  let '(details, m) := get "authorization_details" m in
  ad ← details_of macro_detail details;
  _ ← check_consumed m;
  i ← text issuer;
  rt ← response_type_of_text <$> text response_type;
  c ← text client_id;
  ru ← option_of text redirect_uri;
  st ← option_of text state;
  cc ← text code_challenge;
  cm ← method_of_text <$> text method;
  sc ← option_of text scope;
  _ ← option_of text resource;
  su ← text subject;
  _ ← option_of text wallet_issuer;
  _ ← option_of text user_hint;
  is ← option_of text issuer_state;
  Some (RequestObject i rt c ru st cc cm ad sc su is).

(** ** crates/macros/src/token.rs *)

(** 228-248: [subject].  The code written for a claim names a function [ClaimDefinition::Claim],
    which does not exist. *)
Definition token_subject (d : mfields) : option (option claimset) :=
  match assoc "credentialSubject" d with
  | None => Some None
  | Some (MObj []) => Some (Some [])
  | Some _ => None
  end.
(** 200-226: [format_definition]. *)
Definition token_definition (v : mvalue) : option credential_definition :=
  match v with
  | MObj d =>
      let d := into_map d in
      t ← assoc "type" d;
      s ← token_subject d;
      t ← own_texts t;
      Some (CredentialDefinition None (Some t) s)
  | _ => None
  end.
(** 128-173: [credential_configuration].  The code written for a definition beside a configuration
    id puts a [ProfileW3c] in the place of a [ProfileClaims]; 175-198 [configuration_definition] is
    therefore left out. *)
Definition token_configuration (d : mfields) : option credential_authorization :=
  match assoc "credential_configuration_id" d with
  | Some id =>
      match assoc "credential_definition" d with
      | Some _ => None
      | None => id ← own_text id; Some (ByConfigurationId id None)
      end
  | None =>
      f ← assoc "format" d;
      v ← assoc "credential_definition" d;
      c ← token_definition v;
      _ ← the_format f;
      Some (ByFormat (FJwtVcJson c))
  end.
(** 87-126: [authorization_details]. *)
Definition token_detail (v : mvalue) : option authorization_detail :=
  match v with
  | MObj d =>
      let d := into_map d in
      _ ← detail_type d;
      c ← token_configuration d;
      Some (AuthorizationDetail c None)
  | _ => None
  end.
(** 57-69: [pre_authorized_code]; 71-85: [authorization_code]. *)
Definition macro_grant (grant_type : mvalue) (m : mfields) : option (token_grant * mfields) :=
  match grant_type with
  | MStr s =>
      if bool_decide (s = "urn:ietf:params:oauth:grant-type:pre-authorized_code") then
        '(code, m) ← expect "pre-authorized_code" m;
        let '(tx, m) := get "tx_code" m in
        c ← text code;
        t ← option_of text tx;
        Some (TGPreAuthorizedCode c t, m)
      else if bool_decide (s = "authorization_code") then
        '(code, m) ← expect "code" m;
        let '(uri, m) := get "redirect_uri" m in
        '(verifier, m) ← expect "code_verifier" m;
        c ← text code;
        u ← option_of text uri;
        v ← text verifier;
        Some (TGAuthorizationCode c u (Some v), m)
      else None
  | _ => None
  end.
(** 9-55: [request]. *)
Definition token_macro (m : mfields) : option token_request :=
  let m := into_map m in
  '(issuer, m) ← expect "credential_issuer" m;
  let '(client_id, m) := get "client_id" m in
  '(grant_type, m) ← expect "grant_type" m;
  '(g, m) ← macro_grant grant_type m;
  let '(details, m) := get "authorization_details" m in
  d ← details_of token_detail details;
  _ ← check_consumed m;
  i ← text issuer;
  c ← option_of text client_id;
  Some (TokenRequest i c g d).

(** ** crates/macros/src/credential.rs *)

(** 65-91: [format_definition]. *)
Definition credential_definition_of (v : mvalue) : option credential_definition :=
  match v with
  | MObj d =>
      t ← assoc "type" (into_map d);
      t ← own_texts t;
      Some (CredentialDefinition None (Some t) None)
  | _ => None
  end.
(** 34-63: [credential_issuance]. *)
Definition macro_issuance (m : mfields) : option (credential_issuance * mfields) :=
  match get "credential_identifier" m with
  | (Some id, m) => id ← text id; Some (CIIdentifier id, m)
  | (None, m) =>
      '(f, m) ← expect "format" m;
      '(v, m) ← expect "credential_definition" m;
      c ← credential_definition_of v;
      _ ← the_format f;
      Some (CIFormat (FJwtVcJson c), m)
  end.
(** 93-124: [proof]. *)
Definition macro_proof (m : mfields) : option (option key_proof * mfields) :=
  match get "proof" m with
  | (Some (MObj p), m) =>
      let p := into_map p in
      _ ← match assoc "proof_type" p with
          | Some (MStr t) => if bool_decide (t = "jwt") then Some () else None
          | _ => None end;
      jwt ← assoc "jwt" p;
      jwt ← text jwt;
      Some (Some (PSingle jwt), m)
  | (Some _, _) => None
  | (None, m) => Some (None, m)
  end.
(** 9-32: [request].  No value modelled can be made into a [CredentialResponseEncryption]. *)
Definition credential_macro (m : mfields) : option credential_request :=
  let m := into_map m in
  '(issuer, m) ← expect "credential_issuer" m;
  '(token, m) ← expect "access_token" m;
  '(c, m) ← macro_issuance m;
  '(p, m) ← macro_proof m;
  let '(encryption, m) := get "credential_response_encryption" m in
  _ ← check_consumed m;
  _ ← match encryption with None => Some () | Some _ => None end;
  i ← text issuer;
  a ← text token;
  Some (CredentialRequest i a c p).
