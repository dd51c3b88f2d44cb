(** Vocabulary for when codes and access tokens are honoured.  As in IssuerSpec.v, nothing
    here refers to the model of the endpoints. *)
From Verif Require Import Base StringSpec Json CoreModel VcModel Prog ExecSpec IssuerTypes Sha256 IssuerSpec
  AuthorizeSpec.

(** The client's scopes are all supported by the server. *)
Definition scopes_supported (cl : client) (srv : server) : Prop :=
  ∃ sc sup, cl_scope cl = Some sc ∧ sv_scopes_supported srv = Some sup ∧
    ∀ x, x ∈ split_whitespace sc → x ∈ sup.

(** The token request answers the grant that was saved as [st]: the right kind of grant,
    supported by the server, from the right client, with the right secrets.  [challenge] is
    how a PKCE challenge is computed. *)
Definition grant_answered (challenge : string → string) (srv : server) (st : state) (r : token_request) : Prop :=
  ∃ gts, sv_grant_types_supported srv = Some gts ∧
  match tr_grant r with
  | TGPreAuthorizedCode _ tx =>
      PreAuthorizedCode ∈ gts ∧ (tr_client_id r = Some "" → sv_anonymous_access srv = true) ∧
      ∃ o, s_stage st = Offered o ∧ off_items o ≠ None ∧ tx = off_tx_code o
  | TGAuthorizationCode _ uri verifier =>
      AuthorizationCode ∈ gts ∧
      ∃ a v, s_stage st = StAuthorized a ∧ tr_client_id r = Some (az_client_id a) ∧
        uri = az_redirect_uri a ∧ verifier = Some v ∧ challenge v = az_code_challenge a
  end.

(** With a pre-authorized code, every detail sent along was authorized and is acceptable to
    the issuer, whose metadata are looked up first of all. *)
Definition selection_answered (st : state) (r : token_request) (es : list ievent) : Prop :=
  match tr_grant r, tr_authorization_details r with
  | TGPreAuthorizedCode _ _, Some ds =>
      ∃ iss es', es = X (VIssuer (tr_credential_issuer r) (Some iss)) :: es' ∧
        ∀ all d, state_items st all → d ∈ ds →
          (∃ it, it ∈ all ∧ item_matches d it) ∧ acceptable iss d
  | _, _ => True
  end.

(** Of the credentials of the token, [auth] is one that is asked for: by its identifier, or
    authorized for the first configuration that has the format. *)
Definition asked_for (iss : issuer) (tok : token_state) (c : credential_issuance) (auth : authorized) : Prop :=
  match c with
  | CIIdentifier id => assoc id (tk_credentials tok) = Some auth
  | CIFormat f => (∃ id, (id, auth) ∈ tk_credentials tok) ∧
      ∃ l1 cfg l2, is_configurations iss = l1 ++ (au_configuration_id auth, cfg) :: l2 ∧
        same_format (cc_format cfg) f ∧ ∀ p, p ∈ l1 → ¬ same_format (cc_format p.2) f
  end.

(** The format is one the endpoint can issue: mDL, or JWT with a second type, by an issuer
    that has a name. *)
Definition issuable (iss : issuer) (cfg : credential_configuration) : Prop :=
  match cc_format cfg with
  | FJwtVcJson def => is_credential_issuer iss ≠ "" ∧ ∃ types, cd_type def = Some types ∧ 2 ≤ length types
  | FIsoMdl _ _ => True
  | FJwtVcJsonLd _ | FLdpVc _ | FVcSdJwt _ _ => False
  end.

(** The key proofs, decoded in this order by the calls [es], are all in order: of the proof
    type, with the nonce and a key id. *)
Definition proofs_in_order (nonce : string) (jwts : list string) (es : list ievent) : Prop :=
  Forall2 (λ jwt e, ∃ p kid, e = X (VDecodeProof jwt (Some p)) ∧ pj_typ_is_proof p = true ∧
    pj_nonce p = Some nonce ∧ pj_kid p = Some kid) jwts es.
(** What the configuration asks for by way of proof is given. *)
Definition proof_given (cfg : credential_configuration) (nonce : string) (proof : option key_proof)
    (es : list ievent) : Prop :=
  match cc_proof_types cfg with
  | None => es = []
  | Some types => "jwt" ∈ types ∧ ∃ p, proof = Some p ∧ proofs_in_order nonce (proof_jwts p) es
  end.

(** The order in which a table is walked through, when it is. *)
Definition walked (c : credential_issuance) (es : list ievent) : Prop :=
  match c with
  | CIIdentifier _ => es = []
  | CIFormat _ => ∃ n ix, es = [X (VOrder n ix)]
  end.

(** Between request [i] and request [j], no other request uses the key: whichever does (to
    read, write or remove it) is over before [i] starts, or starts when [j] is over. *)
Definition undisturbed (log : list (entry ISig)) (k : string) (i j : nat) : Prop :=
  ∀ en, en ∈ log → touched (e_ev en) = Some k →
    e_who en = i ∨ e_who en = j ∨ before log (e_who en) i ∨ before log j (e_who en).

(** No request other than [j] removes the key. *)
Definition removed_only_by (log : list (entry ISig)) (k : string) (j : nat) : Prop :=
  ∀ en b, en ∈ log → e_ev en = Purge k b → e_who en = j.

(** The calls [es] of a token request find a server that supports the grant and all scopes
    of the client [id]. *)
Definition served (r : token_request) (es : list ievent) (g : grant_type) (id : string) : Prop :=
  ∀ srv, X (VServer (tr_credential_issuer r) None (Some srv)) ∈ es →
    (∃ gts, sv_grant_types_supported srv = Some gts ∧ g ∈ gts) ∧
    (g = PreAuthorizedCode → id = "" → sv_anonymous_access srv = true) ∧
    ∀ cl, X (VClient id (Some cl)) ∈ es → scopes_supported cl srv.

(** What the configuration asks for by way of proof is in the request, and whatever the
    calls [es] find in it is in order. *)
Definition proof_fits (cfg : credential_configuration) (nonce : string) (proof : option key_proof)
    (es : list ievent) : Prop :=
  match cc_proof_types cfg with
  | None => True
  | Some types => "jwt" ∈ types ∧ ∃ p, proof = Some p ∧
      ∀ jwt pj, jwt ∈ proof_jwts p → X (VDecodeProof jwt (Some pj)) ∈ es →
        pj_typ_is_proof pj = true ∧ pj_nonce pj = Some nonce ∧ ∃ kid, pj_kid pj = Some kid
  end.

(** The token response lists the offered configuration [id], with the identifiers that the
    subject was authorized for in the calls [es]. *)
Definition detail_listed (es : list ievent) (subject : string) (id : string) (d : authorized_detail) : Prop :=
  ∃ ids, d = AuthorizedDetail (AuthorizationDetail (ByConfigurationId id None) None) ids ∧
    X (VAuthorize subject id (Some ids)) ∈ es.

(** The request for a credential was answered with the nonce to use next: along with the
    credential, or because its proof was not valid. *)
Definition next_nonce (o : outcome error ireply) (nonce : string) : Prop :=
  (∃ resp, o = Ok (RCredential resp) ∧ crs_c_nonce resp = Some nonce) ∨
  (∃ hint secs, o = Err (InvalidProof hint nonce secs)).
