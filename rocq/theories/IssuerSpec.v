(** Vocabulary for the statements about the issuer.  Nothing here refers to the model of
    the endpoints (IssuerModel.v): only to requests, answers, saved states and the
    provider calls that were made. *)
From Verif Require Import Base StringSpec Json CoreModel VcModel Prog ExecSpec IssuerTypes.

(** ** Calls *)

Notation ievent := (event ISig).
Notation X e := (@EExt ISig e).
Notation Get k r := (@EGet ISig k r).
Notation Put k v exp ok := (@EPut ISig k v exp ok).
Notation Purge k ok := (@EPurge ISig k ok).

(** The provider answered this call with an error. *)
Definition failed (e : ievent) : Prop :=
  match e with
  | EGet _ None | EPut _ _ _ false | EPurge _ false => True
  | EExt (VIssuer _ None) | EExt (VServer _ _ None) | EExt (VClient _ None)
  | EExt (VRegister _ None) | EExt (VAuthorize _ _ None) | EExt (VDataset _ _ None)
  | EExt (VStatus _ _ None) | EExt (VSigner _ false) | EExt (VDecodeProof _ None)
  | EExt (VSignVc _ _ None) | EExt (VSignMdl _ _ None) => True
  | _ => False
  end.

(** The value was generated at random by this call.  Transaction codes (six digits) are
    left out: they are not meant to be unique. *)
Definition generated (en : entry ISig) : option string :=
  match e_ev en with
  | EExt (VGen GTxCode _) => None
  | EExt (VGen _ s) => Some s
  | _ => None
  end.
(** The random generators did their job in this execution: no generated code, token, nonce
    or identifier occurs twice, and (being base64url text) none contains a colon. *)
Definition fresh (log : list (entry ISig)) : Prop :=
  NoDup (omap generated log) ∧
  ∀ s, s ∈ omap generated log → ":"%char ∉ list_ascii_of_string s.

(** ** Offers *)

(** The grant type is asked for. *)
Definition requested (r : create_offer_request) (g : grant_type) : Prop :=
  ∃ gs, co_grant_types r = Some gs ∧ g ∈ gs.

(** A request to create an offer that the metadata allows. *)
Definition offer_valid (iss : issuer) (srv : server) (r : create_offer_request) : Prop :=
  co_credential_issuer r ≠ "" ∧ co_configuration_ids r ≠ [] ∧
  (∀ id, id ∈ co_configuration_ids r → id ∈ keys (is_configurations iss)) ∧
  (∀ gs, co_grant_types r = Some gs →
     (∀ sup g, sv_grant_types_supported srv = Some sup → g ∈ gs → g ∈ sup) ∧
     (PreAuthorizedCode ∈ gs → co_subject_id r ≠ None)).

(** The offer [o] is what a wallet gets: inline, or by the link, under whose last part it
    was saved during the calls [es]. *)
Definition offer_given (r : create_offer_request) (resp : create_offer_response)
    (es : list ievent) (o : credential_offer) : Prop :=
  match co_send_type r with
  | ByVal => cor_offer resp = OfferObject o
  | ByRef => ∃ id t, cor_offer resp = OfferUri (co_credential_issuer r +:+ "/credential_offer/" +:+ id) ∧
      X (VGen GUriToken id) ∈ es ∧ X (VNow t) ∈ es ∧
      Put id (State (co_subject_id r) (Pending o) (t + minutes 5)%Z) (t + minutes 5)%Z true ∈ es
  end.

Definition pre_grant (o : credential_offer) : option pre_authorized_code_grant :=
  of_grants o ≫= gr_pre_authorized_code.
Definition code_grant (o : credential_offer) : option authorization_code_grant :=
  of_grants o ≫= gr_authorization_code.

(** Blank out transaction codes in a call. *)
Definition hide_tx (e : ievent) : ievent :=
  match e with
  | EExt (VGen GTxCode _) => X (VGen GTxCode "")
  | EPut k (State s (Offered o) x) exp b =>
      Put k (State s (Offered (Offer (off_items o) (option_map (λ _, "") (off_tx_code o)))) x) exp b
  | _ => e
  end.

(** ** Tokens *)

(** The authorization or pre-authorized code presented to the token endpoint. *)
Definition presented (r : token_request) : string :=
  match tr_grant r with
  | TGAuthorizationCode code _ _ => code
  | TGPreAuthorizedCode code _ => code
  end.

(** The value was generated during the execution as an authorization (or pre-authorized)
    code. *)
Definition is_code (log : list (entry ISig)) (s : string) : Prop :=
  ∃ en, en ∈ log ∧ e_ev en = X (VGen GAuthCode s).

(** The authorization request [r] was sent to the authorization endpoint directly, or
    pushed by an earlier request of the execution whose reference was then used. *)
Definition asked_by {R} (c : config ISig irequest R) (a : authorization_request) (r : request_object) : Prop :=
  a = ARObject r ∨
  ∃ tok j p, a = ARUri ("urn:ietf:params:oauth:request_uri:" +:+ tok) ∧
    c_pool c !! j = Some (QPar r, p) ∧ X (VGen GUriToken tok) ∈ calls_of j (c_log c).

(** At time [t] the state is not expired, to the precision of the comparison. *)
Definition live (st : state) (t : Z) : Prop := (t < s_expires_at st + seconds 1)%Z.

(** In the calls [es], the state [st] was read under [k] and the clock read after that
    showed [P]. *)
Definition read_then (es : list ievent) (k : string) (st : state) (P : Z → Prop) : Prop :=
  ∃ es1 es2 es3 t, es = es1 ++ Get k (Some st) :: es2 ++ X (VNow t) :: es3 ∧ P t.

(** Two formats name the same credential. *)
Definition same_format (f g : format) : Prop :=
  match f, g with
  | FJwtVcJson x, FJwtVcJson y | FLdpVc x, FLdpVc y | FJwtVcJsonLd x, FJwtVcJsonLd y =>
      cd_type x = cd_type y
  | FIsoMdl x _, FIsoMdl y _ => x = y
  | FVcSdJwt x _, FVcSdJwt y _ => x = y
  | _, _ => False
  end.
Definition same_credential (a b : credential_authorization) : Prop :=
  match a, b with
  | ByConfigurationId x _, ByConfigurationId y _ => x = y
  | ByFormat f, ByFormat g => same_format f g
  | _, _ => False
  end.
(** The authorized item was authorized for the credential that the detail asks for. *)
Definition item_matches (d : authorization_detail) (it : authorized_item) : Prop :=
  ∃ d', ai_item it = ItemDetail d' ∧ same_credential (ad_credential d') (ad_credential d).

(** The items authorized by the saved state of a grant. *)
Definition state_items (st : state) (items : list authorized_item) : Prop :=
  (∃ o, s_stage st = Offered o ∧ off_items o = Some items) ∨
  (∃ a, s_stage st = StAuthorized a ∧ items = az_items a).

(** The items that a token is to cover: all that the saved state authorizes; but when
    details are sent with a pre-authorized code, for each detail the first item that
    matches it. *)
Definition covers (st : state) (r : token_request) (items : list authorized_item) : Prop :=
  ∃ all, state_items st all ∧
    match tr_grant r, tr_authorization_details r with
    | TGPreAuthorizedCode _ _, Some ds =>
        Forall2 (λ d it, ∃ l1 l2, all = l1 ++ it :: l2 ∧ item_matches d it ∧
                         ∀ it', it' ∈ l1 → ¬ item_matches d it') ds items
    | _, _ => items = all
    end.

(** The errors that report an expired state, an expired nonce, an expired reference to a
    pushed request. *)
Definition state_expired_errors : list error :=
  [InvalidRequest "state expired"; InvalidRequest "issuer state expired";
   InvalidRequest "authorization state expired"; InvalidCredentialRequest "token state expired"].
Definition nonce_expired_error : error := AccessDenied "c_nonce has expired".
Definition reference_expired_error : error := InvalidRequest "`request_uri` has expired".

(** The credentials stored with a token are exactly those of the items, each under its
    identifier and with the configuration of an item that has the identifier. *)
Definition table_ok (items : list authorized_item) (m : list (string * authorized)) : Prop :=
  NoDup (keys m) ∧
  (∀ id, id ∈ keys m ↔ ∃ it, it ∈ items ∧ id ∈ ai_identifiers it) ∧
  (∀ id a, assoc id m = Some a → au_identifier a = id ∧
     ∃ it, it ∈ items ∧ id ∈ ai_identifiers it ∧ au_configuration_id a = ai_configuration_id it).

(** The details in the token response are those of the items that were authorized by
    detail, with their identifiers; there is no empty list. *)
Definition listed (items : list authorized_item) (ds : option (list authorized_detail)) : Prop :=
  default [] ds = omap (λ it, match ai_item it with
                              | ItemDetail d => Some (AuthorizedDetail d (ai_identifiers it))
                              | ItemScope _ => None
                              end) items ∧ ds ≠ Some [].
Definition not_authorized : error := AccessDenied "requested credential has not been authorized".


(** ** Credentials *)

(** This call fetches a holder's data, signs a credential, or saves a deferred issuance. *)
Definition releases (e : ievent) : bool :=
  match e with
  | EExt (VDataset _ _ _) | EExt (VSignVc _ _ _) | EExt (VSignMdl _ _ _) => true
  | EPut _ v _ _ => match s_stage v with Deferred _ _ => true | _ => false end
  | _ => false
  end.

(** Of the credentials a token authorizes, [auth] is one that the request asks for: by its
    identifier, or by the format of the configuration it was authorized for. *)
Definition chosen (iss : issuer) (tok : token_state) (c : credential_issuance) (auth : authorized) : Prop :=
  match c with
  | CIIdentifier id => assoc id (tk_credentials tok) = Some auth
  | CIFormat f => (∃ id, (id, auth) ∈ tk_credentials tok) ∧
      ∃ cfg, (au_configuration_id auth, cfg) ∈ is_configurations iss ∧ same_format (cc_format cfg) f
  end.

Definition proof_jwts (p : key_proof) : list string :=
  match p with PSingle jwt => [jwt] | PMultiple jwts => jwts end.
(** The JWT was verified, is of the proof type, and carries the nonce and a key id. *)
Definition proof_accepted (h : list ievent) (nonce : string) (jwt kid : string) : Prop :=
  ∃ p, X (VDecodeProof jwt (Some p)) ∈ h ∧ pj_typ_is_proof p = true ∧
    pj_nonce p = Some nonce ∧ pj_kid p = Some kid.
(** Proof of possession: the request has shown in the calls [h] that it controls the DID
    [did], when the configuration asks for it. *)
Definition possession (cfg : credential_configuration) (nonce : string) (proof : option key_proof)
    (h : list ievent) (did : string) : Prop :=
  match cc_proof_types cfg with
  | None => did = ""
  | Some types => "jwt" ∈ types ∧
      ∃ p kids, proof = Some p ∧ Forall2 (proof_accepted h nonce) (proof_jwts p) kids ∧
        match last kids with Some kid => up_to "#" kid did | None => did = "" end
  end.

Definition nonce_live (tok : token_state) (t : Z) : Prop :=
  (t < tk_c_nonce_expires_at tok + seconds 1)%Z.

(** What [r] may be given, judged by its calls [h] so far: [auth], configured as [cfg], to
    the holder [did], on the strength of the live token [tok] read in state [st]. *)
Record entitled (r : credential_request) (h : list ievent) (st : state) (tok : token_state)
    (iss : issuer) (auth : authorized) (cfg : credential_configuration) (did : string) : Prop := {
  en_stage : s_stage st = Validated tok;
  en_live : read_then h (cr_access_token r) st (live st);
  en_nonce_live : read_then h (cr_access_token r) st (nonce_live tok);
  en_issuer : X (VIssuer (cr_credential_issuer r) (Some iss)) ∈ h;
  en_chosen : chosen iss tok (cr_credential r) auth;
  en_config : assoc (au_configuration_id auth) (is_configurations iss) = Some cfg;
  en_possession : possession cfg (tk_c_nonce tok) (cr_proof r) h did;
}.

Definition restrict (ids : option (list string)) (claims : list (string * json)) : list (string * json) :=
  match ids with None => claims | Some l => filter (λ p, p.1 ∈ l) claims end.
(** The claims named by the request. *)
Definition named (c : credential_issuance) : option (list string) :=
  match c with CIIdentifier _ => None | CIFormat f => option_map keys (format_claims f) end.

(** The signed JWT claims: who issued what to whom, when and with which claims and status. *)
Record signed_claims (issuer holder type : string) (status : option (quota credential_status))
    (claims : list (string * json)) (date : Z) (v : vc_claims) : Prop := {
  sc_iss : vcc_iss v = issuer;
  sc_sub : vcc_sub v = holder;
  sc_iat : vcc_iat v = timestamp date;
  sc_jti : vcc_jti v = issuer +:+ "/credentials/" +:+ type;
  sc_issuer : vc_issuer (vcc_vc v) = KString issuer;
  sc_subject : vc_subject (vcc_vc v) = QOne (CredentialSubject (Some holder) claims);
  sc_type : vc_type (vcc_vc v) = QMany ["VerifiableCredential"; type];
  sc_id : vc_id (vcc_vc v) = Some (issuer +:+ "/credentials/" +:+ type);
  sc_status : vc_status (vcc_vc v) = status;
  sc_exp : vcc_exp v = None;
  sc_nbf : vcc_nbf v = None;
  sc_context : vc_context (vcc_vc v) =
    [KString "https://www.w3.org/2018/credentials/v1"; KString (issuer +:+ "/credentials/v1")];
  sc_valid_from : vc_valid_from (vcc_vc v) = None;
  sc_valid_until : vc_valid_until (vcc_vc v) = None;
  sc_proof : vc_proof (vcc_vc v) = None;
}.

(** What may be released: the data of the token's subject for the authorized identifier,
    signed only when complete, and deferred only when not. *)
Definition release_ok (r : credential_request) (h : list ievent) (e : ievent) (subject : string)
    (iss : issuer) (auth : authorized) (cfg : credential_configuration) (did : string) : Prop :=
  match e with
  | EExt (VDataset s id _) => s = subject ∧ id = au_identifier auth
  | EExt (VSignVc signer v _) => ∃ def types type ds status date,
      cc_format cfg = FJwtVcJson def ∧ cd_type def = Some types ∧ types !! 1%nat = Some type ∧
      X (VDataset subject (au_identifier auth) (Some ds)) ∈ h ∧ ds_pending ds = false ∧
      X (VStatus subject "credential_identifier" (Some status)) ∈ h ∧ X (VNow date) ∈ h ∧
      signer = cr_credential_issuer r ∧
      signed_claims (is_credential_issuer iss) did type status
        (restrict (named (cr_credential r)) (restrict (au_claim_ids auth) (ds_claims ds))) date v
  | EExt (VSignMdl signer claims _) => ∃ doctype cs ds,
      cc_format cfg = FIsoMdl doctype cs ∧
      X (VDataset subject (au_identifier auth) (Some ds)) ∈ h ∧ ds_pending ds = false ∧
      signer = cr_credential_issuer r ∧
      claims = restrict (named (cr_credential r)) (restrict (au_claim_ids auth) (ds_claims ds))
  | EPut k v _ _ => ∃ ds t, s_stage v = Deferred k r ∧ X (VGen GTransactionId k) ∈ h ∧
      X (VNow t) ∈ h ∧ s_expires_at v = (t + minutes 15)%Z ∧
      X (VDataset subject (au_identifier auth) (Some ds)) ∈ h ∧ ds_pending ds = true
  | _ => False
  end.

(** The credential request that [q] makes, after the calls [h0]: a request to the
    credential endpoint, or the saved request of a deferred issuance under the issuer and
    the access token presented now. *)
Definition credential_request_of (q : irequest) (h0 : list ievent) (r : credential_request) : Prop :=
  match q with
  | QCredential r' => h0 = [] ∧ r = r'
  | QDeferred d => ∃ st t txn cr, h0 = [Get (dr_transaction_id d) (Some st); X (VNow t);
                                        Purge (dr_transaction_id d) true] ∧
      live st t ∧ s_stage st = Deferred txn cr ∧
      r = CredentialRequest (dr_credential_issuer d) (dr_access_token d) (cr_credential cr) (cr_proof cr)
  | _ => False
  end.

(** The value was generated during the execution as an access token. *)
Definition is_token (log : list (entry ISig)) (s : string) : Prop :=
  ∃ en, en ∈ log ∧ e_ev en = X (VGen GToken s).

(** The proof was refused: the answer is that it is invalid, unless saving the new nonce
    failed. *)
Definition proof_refused {A} (o : outcome error A) : Prop :=
  (∃ hint n s, o = Err (InvalidProof hint n s)) ∨ o = Err (ServerError "issue saving state").
