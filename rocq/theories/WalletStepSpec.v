(** Vocabulary for what the single steps of the wallet do. *)
From Verif Require Import Base Json CoreModel VcModel Prog ExecSpec IssuerTypes MatcherModel VerifierModel
  HolderModel HolderSpec.
From Verif Require IssuerSpec.

(** A provider call that went wrong.  (A logo that cannot be fetched is left out.) *)
Definition hfailed (e : hevent) : Prop :=
  match e with
  | EGet _ None | EPut _ _ _ false | EPurge _ false => True
  | EExt (EMetadata _ None) | EExt (EServer _ None) | EExt (EAuthorization _ None) | EExt (EToken _ None)
  | EExt (ECredential _ None) | EExt (EDeferred _ None) | EExt (ENotify _ _ false) | EExt (ESignProof _ None)
  | EExt (EVerifyVc _ None) | EExt (ESave _ false) | EExt (EFind _ None) | EExt (EDecodeUrl _ None)
  | EExt (EParseRequest _ None) | EExt (ERequestObject _ None) | EExt (EDecodeRequest _ None)
  | EExt (ESignVp _ None) | EExt (EPresent _ _ None) => True
  | _ => False
  end.
Definition smooth (es : list hevent) : Prop := ∀ e, e ∈ es → ¬ hfailed e.

(** ** What a step leaves alone *)

(** Where the issuance comes from. *)
Definition same_origin (i v : issuance) : Prop :=
  hi_id v = hi_id i ∧ hi_client_id v = hi_client_id i ∧ hi_subject_id v = hi_subject_id i ∧
  hi_offer v = hi_offer i ∧ hi_issuer v = hi_issuer i ∧ hi_server v = hi_server i ∧ hi_scope v = hi_scope i.
(** The PKCE values. *)
Definition same_pkce (i v : issuance) : Prop :=
  hi_code_verifier v = hi_code_verifier i ∧ hi_code_challenge v = hi_code_challenge i.
(** What was received. *)
Definition same_received (i v : issuance) : Prop :=
  hi_deferred v = hi_deferred i ∧ hi_notification_id v = hi_notification_id i ∧
  hi_credentials v = hi_credentials i.

(** The record of a new issuance. *)
Definition new_issuance (v : issuance) : Prop :=
  hi_accepted v = None ∧ hi_pin v = None ∧ hi_code_verifier v = None ∧ hi_code_challenge v = None ∧
  trs_access_token (hi_token v) = "" ∧ hi_deferred v = [] ∧ hi_notification_id v = None ∧
  hi_credentials v = [].

(** The offer asks for a transaction code. *)
Definition wants_code (o : credential_offer) : Prop :=
  ∃ g p t, of_grants o = Some g ∧ gr_pre_authorized_code g = Some p ∧ pg_tx_code p = Some t.

(** The configuration that an authorized detail stands for: the one it names, or the first
    one of its format. *)
Definition stands_for (md : issuer) (d : authorized_detail) (id : string) : Prop :=
  match ad_credential (atd_detail d) with
  | ByConfigurationId k _ => k = id
  | ByFormat f => ∃ l1 c l2, is_configurations md = l1 ++ (id, c) :: l2 ∧ IssuerSpec.same_format (cc_format c) f ∧
      ∀ k c', (k, c') ∈ l1 → ¬ IssuerSpec.same_format (cc_format c') f
  end.
(** The identifiers reported for a configuration are those of the last detail for it. *)
Definition reports (md : issuer) (ds : list authorized_detail) (m : list (string * list string)) : Prop :=
  ∀ id l, assoc id m = Some l ↔
    ∃ d1 d d2, ds = d1 ++ d :: d2 ∧ stands_for md d id ∧ atd_identifiers d = l ∧
      ∀ d', d' ∈ d2 → ¬ stands_for md d' id.

(** ** Authorization *)

(** The issuance that [authorize] works on: the one named, or a new one. *)
Definition begins (r : authorize_request) (es : list hevent) (i : issuance) : Prop :=
  match hz_initiator r with
  | ByIssuer id => HGet id (Some (HSIssuance i)) ∈ es
  | ByWallet cl iss sc sb => ∃ md srv, HX (EUuid (hi_id i)) ∈ es ∧ HX (EMetadata iss (Some md)) ∈ es ∧
      HX (EServer iss (Some srv)) ∈ es ∧ hi_client_id i = cl ∧ hi_subject_id i = sb ∧ hi_issuer i = md ∧
      hi_server i = srv ∧ hi_scope i = sc ∧ new_issuance i
  end.
(** Asked for by the issuer: the offer was accepted, and it or else the server allows the
    flow.  Asked for by the user: with details or a scope, not with both. *)
Definition may_authorize (r : authorize_request) (i : issuance) : Prop :=
  match hz_initiator r with
  | ByIssuer _ => hi_status i = SAccepted ∧
      match of_grants (hi_offer i) with
      | Some g => gr_authorization_code g ≠ None
      | None => ∃ l, sv_grant_types_supported (hi_server i) = Some l ∧ AuthorizationCode ∈ l
      end
  | ByWallet _ _ sc _ => hz_details r = None ∨ sc = None
  end.
(** There is something to ask for: a scope, details, or an offer of known credentials. *)
Definition something_to_ask (r : authorize_request) (i : issuance) : Prop :=
  match hz_initiator r with
  | ByIssuer _ => hz_details r ≠ None ∨
      ∀ id, id ∈ of_configuration_ids (hi_offer i) → is_Some (assoc id (is_configurations (hi_issuer i)))
  | ByWallet _ _ sc _ => hz_details r ≠ None ∨ sc ≠ None
  end.
(** The server's metadata has what the request needs. *)
Definition complete_server (s : server) : Prop :=
  sv_response_types_supported s ≠ [] ∧ ∃ m l, sv_code_challenge_methods_supported s = Some (m :: l).

(** ** Requests for credentials *)

(** A step in which received credentials are checked. *)
Definition checking (e : hevent) : Prop :=
  match e with EExt (EVerifyVc _ _) | EExt (EUuid _) | EExt (ELogo _ _) => True | _ => False end.
(** Seconds since 1970 that fall in the years -262143 to 262142, all the years there are for the
    chrono crate. *)
Definition date_exists (t : Z) : Prop :=
  (days_to (-262143) * 24 * 60 * 60 <= t < days_to 262143 * 24 * 60 * 60)%Z.
(** Everything in the response can be taken in: JWTs, with an issuance date that exists. *)
Definition digestible (cfg : credential_configuration) (resp : wresponse) (es : list hevent) : Prop :=
  (∀ k, k ∈ credentials_in resp → ∃ jwt, k = KString jwt) ∧
  (∀ jwt v t, HX (EVerifyVc jwt (Some (v, t))) ∈ es → date_exists t) ∧
  (credentials_in resp ≠ [] → cc_display cfg ≠ Some []).
(** [v] is [i] after response [resp] for configuration [cfg] was taken in. *)
Definition taken_in (cfg : string) (resp : wresponse) (i v : issuance) : Prop :=
  map (λ c, KString (wc_issued c)) (hi_credentials v) =
    map (λ c, KString (wc_issued c)) (hi_credentials i) ++ credentials_in resp ∧
  ∀ t, assoc t (hi_deferred v) =
    match wr_response resp with
    | WRTransactionId t' => if bool_decide (t' = t) then Some cfg else assoc t (hi_deferred i)
    | _ => assoc t (hi_deferred i)
    end.
(** The first configuration of the issuer with this scope and format. *)
Definition first_in_scope (md : issuer) (sc : option string) (f : format) (id : string) (c : credential_configuration)
  : Prop :=
  ∃ l1 l2, is_configurations md = l1 ++ (id, c) :: l2 ∧ cc_scope c = sc ∧ IssuerSpec.same_format (cc_format c) f ∧
    ∀ k c', (k, c') ∈ l1 → ¬ (cc_scope c' = sc ∧ IssuerSpec.same_format (cc_format c') f).
(** Some configuration of the issuer comes with an empty list of display names. *)
Definition bare_display (md : issuer) : Prop :=
  ∃ id c, (id, c) ∈ is_configurations md ∧ cc_display c = Some [].
(** Everything received in [h] can be taken in. *)
Definition all_digestible (h : list hevent) : Prop :=
  (∀ q resp k, HX (ECredential q (Some resp)) ∈ h → k ∈ credentials_in resp → ∃ jwt, k = KString jwt) ∧
  (∀ jwt v t, HX (EVerifyVc jwt (Some (v, t))) ∈ h → date_exists t).

(** ** Presentation *)

(** The request asks for something this wallet can look for. *)
Definition answerable (req : vp_request) (f : constraints) : Prop :=
  ∃ d x rest, vo_definition req = KObject d ∧ pd_input_descriptors d = x :: rest ∧ f = id_constraints x.
(** Some descriptor has a field with a const filter. *)
Definition has_const (d : presentation_definition) : Prop :=
  ∃ x fs f t v, x ∈ pd_input_descriptors d ∧ cn_fields (id_constraints x) = Some fs ∧ f ∈ fs ∧
    fd_filter f = Some (Filter t (FConst v)).
