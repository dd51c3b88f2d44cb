(** What is said about the wallet's records as JSON. *)
From Verif Require Import Base Json MatcherModel JsonParse CoreModel VcModel Prog ExecSpec Sha256 IssuerTypes SerdeSpec SerdeModel VcSpec VcSerde
  VerifierModel DifSerde DifSpec MetaSerde MetaSpec HolderModel HolderSpec RecordSerde.

(** ** The members of a record, with their values *)
Definition credential_document (cx : codecs) (c : kept_credential) : list (string * option json) :=
  [("id", Some (JStr (kc_id c))); ("issuer", Some (JStr (kc_issuer c))); ("vc", Some (ser_vc cx (kc_vc c)));
   ("issued", Some (JStr (kc_issued c))); ("issuance_date", Some (JStr (date_text cx (kc_issuance_date c))));
   ("display", option_map (λ l, JArr (map ser_display l)) (kc_display c));
   ("logo", option_map (λ g, JObj [("image", JStr (lg_image g)); ("mediaType", JStr (lg_media_type g))]) (kc_logo c))].
Definition or_null {A} (f : A → json) (o : option A) : json := match o with Some a => f a | None => JNull end.
Definition issuance_status_value (s : issuance_status) : json :=
  match s with
  | SInactive => JStr "Inactive" | SOffered => JStr "Offered" | SReady => JStr "Ready" | SPendingPin => JStr "PendingPin"
  | SAccepted => JStr "Accepted" | STokenReceived => JStr "TokenReceived" | SRequested => JStr "Requested"
  | SFailed e => JObj [("Failed", JStr e)]
  end.
Definition issuance_document (cx : codecs) (r : issuance_record) : list (string * option json) :=
  [("id", Some (JStr (ri_id r))); ("client_id", Some (JStr (ri_client_id r))); ("subject_id", Some (JStr (ri_subject_id r)));
   ("status", Some (issuance_status_value (ri_status r))); ("offer", Some (ser_offer (ri_offer r)));
   ("issuer", Some (ser_issuer_metadata (ri_issuer r))); ("authorization_server", Some (ser_server_metadata (ri_server r)));
   ("accepted", Some (or_null (λ l, JArr (map ser_detail l)) (ri_accepted r))); ("pin", Some (or_null JStr (ri_pin r)));
   ("code_verifier", Some (or_null JStr (ri_code_verifier r))); ("code_challenge", Some (or_null JStr (ri_code_challenge r)));
   ("token", Some (ser_token_response (ri_token r))); ("scope", Some (or_null JStr (ri_scope r)));
   ("deferred", Some (JObj (map (λ kv, (kv.1, JStr kv.2)) (ri_deferred r))));
   ("notification_id", Some (or_null JStr (ri_notification_id r)));
   ("credentials", Some (JArr (map (ser_credential cx) (ri_credentials r))))].
Definition presentation_status_value (s : presentation_status) : json :=
  match s with
  | PInactive => JStr "Inactive" | PRequested => JStr "Requested" | PAuthorized => JStr "Authorized"
  | PFailed e => JObj [("Failed", JStr e)]
  end.
Definition presentation_document (cx : codecs) (r : presentation_record) : list (string * option json) :=
  [("id", Some (JStr (rp_id r))); ("status", Some (presentation_status_value (rp_status r)));
   ("request", Some (ser_vp_request (rp_request r))); ("credentials", Some (JArr (map (ser_credential cx) (rp_credentials r))));
   ("filter", Some (ser_constraints (rp_filter r))); ("submission", Some (ser_submission (rp_submission r)))].

(** ** What survives being written and read *)
(** Numbers are in range, no name is repeated in a map, and claims and credentials can be read
    (SerdeSpec.v, VcSpec.v, MetaSpec.v, DifSpec.v). *)
Definition readable_token (t : token_response) : Prop :=
  fits 64 (trs_expires_in t) ∧ (∀ z, trs_c_nonce_expires_in t = Some z → fits 64 z) ∧
  ∀ l d, trs_authorization_details t = Some l → d ∈ l → readable_detail (atd_detail d).
Definition readable_issuance_record (r : issuance_record) : Prop :=
  readable_offer (ri_offer r) ∧ readable_issuer (ri_issuer r) ∧ readable_details (ri_accepted r) ∧ readable_token (ri_token r) ∧
  NoDup (keys (ri_deferred r)) ∧ ∀ c, c ∈ ri_credentials r → readable_vc (kc_vc c).
Definition readable_presentation_record (r : presentation_record) : Prop :=
  readable_vp_request (rp_request r) ∧ ∀ c, c ∈ rp_credentials r → readable_vc (kc_vc c).

(** Claims are nested at most [n] deep, and so are the values in credentials, whose numbers are
    numbers. *)
Definition token_details (t : token_response) : option (list authorization_detail) :=
  option_map (map atd_detail) (trs_authorization_details t).
Definition claims_within (n : nat) (l : list claimset) : Prop := ∀ c, c ∈ l → claims_depth c ≤ n.
Definition within_issuance (n : nat) (r : issuance_record) : Prop :=
  claims_within n (issuer_claims (ri_issuer r)) ∧ claims_within n (details_claims (ri_accepted r)) ∧
  claims_within n (details_claims (token_details (ri_token r))) ∧
  ∀ c, c ∈ ri_credentials r → shallow n (vc_values (kc_vc c)).
Definition within_presentation (n : nat) (r : presentation_record) : Prop :=
  ∀ c, c ∈ rp_credentials r → shallow n (vc_values (kc_vc c)).

(** ** Executions *)
(** A detail as it comes back: claims of SD-JWT credentials are taken for those of mobile documents. *)
Definition read_back (d : authorization_detail) : authorization_detail :=
  match ad_credential d with
  | ByConfigurationId id (Some (PCSdJwt l)) => AuthorizationDetail (ByConfigurationId id (Some (PCIsoMdl l))) (ad_locations d)
  | _ => d
  end.
Definition record_read_back (r : issuance_record) : issuance_record :=
  IssuanceRecord (ri_id r) (ri_client_id r) (ri_subject_id r) (ri_status r) (ri_offer r) (ri_issuer r) (ri_server r)
    (option_map (map read_back) (ri_accepted r)) (ri_pin r) (ri_code_verifier r) (ri_code_challenge r) (ri_token r) (ri_scope r)
    (ri_deferred r) (ri_notification_id r) (ri_credentials r).
Definition accepts_sd_jwt (r : issuance_record) : Prop :=
  ∃ l d id cl, ri_accepted r = Some l ∧ d ∈ l ∧ ad_credential d = ByConfigurationId id (Some (PCSdJwt cl)).

(** What the wallet's client and providers hand it in the execution [c] are values of their types
    that can be read, with claims nested at most [n] deep. *)
Definition readable_spec (n : nat) (s : auth_spec) : Prop :=
  ∀ l, as_claims s = Some l → readable_claims l ∧ claims_depth l ≤ n.
Definition readable_hrequest (n : nat) (q : hrequest) : Prop :=
  match q with
  | HOffer _ _ o => readable_offer o
  | HAccept _ a => ∀ l s, a = Some l → s ∈ l → readable_spec n s
  | HAuthorize r => (∀ l d, hz_details r = Some l → d ∈ l → readable_detail (read_back d)) ∧
                    claims_within n (details_claims (hz_details r))
  | _ => True
  end.
Definition readable_answer (n : nat) (e : hevent) : Prop :=
  match e with
  | EExt (EToken _ (Some t)) => readable_token t ∧ claims_within n (details_claims (token_details t))
  | EExt (ECredential _ (Some r)) => ∀ z, wr_c_nonce_expires_in r = Some z → fits 64 z
  | EExt (EVerifyVc _ (Some (v, _))) => readable_vc v ∧ shallow n (vc_values v)
  | EExt (EParseRequest _ (Some r)) | EExt (EDecodeRequest _ (Some r)) => readable_vp_request r
  | EExt (EFind _ (Some l)) => ∀ c, c ∈ l → readable_vc (wc_vc c) ∧ shallow n (vc_values (wc_vc c))
  | _ => True
  end.
Definition wallet_supplied (n : nat) (c : hconfig) : Prop :=
  (∀ i q, asked c i q → readable_hrequest n q) ∧ ∀ m i e, made c m i e → readable_answer n e.
