(** How the wallet's records are written as JSON and read back: the [serde] derives of
    vercre-holder/src/issuance.rs, presentation.rs and credential.rs.

    The records of HolderModel.v hold the part of the metadata the endpoints use; here they are
    complete, and [issuance_of] and [presentation_of] give that part.  The array form of a struct is
    left out, as in SerdeModel.v. *)
From Verif Require Import Base Json MatcherModel JsonParse CoreModel VcModel Prog Sha256 IssuerTypes SerdeModel VcSerde VerifierModel DifSerde
  MetaSerde HolderModel.

(** ** vercre-holder/src/credential.rs *)

(** 54-64, [Logo]. *)
Record encoded_logo : Type := EncodedLogo { lg_image : string; lg_media_type : string }.
Definition ser_logo (l : encoded_logo) : json := JObj [("image", JStr (lg_image l)); ("mediaType", JStr (lg_media_type l))].
Definition de_logo : json → option encoded_logo := obj (λ m,
  i ← req de_str "image" m; t ← req de_str "mediaType" m; Some (EncodedLogo i t)).

(** 15-45, [Credential].  The date is in nanoseconds. *)
Record kept_credential : Type := KeptCredential {
  kc_id : string;
  kc_issuer : string;
  kc_vc : vc;
  kc_issued : string;
  kc_issuance_date : Z;
  kc_display : option (list display_metadata);
  kc_logo : option encoded_logo;
}.
Definition ser_credential (cx : codecs) (c : kept_credential) : json :=
  JObj ([("id", JStr (kc_id c)); ("issuer", JStr (kc_issuer c)); ("vc", ser_vc cx (kc_vc c)); ("issued", JStr (kc_issued c));
         ("issuance_date", ser_date cx (kc_issuance_date c))]
        ++ some_entry "display" (ser_list ser_display) (kc_display c) ++ some_entry "logo" ser_logo (kc_logo c)).
Definition de_credential (cx : codecs) : json → option kept_credential := obj (λ m,
  i ← req de_str "id" m; s ← req de_str "issuer" m; v ← req (de_vc cx) "vc" m; t ← req de_str "issued" m;
  d ← req (de_date cx) "issuance_date" m; l ← opt (de_list de_display) "display" m; g ← opt de_logo "logo" m;
  Some (KeptCredential i s v t d l g)).
(** The part of it in HolderModel.v. *)
Definition credential_of (c : kept_credential) : wcredential :=
  WCredential (kc_id c) (kc_issuer c) (kc_vc c) (kc_issued c) (timestamp (kc_issuance_date c)) (map display_of <$> kc_display c)
    (lg_image <$> kc_logo c).

(** ** vercre-holder/src/issuance.rs *)

(** 142-175, [Status]: variants are written under their own names. *)
Definition ser_issuance_status (s : issuance_status) : json :=
  match s with
  | SInactive => JStr "Inactive"
  | SOffered => JStr "Offered"
  | SReady => JStr "Ready"
  | SPendingPin => JStr "PendingPin"
  | SAccepted => JStr "Accepted"
  | STokenReceived => JStr "TokenReceived"
  | SRequested => JStr "Requested"
  | SFailed e => JObj [("Failed", JStr e)]
  end.
Definition de_issuance_status (j : json) : option issuance_status :=
  match variant j with
  | Some ("Failed", Some v) => SFailed <$> de_str v
  | _ => unit_variant [("Inactive", SInactive); ("Offered", SOffered); ("Ready", SReady); ("PendingPin", SPendingPin);
                       ("Accepted", SAccepted); ("TokenReceived", STokenReceived); ("Requested", SRequested)] j
  end.

(** 39-93, [Issuance].  Members without a value are written as [null]. *)
Record issuance_record : Type := IssuanceRecord {
  ri_id : string;
  ri_client_id : string;
  ri_subject_id : string;
  ri_status : issuance_status;
  ri_offer : credential_offer;
  ri_issuer : issuer_metadata;
  ri_server : server_metadata;
  ri_accepted : option (list authorization_detail);
  ri_pin : option string;
  ri_code_verifier : option string;
  ri_code_challenge : option string;
  ri_token : token_response;
  ri_scope : option string;
  ri_deferred : list (string * string);
  ri_notification_id : option string;
  ri_credentials : list kept_credential;
}.
Definition ser_issuance_record (cx : codecs) (r : issuance_record) : json :=
  JObj [("id", JStr (ri_id r)); ("client_id", JStr (ri_client_id r)); ("subject_id", JStr (ri_subject_id r));
        ("status", ser_issuance_status (ri_status r)); ("offer", ser_offer (ri_offer r)); ("issuer", ser_issuer_metadata (ri_issuer r));
        ("authorization_server", ser_server_metadata (ri_server r)); ("accepted", null_or (ser_list ser_detail) (ri_accepted r));
        ("pin", null_or JStr (ri_pin r)); ("code_verifier", null_or JStr (ri_code_verifier r));
        ("code_challenge", null_or JStr (ri_code_challenge r)); ("token", ser_token_response (ri_token r));
        ("scope", null_or JStr (ri_scope r)); ("deferred", ser_map JStr (ri_deferred r));
        ("notification_id", null_or JStr (ri_notification_id r)); ("credentials", ser_list (ser_credential cx) (ri_credentials r))].
Definition de_issuance_record (cx : codecs) : json → option issuance_record := obj (λ m,
  i ← req de_str "id" m; c ← req de_str "client_id" m; b ← req de_str "subject_id" m; s ← req de_issuance_status "status" m;
  o ← req de_offer "offer" m; md ← req de_issuer_metadata "issuer" m; sv ← req de_server_metadata "authorization_server" m;
  a ← opt (de_list de_detail) "accepted" m; p ← opt de_str "pin" m; cv ← opt de_str "code_verifier" m;
  cc ← opt de_str "code_challenge" m; t ← req de_token_response "token" m; sc ← opt de_str "scope" m;
  d ← req (de_map de_str) "deferred" m; n ← opt de_str "notification_id" m; l ← req (de_list (de_credential cx)) "credentials" m;
  Some (IssuanceRecord i c b s o md sv a p cv cc t sc d n l)).
Definition issuance_of (r : issuance_record) : issuance :=
  Issuance (ri_id r) (ri_client_id r) (ri_subject_id r) (ri_status r) (ri_offer r) (issuer_of (ri_issuer r)) (server_of (ri_server r))
    (ri_accepted r) (ri_pin r) (ri_code_verifier r) (ri_code_challenge r) (ri_token r) (ri_scope r) (ri_deferred r)
    (ri_notification_id r) (map credential_of (ri_credentials r)).

(** ** vercre-holder/src/presentation.rs *)

(** 51-67, [Status]. *)
Definition ser_presentation_status (s : presentation_status) : json :=
  match s with
  | PInactive => JStr "Inactive"
  | PRequested => JStr "Requested"
  | PAuthorized => JStr "Authorized"
  | PFailed e => JObj [("Failed", JStr e)]
  end.
Definition de_presentation_status (j : json) : option presentation_status :=
  match variant j with
  | Some ("Failed", Some v) => PFailed <$> de_str v
  | _ => unit_variant [("Inactive", PInactive); ("Requested", PRequested); ("Authorized", PAuthorized)] j
  end.

(** 26-49, [Presentation]. *)
Record presentation_record : Type := PresentationRecord {
  rp_id : string;
  rp_status : presentation_status;
  rp_request : vp_request;
  rp_credentials : list kept_credential;
  rp_filter : constraints;
  rp_submission : presentation_submission;
}.
Definition ser_presentation_record (cx : codecs) (r : presentation_record) : json :=
  JObj [("id", JStr (rp_id r)); ("status", ser_presentation_status (rp_status r)); ("request", ser_vp_request (rp_request r));
        ("credentials", ser_list (ser_credential cx) (rp_credentials r)); ("filter", ser_constraints (rp_filter r));
        ("submission", ser_submission (rp_submission r))].
Definition de_presentation_record (cx : codecs) : json → option presentation_record := obj (λ m,
  i ← req de_str "id" m; s ← req de_presentation_status "status" m; q ← req de_vp_request "request" m;
  l ← req (de_list (de_credential cx)) "credentials" m; f ← req de_constraints "filter" m; b ← req de_submission "submission" m;
  Some (PresentationRecord i s q l f b)).
Definition presentation_of (r : presentation_record) : presentation :=
  Presentation (rp_id r) (rp_status r) (rp_request r) (map credential_of (rp_credentials r)) (rp_filter r).
