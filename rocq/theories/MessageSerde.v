(** The remaining messages of the issuer as JSON: notifications, registrations, and the answers with an
    offer or with a server's metadata.  The helpers and conventions are those of SerdeModel.v. *)
From Verif Require Import Base Json MatcherModel JsonParse CoreModel VcModel Prog IssuerTypes HolderModel SerdeModel VcSerde DifSerde MetaSerde.

(** ** Notifications *)

(** crates/openid/src/issuer.rs 2067-2082, [NotificationEvent]. *)
Definition ser_event (e : notification_event) : json :=
  JStr (match e with
        | CredentialAccepted => "credential_accepted" | CredentialFailure => "credential_failure"
        | CredentialDeleted => "credential_deleted" end).
Definition de_event : json → option notification_event :=
  unit_variant [("credential_accepted", CredentialAccepted); ("credential_failure", CredentialFailure);
                ("credential_deleted", CredentialDeleted)].
(** 2036-2065, [NotificationRequest], in full. *)
Record notice : Type := Notice {
  nc_request : notification_request;
  nc_event : notification_event;
  nc_description : option string;
}.
Definition ser_notice (n : notice) : json :=
  JObj (str_entry "credential_issuer" (nr_credential_issuer (nc_request n))
        ++ str_entry "access_token" (nr_access_token (nc_request n))
        ++ [("notification_id", JStr (nr_notification_id (nc_request n))); ("event", ser_event (nc_event n))]
        ++ some_entry "event_description" JStr (nc_description n)).
Definition de_notice : json → option notice := obj (λ m,
  match dflt de_str "" "credential_issuer" m, dflt de_str "" "access_token" m, req de_str "notification_id" m,
        req de_event "event" m, opt de_str "event_description" m with
  | Some i, Some t, Some n, Some e, Some d => Some (Notice (NotificationRequest i t n) e d)
  | _, _, _, _, _ => None
  end).

(** ** Registration *)

(** 1999-2020, [Client]: the metadata of [OAuthClient] (oauth.rs 20-129), flattened, and one more
    member.  [client_metadata] stands for [OAuthClient] when it has no [mt_vp_formats], which belongs to
    verifiers. *)
Record issuers_client : Type := IssuersClient {
  ic_oauth : client_metadata;
  ic_offer_endpoint : option string;
}.
Definition entries (j : json) : list (string * json) := match j with JObj m => m | _ => [] end.
Definition ser_client_entries (c : issuers_client) : list (string * json) :=
  entries (ser_client_metadata (ic_oauth c)) ++ some_entry "credential_offer_endpoint" JStr (ic_offer_endpoint c).
(** The member [vp_formats] is ignored. *)
Definition de_client_entries (m : list (string * json)) : option issuers_client :=
  match opt de_str "credential_offer_endpoint" m,
        de_client_metadata (JObj (flattened ["credential_offer_endpoint"; "vp_formats"] m)) with
  | Some e, Some o => Some (IssuersClient o e)
  | _, _ => None
  end.
(** 1413-1429, [RegistrationRequest], and 1431-1437, [RegistrationResponse], with the flattened [Client]. *)
Record registration : Type := Registration {
  rg_credential_issuer : string;
  rg_access_token : string;
  rg_client : issuers_client;
}.
Definition ser_registration (r : registration) : json :=
  JObj (str_entry "credential_issuer" (rg_credential_issuer r) ++ str_entry "access_token" (rg_access_token r)
        ++ ser_client_entries (rg_client r)).
Definition de_registration : json → option registration := obj (λ m,
  match dflt de_str "" "credential_issuer" m, dflt de_str "" "access_token" m,
        de_client_entries (flattened ["credential_issuer"; "access_token"] m) with
  | Some i, Some t, Some c => Some (Registration i t c)
  | _, _, _ => None
  end).
Definition ser_registered (c : issuers_client) : json := JObj (ser_client_entries c).
Definition de_registered : json → option issuers_client := obj de_client_entries.

(** ** Requests by reference and their answers *)

(** 385-397, [CredentialOfferRequest]. *)
Definition ser_offer_request (r : credential_offer_request) : json :=
  JObj [("credential_issuer", JStr (cof_credential_issuer r)); ("id", JStr (cof_id r))].
Definition de_offer_request : json → option credential_offer_request := obj (λ m,
  match req de_str "credential_issuer" m, req de_str "id" m with
  | Some i, Some d => Some (CredentialOfferRequest i d)
  | _, _ => None
  end).
(** 399-405, [CredentialOfferResponse]. *)
Definition ser_offer_answer (o : credential_offer) : json := JObj [("credential_offer", ser_offer o)].
Definition de_offer_answer : json → option credential_offer := obj (req de_offer "credential_offer").
(** 1363-1377, [MetadataRequest], and 1387-1403, [OAuthServerRequest]: an issuer and an optional text,
    the [languages] or the [issuer]. *)
Definition ser_lookup (name : string) (r : string * option string) : json :=
  JObj (str_entry "credential_issuer" r.1 ++ some_entry name JStr r.2).
Definition de_lookup (name : string) : json → option (string * option string) := obj (λ m,
  match dflt de_str "" "credential_issuer" m, opt de_str name m with
  | Some i, Some x => Some (i, x)
  | _, _ => None
  end).
(** 1405-1411, [OAuthServerResponse]. *)
Definition ser_server_answer (s : server_metadata) : json := JObj [("authorization_server", ser_server_metadata s)].
Definition de_server_answer : json → option server_metadata := obj (req de_server_metadata "authorization_server").
