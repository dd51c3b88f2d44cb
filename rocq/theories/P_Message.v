(** Notifications, registrations, offers and server metadata between the issuer and its clients: C133. *)
From Verif Require Import Base Json MatcherModel JsonParse JsonText CoreModel VcModel Prog ExecSpec Sched IssuerTypes IssuerModel IssuerSpec
  VerifierModel HolderModel SerdeSpec SerdeModel VcSerde WireSpec DifSpec DifSerde MetaSerde MessageSerde MessageSpec MessageFacts.
From Verif Require Import IssuerExec.
From Verif Require IssuerExample P_Meta.

(** C133.  Every notification is read by the issuer as it was written, *)
Theorem C133_notifications n : read de_notice (write ser_notice n) = Some n.
Proof. exact (notice_text n). Qed.
Print Assumptions C133_notifications.
(** with these members, *)
Theorem C133_notification_members n : exactly
  [("credential_issuer", given (nr_credential_issuer (nc_request n))); ("access_token", given (nr_access_token (nc_request n)));
   ("notification_id", Some (JStr (nr_notification_id (nc_request n))));
   ("event", Some (JStr (match nc_event n with
      | CredentialAccepted => "credential_accepted" | CredentialFailure => "credential_failure"
      | CredentialDeleted => "credential_deleted" end)));
   ("event_description", option_map JStr (nc_description n))] (ser_notice n).
Proof. exact (notice_values n). Qed.
Print Assumptions C133_notification_members.
(** and exactly the objects with the standard's members, with any others in between, are read; *)
Theorem C133_notification_read_iff j : is_Some (de_notice j) ↔ ∃ m, j = JObj m ∧ notice_members m.
Proof. exact (notice_iff j). Qed.
Print Assumptions C133_notification_read_iff.
(** a description is not checked for the characters that the standard forbids. *)
Theorem C133_description_refuted : ∃ n d, nc_description n = Some d ∧ ¬ describing d ∧ read de_notice (write ser_notice n) = Some n.
Proof.
  exists (Notice (NotificationRequest "http://vercre.io" "token" "note") CredentialDeleted (Some "say ""no""")), "say ""no""".
  split; [done|]. split; [|apply notice_text]. intros H. specialize (H """"%char). cbv zeta in H.
  assert (""""%char ∈ String.list_ascii_of_string "say ""no""") as Hin by (apply (bool_decide_unpack _); vm_compute; exact I).
  apply H in Hin. change (Ascii.nat_of_ascii """") with 34 in Hin. lia.
Qed.
Print Assumptions C133_description_refuted.

(** Registrations.  There are two places for the wallet's offer endpoint in the metadata of a client and one name for
    both: what is written is read as it was exactly when the first place is not used. *)
Theorem C133_registration_read_iff_partial r : possible_client (rg_client r) →
  read de_registration (write ser_registration r) = Some r ↔ mt_offer_endpoint (ic_oauth (rg_client r)) = None.
Proof. exact (registration_same r). Qed.
Print Assumptions C133_registration_read_iff_partial.
Theorem C133_registered_read_iff_partial c : possible_client c →
  read de_registered (write ser_registered c) = Some c ↔ mt_offer_endpoint (ic_oauth c) = None.
Proof. intros H. rewrite registered_text by done. apply read_client_same. Qed.
Print Assumptions C133_registered_read_iff_partial.
(** When only the first is used the endpoint moves to the second; when both are used the message cannot be read at all,
    even if both say the same. *)
Theorem C133_endpoint_moves_refuted r e : possible_client (rg_client r) →
  mt_offer_endpoint (ic_oauth (rg_client r)) = Some e → ic_offer_endpoint (rg_client r) = None →
  read de_registration (write ser_registration r) =
    Some (Registration (rg_credential_issuer r) (rg_access_token r) (IssuersClient (no_endpoint (ic_oauth (rg_client r))) (Some e))).
Proof. intros H H1 H2. rewrite registration_text by done. unfold read_client. by rewrite H1, H2. Qed.
Print Assumptions C133_endpoint_moves_refuted.
Theorem C133_two_endpoints_refuted r e e' : possible_client (rg_client r) →
  mt_offer_endpoint (ic_oauth (rg_client r)) = Some e → ic_offer_endpoint (rg_client r) = Some e' →
  read de_registration (write ser_registration r) = None ∧ read de_registered (write ser_registered (rg_client r)) = None.
Proof. intros H H1 H2. rewrite registration_text, registered_text by done. unfold read_client. by rewrite H1, H2. Qed.
Print Assumptions C133_two_endpoints_refuted.

(** Requests for an offer, for an issuer's metadata and for a server's are read as they were written. *)
Theorem C133_offer_requests r : read de_offer_request (write ser_offer_request r) = Some r.
Proof. exact (offer_request_text r). Qed.
Print Assumptions C133_offer_requests.
Theorem C133_metadata_requests r : read (de_lookup "languages") (write (ser_lookup "languages") r) = Some r.
Proof. by apply lookup_text. Qed.
Print Assumptions C133_metadata_requests.
Theorem C133_server_requests r : read (de_lookup "issuer") (write (ser_lookup "issuer") r) = Some r.
Proof. by apply lookup_text. Qed.
Print Assumptions C133_server_requests.
(** So are their answers, in every execution, by who expects these very types; *)
Theorem C133_offers_partial (c : iconfig) i r o : ireach c → answered c i (QCredentialOffer r) (Ok (RCredentialOffer o)) →
  read de_offer_answer (write ser_offer_answer o) = Some o.
Proof. intros Hr Ha. exact (offer_answer_text o (offers_readable c i r o Hr Ha)). Qed.
Print Assumptions C133_offers_partial.
Theorem C133_server_metadata_partial s : read de_server_answer (write ser_server_answer s) = Some s.
Proof. exact (server_answer_text s). Qed.
Print Assumptions C133_server_metadata_partial.
(** but who expects an offer where the offer's address points, as the standard has it, or a server's metadata at its
    well-known address finds neither: both are one level further down. *)
Theorem C133_offer_at_its_address_refuted o : read de_offer (write ser_offer_answer o) = None.
Proof. exact (offer_answer_other o). Qed.
Print Assumptions C133_offer_at_its_address_refuted.
Theorem C133_metadata_at_its_address_refuted s : read de_server_metadata (write ser_server_answer s) = None.
Proof. exact (server_answer_other s). Qed.
Print Assumptions C133_metadata_at_its_address_refuted.

Definition ex_oauth (e : option string) : client_metadata :=
  ClientMetadata "wallet" (Some 1700000000%Z) None (Some ["http://localhost/callback"]) (Some AuthNone) (Some [AuthorizationCode])
    (Some [RTCode]) None None (Some "Wallet") None None (Some "openid") None None None None None None None e None.
Definition ex_registration (e e' : option string) : registration :=
  Registration "http://vercre.io" "token" (IssuersClient (ex_oauth e) e').
(** A notification, three registrations, and an offer and a server's metadata where they are looked for. *)
Example C133_example :
  read de_notice "{""event"":""credential_deleted"",""x"":1,""notification_id"":""n"",""event_description"":null}"
    = Some (Notice (NotificationRequest "" "" "n") CredentialDeleted None) ∧
  read de_notice "{""event"":""credential_lost"",""notification_id"":""n""}" = None ∧
  (∀ e e', possible_client (rg_client (ex_registration e e'))) ∧
  write ser_registration (ex_registration (Some "a") (Some "a")) = "{""credential_issuer"":""http://vercre.io"",""access_token"":""token"",""client_id"":""wallet"",""client_id_issued_at"":1700000000,""redirect_uris"":[""http://localhost/callback""],""token_endpoint_auth_method"":""none"",""grant_types"":[""authorization_code""],""response_types"":[""code""],""client_name"":""Wallet"",""scope"":""openid"",""credential_offer_endpoint"":""a"",""credential_offer_endpoint"":""a""}" ∧
  (∃ c o, ireach c ∧ answered c 1 (QCredentialOffer (CredentialOfferRequest IssuerExample.ex_iss "uri8")) (Ok (RCredentialOffer o)) ∧
     readable_offer o) ∧
  write ser_server_answer P_Meta.ex_server_metadata = "{""authorization_server"":" +:+ write ser_server_metadata P_Meta.ex_server_metadata +:+ "}".
Proof.
  split; [vm_compute; reflexivity|]. split; [vm_compute; reflexivity|].
  split. { intros e e'. split; [done|]. split; intros z [= <-]. split; [discriminate|reflexivity]. }
  split; [vm_compute; reflexivity|]. split; [|vm_compute; reflexivity].
  eexists (IssuerExample.after IssuerExample.w0 (IssuerExample.serially [QCreateOffer (IssuerExample.ex_create ByRef);
    QCredentialOffer (CredentialOfferRequest IssuerExample.ex_iss "uri8")])), _.
  assert (∀ c i r o, ireach c → answered c i (QCredentialOffer r) (Ok (RCredentialOffer o)) →
    ireach c ∧ answered c i (QCredentialOffer r) (Ok (RCredentialOffer o)) ∧ readable_offer o) as H.
  { intros c i r o Hr Ha. split; [done|]. split; [done|]. by eapply offers_readable. }
  apply H; [apply IssuerExample.after_reach|]. vm_compute. reflexivity.
Qed.
