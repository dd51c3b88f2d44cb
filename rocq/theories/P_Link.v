(** Credential offers in links: C131. *)
From Verif Require Import Base Json CoreModel VcModel Prog ProgFacts ExecSpec IssuerTypes IssuerModel IssuerSpec IssuerExample GenSpec
  SerdeSpec SerdeModel QueryModel OfferLink.
From Verif Require UrlModel UrlSpec.

(** C131.  An offer in a link is read as it was, if nothing in its strings means something to the
    reader; *)
Theorem C131_offer_read_partial o : readable_offer o → (∀ s, s ∈ offer_strings o → UrlSpec.innocent s) →
  UrlModel.url_from_str (read de_offer) (offer_query o) = Some o.
Proof. exact (offer_query_read o). Qed.
Print Assumptions C131_offer_read_partial.
(** this holds of all offers that are created, as long as it does of the names of the issuer, of its
    authorization servers and of the credentials (for the codes see C64); *)
Theorem C131_created_offers_partial r es resp o : runs (create_offer r) es (Ok resp) → cor_offer resp = OfferObject o →
  UrlSpec.innocent (co_credential_issuer r) → (∀ id, id ∈ co_configuration_ids r → UrlSpec.innocent id) →
  (∀ i iss l s, X (VIssuer i (Some iss)) ∈ es → is_authorization_servers iss = Some l → s ∈ l → UrlSpec.innocent s) →
  (∀ s, X (VGen GAuthCode s) ∈ es → every_char url_safe s) →
  UrlModel.url_from_str (read de_offer) (offer_query o) = Some o.
Proof. exact (created_offer_link r es resp o). Qed.
Print Assumptions C131_created_offers_partial.
(** but an issuer whose name has an equals sign in it cannot be read from the link. *)
Theorem C131_every_offer_refuted : ∃ r es resp o, runs (create_offer r) es (Ok resp) ∧ cor_offer resp = OfferObject o ∧
  readable_offer o ∧ UrlModel.url_from_str (read de_offer) (offer_query o) = None.
Proof.
  exists (CreateOfferRequest "http://issuer?tenant=1" (Some ex_subject) ["EmployeeID_JWT"] (Some [AuthorizationCode]) false ByVal).
  eexists _, _, _. split; [apply (solo_runs (World (λ _, ex_issuer) ex_server (λ _, 0%Z) (λ _, false) "") ∅); vm_compute; reflexivity|].
  split; [reflexivity|]. split; [|vm_compute; reflexivity]. intros g p t n [= <-] Hp. discriminate Hp.
Qed.
Print Assumptions C131_every_offer_refuted.
(** A wallet that follows OpenID4VCI and takes the parameter [credential_offer] of the link for the
    offer never gets one: the endpoint's prefix is followed by parameters, not by the offer. *)
Theorem C131_standard_parameter_refuted o :
  ∃ v, parameter "credential_offer" (offer_link "credential_offer=" o) = Some v ∧ read de_offer v = None.
Proof.
  destruct (offer_parameter_name o) as [v Hv]. exists (String "c" v). split; [exact Hv|]. exact (offer_parameter o _ Hv).
Qed.
Print Assumptions C131_standard_parameter_refuted.
(** A reader does get one from a link made that way. *)
Definition ex_linked_offer : credential_offer :=
  CredentialOffer "http://issuer" ["EmployeeID_JWT"] (Some (Grants (Some (AuthorizationCodeGrant (Some "code2") None)) None)).
Example C131_example : ∃ es resp o, runs (create_offer (ex_create ByVal)) es (Ok resp) ∧ cor_offer resp = OfferObject o ∧
  (∀ s, X (VGen GAuthCode s) ∈ es → s = "code2") ∧
  UrlModel.url_from_str (read de_offer) (offer_query o) = Some o ∧
  parameter "credential_offer" ("credential_offer=" +:+ UrlModel.percent_encode (write ser_offer ex_linked_offer))
    = Some (write ser_offer ex_linked_offer) ∧
  read de_offer (write ser_offer ex_linked_offer) = Some ex_linked_offer.
Proof.
  eexists _, _, _. split; [apply (solo_runs w0 ∅); vm_compute; reflexivity|]. split; [reflexivity|]. split.
  { intros s. rewrite !elem_of_cons, elem_of_nil. intros H. repeat destruct H as [H|H]; try discriminate H; try done. by injection H. }
  split; [vm_compute; reflexivity|]. split; vm_compute; reflexivity.
Qed.
