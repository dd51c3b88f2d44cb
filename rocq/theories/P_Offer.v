(** Properties C01-C05: creating and retrieving credential offers. *)
From Verif Require Import Base Json CoreModel VcModel Prog ProgFacts ExecSpec Sched IssuerTypes
  ClaimsModel Sha256 IssuerModel IssuerSpec IssuerOffer IssuerExample.

(** C01.  Whatever the provider answers, create_offer returns an offer exactly when both
    metadata are available, the request is one they allow, the metadata does not list an
    empty set of authorization servers, and no later call (authorizing the subject, saving)
    failed. *)
Theorem C01_offer_iff_valid r es o :
  runs (create_offer r) es o →
  ((∃ resp, o = Ok resp) ↔
   ∃ iss srv es', es = X (VIssuer (co_credential_issuer r) (Some iss)) ::
      X (VServer (co_credential_issuer r) None (Some srv)) :: es' ∧
    offer_valid iss srv r ∧ is_authorization_servers iss ≠ Some [] ∧
    ∀ e, e ∈ es' → ¬ failed e).
Proof. exact (create_offer_iff r es o). Qed.
Print Assumptions C01_offer_iff_valid.

(** Otherwise it returns an error, or, with an empty set of authorization servers, panics. *)
Theorem C01_panics_only_without_servers r es w :
  runs (create_offer r) es (Panic w) →
  ∃ iss, X (VIssuer (co_credential_issuer r) (Some iss)) ∈ es ∧ is_authorization_servers iss = Some [].
Proof. exact (create_offer_panics r es w). Qed.
Print Assumptions C01_panics_only_without_servers.

Example C01_example_ok : ∃ es resp, runs (create_offer (ex_create ByRef)) es (Ok resp).
Proof. eexists _, _. apply (solo_runs w0 ∅). vm_compute. reflexivity. Qed.
Example C01_example_err : ∃ es e,
  runs (create_offer (CreateOfferRequest ex_iss (Some ex_subject) ["unknown"] None false ByVal)) es (Err e).
Proof. eexists _, _. apply (solo_runs w0 ∅). vm_compute. reflexivity. Qed.
Example C01_example_panic : ∃ es e, runs (create_offer (ex_create ByVal)) es (Panic e).
Proof.
  eexists _, _. apply (solo_runs (World (λ _, Issuer ex_iss (Some []) (is_configurations ex_issuer))
    ex_server (λ _, 0%Z) (λ _, false) "") ∅). vm_compute. reflexivity.
Qed.

(** C02. *)
Theorem C02_offer_agrees_with_state r es resp :
  runs (create_offer r) es (Ok resp) →
  ∃ code o, X (VGen GAuthCode code) ∈ es ∧ offer_given r resp es o ∧
    (* the offer *)
    of_credential_issuer o = co_credential_issuer r ∧
    of_configuration_ids o = co_configuration_ids r ∧
    (is_Some (pre_grant o) ↔ requested r PreAuthorizedCode) ∧
    (is_Some (code_grant o) ↔ requested r AuthorizationCode) ∧
    (∀ g, pre_grant o = Some g →
       pg_code g = code ∧ (is_Some (pg_tx_code g) ↔ co_tx_code_required r = true)) ∧
    (∀ g, code_grant o = Some g → ag_issuer_state g = Some code) ∧
    (* the transaction code *)
    (is_Some (cor_tx_code resp) ↔ co_tx_code_required r = true ∧ requested r PreAuthorizedCode) ∧
    (∀ tx, cor_tx_code resp = Some tx → X (VGen GTxCode tx) ∈ es) ∧
    (* what is saved for the grants *)
    (requested r PreAuthorizedCode ∨ requested r AuthorizationCode →
       ∃ t items,
         X (VNow t) ∈ es ∧
         Put code (State (co_subject_id r) (Offered (Offer items (cor_tx_code resp)))
                     (t + minutes 5)%Z) (t + minutes 5)%Z true ∈ es ∧
         (¬ requested r PreAuthorizedCode → items = None) ∧
         (requested r PreAuthorizedCode → ∃ subject its,
            co_subject_id r = Some subject ∧ items = Some its ∧
            Forall2 (λ id it, ai_configuration_id it = id ∧
                       X (VAuthorize subject id (Some (ai_identifiers it))) ∈ es)
              (co_configuration_ids r) its)) ∧
    (* and nothing else *)
    (∀ k v x b, Put k v x b ∈ es → k = code ∧ (∃ off, s_stage v = Offered off) ∨ s_stage v = Pending o).
Proof. exact (create_offer_agrees r es resp). Qed.
Print Assumptions C02_offer_agrees_with_state.

(** The hypothesis is met by the example of C01, in which both grants are requested and a
    transaction code is required. *)
Example C02_example : ∃ es resp,
  runs (create_offer (ex_create ByVal)) es (Ok resp) ∧ cor_tx_code resp = Some "123456" ∧
  requested (ex_create ByVal) PreAuthorizedCode ∧ requested (ex_create ByVal) AuthorizationCode.
Proof.
  eexists _, _. split; [apply (solo_runs w0 ∅); vm_compute; reflexivity|].
  split; [reflexivity|]. split; eexists; (split; [reflexivity|]); set_solver.
Qed.

(** C03.  Two creations of an offer that differ at most in the transaction code give the
    wallet the same offer, inline or by link, and save the same offer for retrieval. *)
Theorem C03_offer_independent_of_tx_code r es es' resp resp' :
  runs (create_offer r) es (Ok resp) → runs (create_offer r) es' (Ok resp') →
  map hide_tx es = map hide_tx es' →
  cor_offer resp = cor_offer resp' ∧
  ∀ k v x b, (∃ o, s_stage v = Pending o) → Put k v x b ∈ es → Put k v x b ∈ es'.
Proof. exact (create_offer_hides_tx r es es' resp resp'). Qed.
Print Assumptions C03_offer_independent_of_tx_code.

Example C03_example : ∃ es es' resp resp',
  runs (create_offer (ex_create ByRef)) es (Ok resp) ∧
  runs (create_offer (ex_create ByRef)) es' (Ok resp') ∧
  map hide_tx es = map hide_tx es' ∧ cor_tx_code resp ≠ cor_tx_code resp'.
Proof.
  eexists _, _, _, _. split; [apply (solo_runs w0 ∅); vm_compute; reflexivity|].
  split; [apply (solo_runs (World (w_issuer w0) (w_server w0) (w_clock w0) (w_pending w0) "654321") ∅);
          vm_compute; reflexivity|].
  split; [reflexivity|discriminate].
Qed.

(** C04.  Retrieval succeeds exactly on an unexpired saved offer of the same issuer (to the
    precision of the clock comparison, one second), which it returns and removes. *)
Theorem C04_retrieval_iff r es o offer :
  runs (credential_offer_endpoint r) es o →
  (o = Ok offer ↔
   ∃ st t, es = [Get (cof_id r) (Some st); Purge (cof_id r) true; X (VNow t)] ∧
     (t < s_expires_at st + seconds 1)%Z ∧ s_stage st = Pending offer ∧
     of_credential_issuer offer = cof_credential_issuer r).
Proof. exact (credential_offer_iff r es o offer). Qed.
Print Assumptions C04_retrieval_iff.

(** In every execution, the offer returned is the one a create_offer request for the same
    issuer saved under the id it generated. *)
Theorem C04_returns_what_was_created (c : iconfig) i r o :
  ireach c → answered c i (QCredentialOffer r) (Ok (RCredentialOffer o)) →
  ∃ j r' p t, c_pool c !! j = Some (QCreateOffer r', p) ∧
    X (VGen GUriToken (cof_id r)) ∈ calls_of j (c_log c) ∧
    (∃ b, Put (cof_id r) (State (co_subject_id r') (Pending o) (t + minutes 5)%Z) (t + minutes 5)%Z b
       ∈ calls_of j (c_log c)) ∧
    of_credential_issuer o = co_credential_issuer r' ∧
    cof_credential_issuer r = co_credential_issuer r'.
Proof. exact (credential_offer_source c i r o). Qed.
Print Assumptions C04_returns_what_was_created.

Definition c04_world : iconfig :=
  after w0 (serially [QCreateOffer (ex_create ByRef);
                      QCredentialOffer (CredentialOfferRequest ex_iss "uri8");
                      QCredentialOffer (CredentialOfferRequest ex_iss "uri8")]).
Example C04_example : ireach c04_world ∧
  ∃ o, answered c04_world 1 (QCredentialOffer (CredentialOfferRequest ex_iss "uri8"))
         (Ok (RCredentialOffer o)).
Proof. split; [apply after_reach|]. eexists. vm_compute. reflexivity. Qed.

(** C05.  With generated values that do not repeat, two retrievals of one offer can only both
    succeed if they overlap in time, whatever other requests are interleaved, fail or crash,
    and however unreliable the store is. *)
Theorem C05_offer_retrieved_once (c : iconfig) i j ri rj oi oj :
  ireach c → fresh (c_log c) → i ≠ j →
  answered c i (QCredentialOffer ri) (Ok (RCredentialOffer oi)) →
  answered c j (QCredentialOffer rj) (Ok (RCredentialOffer oj)) →
  cof_id ri = cof_id rj → overlap (c_log c) i j.
Proof. exact (credential_offer_once c i j ri rj oi oj). Qed.
Print Assumptions C05_offer_retrieved_once.

(** Two overlapping retrievals do both succeed, so the hypotheses can be met ... *)
Definition c05_request : irequest := QCredentialOffer (CredentialOfferRequest ex_iss "uri8").
Definition c05_world : iconfig :=
  after w0 [Arrive (QCreateOffer (ex_create ByRef)); Finish 0 60; Arrive c05_request;
            Arrive c05_request; Steps 1 1; Steps 2 1; Finish 1 60; Finish 2 60].
Example C05_example_overlap : ireach c05_world ∧ fresh (c_log c05_world) ∧ ∃ o,
  answered c05_world 1 c05_request (Ok (RCredentialOffer o)) ∧
  answered c05_world 2 c05_request (Ok (RCredentialOffer o)).
Proof.
  split; [apply after_reach|]. split; [apply freshb_fresh; vm_compute; reflexivity|].
  eexists. split; vm_compute; reflexivity.
Qed.
(** ... and a second retrieval after the first fails. *)
Example C05_example_serial : ∃ o e,
  answered c04_world 1 c05_request (Ok (RCredentialOffer o)) ∧
  answered c04_world 2 c05_request (Err e) ∧ before (c_log c04_world) 1 2.
Proof.
  eexists _, _. split; [vm_compute; reflexivity|]. split; [vm_compute; reflexivity|].
  apply beforeb_before. vm_compute. reflexivity.
Qed.
