(** C75-C79 and C83-C87: the wallet's side of issuance. *)
From Verif Require Import Base Json CoreModel VcModel Prog ProgFacts ExecSpec Sched Sha256 IssuerTypes
  MatcherModel VerifierModel HolderModel HolderSpec HolderExec HolderRuns HolderSerial HolderProps HolderExample.
From Verif Require IssuerExample.
Import IssuerExample.

Definition two_ids : list string := ["EmployeeID_JWT"; "Developer_JWT"].
Definition employee_only : option (list auth_spec) := Some [AuthSpec "EmployeeID_JWT" None].
(** The wallet and the issuer: an offer with a transaction code, accepted in part; the code,
    the token, one credential; the credential is saved. *)
Definition happy : hconfig :=
  hafter hw0 (hserially [HOffer "client" "sub" (ex_offer true two_ids); HAccept "id0" employee_only;
    HPin "id0" "123456"; HToken "id0";
    HCredentials (CredentialsRequest "id0" (Some ["EmployeeID_JWT_1"]) None); HSave "id0"]).
(** The same offer with the authorization code. *)
Definition happy_code : hconfig :=
  hafter (HWorld ex_issuer ex_server (issuer_answers w0 [ex_creates false two_ids]) [] (ex_vprequest [])
            (λ _ _, None))
    (hserially [HOffer "client" ex_subject (ex_offer false two_ids); HAccept "id0" employee_only;
      HAuthorize (AuthorizeRequest (ByIssuer "id0") (Some ex_redirect) None)]).
(** Started by the wallet. *)
Definition happy_wallet : hconfig :=
  hafter (HWorld ex_issuer ex_server (issuer_answers w0 []) [] (ex_vprequest []) (λ _ _, None))
    (hserially [HAuthorize (AuthorizeRequest (ByWallet "client" ex_iss None ex_subject) (Some ex_redirect)
        (Some [AuthorizationDetail (ByConfigurationId "EmployeeID_JWT" None) None]));
      HCredentials (CredentialsRequest "id0" (Some ["EmployeeID_JWT_1"]) None)]).

(** C75.  Tokens. *)
Theorem C75_token_requests (c : hconfig) n i tr r : hreach c → made c n i (HX (EToken tr r)) →
  (∃ id cl sb o md a n2 gr g pin, asked c i (HToken id) ∧ offer_accepted c n id cl sb o md a n2 ∧ a ≠ Some [] ∧
     of_grants o = Some gr ∧ gr_pre_authorized_code gr = Some g ∧
     tr = TokenRequest (is_credential_issuer md) (Some cl) (TGPreAuthorizedCode (pg_code g) pin)
            (tr_authorization_details tr) ∧
     asks_as_specified a (tr_authorization_details tr) ∧
     match pg_tx_code g with
     | None => pin = None
     | Some _ => ∃ n3 i3 p, n2 < n3 < n ∧ asked c i3 (HPin id p) ∧ saved c n3 i3 id ∧ pin = Some p
     end) ∨
  (∃ z, asked c i (HAuthorize z) ∧ (tr_authorization_details tr = hz_details z) ∧
     (∃ m m' req resp verifier, m < n ∧ made c m i (HX (EAuthorization req (Some resp))) ∧
        m' < n ∧ made c m' i (HX (EVerifier verifier)) ∧
        ro_code_challenge req = code_challenge verifier ∧ ro_redirect_uri req = hz_redirect_uri z ∧
        tr_credential_issuer tr = ro_credential_issuer req ∧ tr_client_id tr = Some (ro_client_id req) ∧
        tr_grant tr = TGAuthorizationCode (ar_code resp) (hz_redirect_uri z) (Some verifier)) ∧
     match hz_initiator z with
     | ByIssuer id => ∃ cl sb o md a n2, offer_accepted c n id cl sb o md a n2 ∧ a ≠ Some [] ∧
         tr_credential_issuer tr = is_credential_issuer md ∧ tr_client_id tr = Some cl ∧
         ∀ gr, of_grants o = Some gr → gr_authorization_code gr ≠ None
     | ByWallet cl iss _ _ => tr_client_id tr = Some cl ∧
         ∃ m md, m < n ∧ made c m i (HX (EMetadata iss (Some md))) ∧ tr_credential_issuer tr = is_credential_issuer md
     end).
Proof. intros Hr. exact (token_request_made c Hr n i tr r). Qed.
Print Assumptions C75_token_requests.

(** Authorization. *)
Theorem C75_authorization_requests (c : hconfig) n i req r : hreach c → made c n i (HX (EAuthorization req r)) →
  ∃ z m verifier, asked c i (HAuthorize z) ∧ m < n ∧ made c m i (HX (EVerifier verifier)) ∧
    ro_code_challenge req = code_challenge verifier ∧ ro_redirect_uri req = hz_redirect_uri z ∧
    match hz_initiator z with
    | ByIssuer id => ∃ cl sb o md a n2, offer_accepted c n id cl sb o md a n2 ∧ a ≠ Some [] ∧
        ro_credential_issuer req = is_credential_issuer md ∧ ro_client_id req = cl ∧ ro_subject_id req = sb ∧
        ro_state req = Some id ∧ ro_scope req = None ∧
        (∀ gr, of_grants o = Some gr → ∃ ag, gr_authorization_code gr = Some ag ∧
           ro_issuer_state req = ag_issuer_state ag) ∧
        match hz_details z with
        | Some ds => ro_authorization_details req = Some ds
        | None => ∃ ds, ro_authorization_details req = Some ds ∧ map detail_id ds = map Some (of_configuration_ids o)
        end
    | ByWallet cl iss sc sb => ro_client_id req = cl ∧ ro_subject_id req = sb ∧ ro_scope req = sc ∧
        ro_issuer_state req = None ∧
        (ro_authorization_details req = match sc with Some _ => None | None => hz_details z end) ∧
        ∃ m md, m < n ∧ made c m i (HX (EMetadata iss (Some md))) ∧ ro_credential_issuer req = is_credential_issuer md
    end.
Proof. intros Hr. exact (authorization_request_made c Hr n i req r). Qed.
Print Assumptions C75_authorization_requests.

(** Credentials: with a token received earlier for the same issuance, at the issuer that
    gave it. *)
Theorem C75_credential_requests (c : hconfig) n i cq r : hreach c → made c n i (HX (ECredential cq r)) →
  ∃ q m j tr tok, asked c i (HCredentials q) ∧ m < n ∧ token_call_for c j (hc_issuance_id q) ∧
    made c m j (HX (EToken tr (Some tok))) ∧ cr_access_token cq = trs_access_token tok ∧
    cr_credential_issuer cq = tr_credential_issuer tr.
Proof. intros Hr. exact (credential_request_made c Hr n i cq r). Qed.
Print Assumptions C75_credential_requests.
Theorem C75_deferred_requests (c : hconfig) n i dq r : hreach c → made c n i (HX (EDeferred dq r)) →
  ∃ id tx cfg m j tr tok, asked c i (HDeferred id tx cfg) ∧ m < n ∧ token_call_for c j id ∧
    made c m j (HX (EToken tr (Some tok))) ∧
    dq = DeferredRequest (tr_credential_issuer tr) (trs_access_token tok) tx.
Proof. intros Hr. exact (deferred_request_made c Hr n i dq r). Qed.
Print Assumptions C75_deferred_requests.

Example C75_example : hreach happy ∧ hreach happy_code ∧ hreach happy_wallet ∧
  (∃ n tr tok, made happy n 3 (HX (EToken tr (Some tok)))) ∧
  (∃ n req resp, made happy_code n 2 (HX (EAuthorization req (Some resp)))) ∧
  (∃ n tr tok, made happy_code n 2 (HX (EToken tr (Some tok)))) ∧
  (∃ n tr tok, made happy_wallet n 0 (HX (EToken tr (Some tok)))) ∧
  (∃ n cq resp, made happy n 4 (HX (ECredential cq (Some resp)))) ∧
  ∃ n cq resp, made happy_wallet n 1 (HX (ECredential cq (Some resp))).
Proof.
  split; [apply hafter_reach|]. split; [apply hafter_reach|]. split; [apply hafter_reach|].
  split; [eexists 9, _, _, true; vm_compute; reflexivity|].
  split; [eexists 8, _, _, true; vm_compute; reflexivity|].
  split; [eexists 9, _, _, true; vm_compute; reflexivity|].
  split; [eexists 5, _, _, true; vm_compute; reflexivity|].
  split; [eexists 14, _, _, true; vm_compute; reflexivity|].
  eexists 10, _, _, true; vm_compute; reflexivity.
Qed.

(** C76.  The token request asks for exactly what was passed to [accept]; if that was on
    offer, so is everything asked for.  What is missing: [accept] takes anything. *)
Theorem C76_token_asks_what_was_accepted_partial (c : hconfig) n i tr r id : hreach c →
  asked c i (HToken id) → made c n i (HX (EToken tr r)) →
  ∃ cl sb o md a n2, offer_accepted c n id cl sb o md a n2 ∧ asks_as_specified a (tr_authorization_details tr) ∧
    ((∀ l s, a = Some l → s ∈ l → as_configuration_id s ∈ of_configuration_ids o) →
     on_offer o (tr_authorization_details tr)).
Proof. exact (token_asks_accepted c n i tr r id). Qed.
Print Assumptions C76_token_asks_what_was_accepted_partial.
(** With the authorization code the wallet asks for the whole offer, unless the caller names
    details. *)
Theorem C76_authorization_asks_the_offer_partial (c : hconfig) n i req r z id : hreach c →
  asked c i (HAuthorize z) → hz_initiator z = ByIssuer id → hz_details z = None →
  made c n i (HX (EAuthorization req r)) →
  ∃ cl sb o md a n2 ds, offer_accepted c n id cl sb o md a n2 ∧ ro_authorization_details req = Some ds ∧
    map detail_id ds = map Some (of_configuration_ids o).
Proof. exact (authorization_asks_offer c n i req r z id). Qed.
Print Assumptions C76_authorization_asks_the_offer_partial.
Example C76_example : hreach happy ∧ asked happy 3 (HToken "id0") ∧
  (∃ tr r, made happy 9 3 (HX (EToken tr r)) ∧ ∃ ds, tr_authorization_details tr = Some ds ∧ length ds = 1) ∧
  hreach happy_code ∧ asked happy_code 2 (HAuthorize (AuthorizeRequest (ByIssuer "id0") (Some ex_redirect) None)) ∧
  ∃ req r, made happy_code 8 2 (HX (EAuthorization req r)).
Proof.
  split; [apply hafter_reach|]. split; [eexists; vm_compute; reflexivity|].
  split; [eexists _, _; split; [exists true; vm_compute; reflexivity|]; eexists; split; reflexivity|].
  split; [apply hafter_reach|]. split; [eexists; vm_compute; reflexivity|].
  eexists _, _, true; vm_compute; reflexivity.
Qed.

(** A credential that is not on offer, and that the issuer does not know, is accepted and
    asked for. *)
Definition c76_world : hconfig :=
  hafter hw0 (hserially [HOffer "client" "sub" (ex_offer true two_ids); HAccept "id0" (Some [AuthSpec "Diploma" None]);
    HPin "id0" "123456"; HToken "id0"]).
Theorem C76_not_on_offer_refuted : ∃ (c : hconfig) i id cl sb o n j tr r ds d x,
  hreach c ∧ asked c i (HOffer cl sb o) ∧ (∃ n1, saved c n1 i id) ∧ asked c j (HToken id) ∧
  made c n j (HX (EToken tr r)) ∧ tr_authorization_details tr = Some ds ∧ d ∈ ds ∧ detail_id d = Some x ∧
  x ∉ of_configuration_ids o ∧
  ∀ k m iss md, made c m k (HX (EMetadata iss (Some md))) → assoc x (is_configurations md) = None.
Proof.
  eexists c76_world, 0, "id0", "client", "sub", _, 9, 3, _, _, _, _, "Diploma".
  split; [apply hafter_reach|]. split; [eexists; vm_compute; reflexivity|].
  split; [eexists 3, _, _, _; vm_compute; reflexivity|]. split; [eexists; vm_compute; reflexivity|].
  split; [exists true; vm_compute; reflexivity|]. split; [reflexivity|]. split; [by left|]. split; [reflexivity|].
  split; [apply (bool_decide_unpack _); vm_compute; exact I|].
  intros k m iss md [eff Hm]. apply elem_of_list_lookup_2 in Hm.
  assert (∀ en, en ∈ c_log c76_world → match e_ev en with
     | EExt (EMetadata _ (Some md)) => assoc "Diploma" (is_configurations md) = None | _ => True end) as H.
  { apply Forall_forall. vm_compute. repeat constructor. }
  exact (H _ Hm).
Qed.
Print Assumptions C76_not_on_offer_refuted.
(** With the authorization code the wallet asks for credentials the user left out. *)
Theorem C76_more_than_accepted_refuted : ∃ (c : hconfig) id i j n l req r ds d x,
  hreach c ∧ asked c i (HAccept id (Some l)) ∧ (∃ m, m < n ∧ saved c m i id) ∧
  asked c j (HAuthorize (AuthorizeRequest (ByIssuer id) (Some ex_redirect) None)) ∧
  made c n j (HX (EAuthorization req r)) ∧ ro_authorization_details req = Some ds ∧ d ∈ ds ∧
  detail_id d = Some x ∧ x ∉ map as_configuration_id l.
Proof.
  eexists happy_code, "id0", 1, 2, 8, _, _, _, _, _, "Developer_JWT".
  split; [apply hafter_reach|]. split; [eexists; vm_compute; reflexivity|].
  split; [exists 5; split; [lia|]; eexists _, _, _; vm_compute; reflexivity|].
  split; [eexists; vm_compute; reflexivity|]. split; [exists true; vm_compute; reflexivity|].
  split; [reflexivity|]. split; [right; by left|]. split; [reflexivity|].
  apply (bool_decide_unpack _); vm_compute; exact I.
Qed.
Print Assumptions C76_more_than_accepted_refuted.

(** C77.  A call of [credentials] that succeeds asks once for each wanted identifier, in
    order, and stores everything it received.  What is missing: against an issuer that wants
    key proofs it does not succeed (P_Compose). *)
Theorem C77_all_asked_and_kept_partial r es resp : runs (h_credentials r) es (Ok resp) →
  ∃ i v, HGet (hc_issuance_id r) (Some (HSIssuance i)) ∈ es ∧
    HPut (hi_id i) (HSIssuance v) end_of_time true ∈ es ∧ hi_id v = hi_id i ∧
    map (λ c, KString (wc_issued c)) (hi_credentials v) =
      map (λ c, KString (wc_issued c)) (hi_credentials i) ++ concat (map credentials_in (responses es)) ∧
    (∀ a tx, a ∈ responses es → wr_response a = WRTransactionId tx → is_Some (assoc tx (hi_deferred v))) ∧
    (∀ tx, is_Some (assoc tx (hi_deferred i)) → is_Some (assoc tx (hi_deferred v))) ∧
    (hi_scope i = None → ∃ ds, trs_authorization_details (hi_token i) = Some ds ∧
       identifiers_asked es = wanted_identifiers r ds) ∧
    resp = CredentialsResponse (hi_id i) (match hi_deferred v with [] => None | l => Some l end).
Proof. exact (credentials_kept r es resp). Qed.
Print Assumptions C77_all_asked_and_kept_partial.
(** What the wallet stores in the course of issuance and presentation does not expire. *)
Theorem C77_kept_for_good (c : hconfig) n i k v x b : hreach c → made c n i (HPut k v x b) → x = end_of_time.
Proof. exact (kept_for_good c n i k v x b). Qed.
Print Assumptions C77_kept_for_good.
(** The issuer of this world gives a credential, and a transaction for later. *)
Definition mixed_issuer (q : irequest) : option ireply :=
  match q with
  | QToken _ => Some (RToken (TokenResponse "token" 900 (Some "nonce") None (Some
      [AuthorizedDetail (AuthorizationDetail (ByConfigurationId "EmployeeID_JWT" None) None) ["first"; "second"]])))
  | QCredential r =>
      Some (RCredential (CredentialResponse
        (match cr_credential r with CIIdentifier "first" => CRCredential (KString "vc") | _ => CRTransactionId "txn" end)
        None None None))
  | QDeferred r => Some (RDeferred (CredentialResponse (CRCredential (KString "later")) None None None))
  | _ => None
  end.
Definition hw_mixed : hworld :=
  HWorld ex_issuer ex_server (λ _, mixed_issuer) [] (ex_vprequest []) (λ _ _, None).
Definition mixed : hconfig :=
  hafter hw_mixed (hserially [HOffer "client" "sub" (ex_offer false two_ids); HAccept "id0" None; HToken "id0";
    HCredentials (CredentialsRequest "id0" None None); HSave "id0"; HSave "id0"; HDeferred "id0" "txn" "EmployeeID_JWT";
    HSave "id0"]).
Definition mixed_store : gmap string hstate := store_after ∅ (take 9 (c_log mixed)).
Example C77_example : ∃ r es resp, runs (h_credentials r) es (Ok resp) ∧ length (responses es) = 2 ∧
  identifiers_asked es = ["first"; "second"] ∧ concat (map credentials_in (responses es)) = [KString "vc"].
Proof.
  eexists (CredentialsRequest "id0" None None), _, _. split; [|split; [|split]].
  - eapply (hsolo_runs hw_mixed mixed_store). vm_compute. reflexivity.
  - vm_compute. reflexivity.
  - vm_compute. reflexivity.
  - vm_compute. reflexivity.
Qed.

(** C78. *)
Theorem C78_saves_all_in_order_partial id es r : runs (h_save id) es (Ok r) →
  ∃ i, HGet id (Some (HSIssuance i)) ∈ es ∧ stored_credentials es = hi_credentials i ∧
    (HPurge id true ∈ es ↔ hi_deferred i = []).
Proof. exact (save_stores id es (Ok r)). Qed.
Print Assumptions C78_saves_all_in_order_partial.
(** A save that fails has saved the credentials up to the failure, and forgets nothing. *)
Theorem C78_failed_save_keeps_issuance_partial id es o : runs (h_save id) es o → (∀ r, o ≠ Ok r) →
  HPurge id true ∉ es ∧ (stored_credentials es = [] ∨
    ∃ i, HGet id (Some (HSIssuance i)) ∈ es ∧ stored_credentials es `prefix_of` hi_credentials i).
Proof. exact (save_failed id es o). Qed.
Print Assumptions C78_failed_save_keeps_issuance_partial.
(** Once the issuance is removed, by [save], [cancel] or [deferred], no later call finds
    it, so nothing of it is saved again. *)
Theorem C78_forgotten_partial (c : hconfig) n i k b : hreach c → hfresh (c_log c) → one_at_a_time (c_log c) →
  c_log c !! n = Some (Entry i (HPurge k b) true) →
  ∀ m j v, made c m j (HGet k (Some v)) → m < n.
Proof. intros Hr. exact (stays_removed c Hr n i k b). Qed.
Print Assumptions C78_forgotten_partial.
Example C78_example : hreach happy ∧ hfresh (c_log happy) ∧ one_at_a_time (c_log happy) ∧
  c_log happy !! 20 = Some (Entry 5 (HPurge "id0" true) true) ∧
  (∃ st es r, runs (h_save "id0") es (Ok r) ∧ HGet "id0" (Some st) ∈ es ∧ length (stored_credentials es) = 1) ∧
  ∃ es e, runs (h_save "id0") es (Err e).
Proof.
  split; [apply hafter_reach|]. split; [apply hfreshb_hfresh; vm_compute; reflexivity|].
  split; [apply sorted_one_at_a_time; vm_compute; reflexivity|].
  split; [vm_compute; reflexivity|]. split.
  - eexists _, _, _. split; [eapply (hsolo_runs hw0 (store_after ∅ (take 18 (c_log happy)))); vm_compute; reflexivity|].
    split; [by left|vm_compute; reflexivity].
  - eexists _, _. eapply (hsolo_runs hw0 ∅). vm_compute. reflexivity.
Qed.
(** While a transaction is deferred, the same credential is saved by every call. *)
Theorem C78_saved_twice_refuted : ∃ (c : hconfig) id cr i j a b, hreach c ∧ hfresh (c_log c) ∧ i ≠ j ∧
  asked c i (HSave id) ∧ asked c j (HSave id) ∧ made c a i (HX (ESave cr true)) ∧ made c b j (HX (ESave cr true)) ∧
  concat (map credentials_in (responses (map e_ev (c_log c)))) = [KString (wc_issued cr)].
Proof.
  eexists mixed, "id0", _, 4, 5, 18, 20. split; [apply hafter_reach|].
  split; [apply hfreshb_hfresh; vm_compute; reflexivity|]. split; [done|].
  split; [eexists; vm_compute; reflexivity|]. split; [eexists; vm_compute; reflexivity|].
  split; [exists true; vm_compute; reflexivity|]. split; [exists true; vm_compute; reflexivity|].
  vm_compute. reflexivity.
Qed.
Print Assumptions C78_saved_twice_refuted.

(** C79.  A call that fails writes nothing; a failing offer may leave the record it made
    under its own new identifier. *)
Theorem C79_failed_calls_change_nothing (c : hconfig) i q o : hreach c → answered c i q o → (∀ a, o ≠ Ok a) →
  ∀ n e eff, c_log c !! n = Some (Entry i e eff) → wrote e = true →
    ∃ cl sb of id v x m, q = HOffer cl sb of ∧ e = HPut id v x true ∧ m < n ∧ made c m i (HX (EUuid id)).
Proof. intros Hr. exact (failed_call c Hr i q o). Qed.
Print Assumptions C79_failed_calls_change_nothing.
Definition c79_world : hconfig :=
  hafter hw0 (hserially [HOffer "client" "sub" (CredentialOffer ex_iss ["Diploma"] None);
    HOffer "client" "sub" (ex_offer true two_ids); HToken "id4"; HAccept "id0" None]).
Example C79_example : hreach c79_world ∧
  (∃ e, answered c79_world 0 (HOffer "client" "sub" (CredentialOffer ex_iss ["Diploma"] None)) (Err e)) ∧
  (∃ e, answered c79_world 2 (HToken "id4") (Err e)) ∧
  (** the refused offer was stored, and can be accepted *)
  ∃ x, answered c79_world 3 (HAccept "id0" None) (Ok x).
Proof.
  split; [apply hafter_reach|]. split; [eexists; vm_compute; reflexivity|].
  split; [eexists; vm_compute; reflexivity|]. eexists; vm_compute; reflexivity.
Qed.

(** C83.  A notification identifier that was recorded is used, after everything was saved.
    But none is ever recorded: *)
Theorem C83_save_tells_the_issuer_partial id es r : runs (h_save id) es (Ok r) →
  ∃ i, HGet id (Some (HSIssuance i)) ∈ es ∧
    ∀ n, hi_notification_id i = Some n →
      ∃ h h', es = h ++ HX (ENotify (NotificationRequest (is_credential_issuer (hi_issuer i))
        (trs_access_token (hi_token i)) n) CredentialAccepted true) :: h' ∧ stored_credentials h = hi_credentials i.
Proof. exact (save_told id es r). Qed.
Print Assumptions C83_save_tells_the_issuer_partial.
Theorem C83_no_notification_refuted :
  (∀ (c : hconfig) n i q e b, hreach c → ¬ made c n i (HX (ENotify q e b))) ∧
  ∃ (c : hconfig) i j id n cq resp r, hreach c ∧ made c n i (HX (ECredential cq (Some resp))) ∧
    wr_notification_id resp ≠ None ∧ asked c i (HCredentials (CredentialsRequest id (Some ["EmployeeID_JWT_1"]) None)) ∧
    answered c j (HSave id) (Ok r) ∧ ∃ m cr, made c m j (HX (ESave cr true)).
Proof.
  split; [intros c n i q e b Hr; exact (never_notified c Hr n i q e b)|].
  eexists happy, 4, 5, "id0", 14, _, _, _. split; [apply hafter_reach|]. split; [exists true; vm_compute; reflexivity|].
  split; [done|]. split; [eexists; vm_compute; reflexivity|]. split; [vm_compute; reflexivity|].
  eexists 19, _, true. vm_compute. reflexivity.
Qed.
Print Assumptions C83_no_notification_refuted.
Definition c83_issuance : issuance :=
  Issuance "id" "client" "sub" STokenReceived (ex_offer true two_ids) ex_issuer ex_server None None None None
    (TokenResponse "token" 900 None None None) None [] (Some "note") [ex_wcredential "vc"].
Example C83_example : ∃ es r, runs (h_save "id") es (Ok r) ∧ HGet "id" (Some (HSIssuance c83_issuance)) ∈ es ∧
  hi_notification_id c83_issuance = Some "note".
Proof.
  eexists _, _. split; [eapply (hsolo_runs hw0 {["id" := HSIssuance c83_issuance]}); vm_compute; reflexivity|].
  split; [by left|done].
Qed.

(** C84.  What is sent to the token endpoint answers what was sent to the authorization
    endpoint: code, redirect URI, client, and the verifier whose challenge was sent. *)
Theorem C84_verifier_answers_the_challenge (c : hconfig) n i tr r code ru v : hreach c →
  made c n i (HX (EToken tr r)) → tr_grant tr = TGAuthorizationCode code ru v →
  ∃ m m' req resp verifier, m < n ∧ made c m i (HX (EAuthorization req (Some resp))) ∧
    m' < n ∧ made c m' i (HX (EVerifier verifier)) ∧ v = Some verifier ∧
    ro_code_challenge req = code_challenge verifier ∧ code = ar_code resp ∧ ru = ro_redirect_uri req ∧
    tr_credential_issuer tr = ro_credential_issuer req ∧ tr_client_id tr = Some (ro_client_id req).
Proof. exact (pkce_answered c n i tr r code ru v). Qed.
Print Assumptions C84_verifier_answers_the_challenge.
Example C84_example : hreach happy_code ∧ ∃ tr tok code ru v,
  made happy_code 9 2 (HX (EToken tr (Some tok))) ∧ tr_grant tr = TGAuthorizationCode code ru v.
Proof.
  split; [apply hafter_reach|]. eexists _, _, _, _, _. split; [exists true; vm_compute; reflexivity|reflexivity].
Qed.

(** C85.  The audience of a key proof is the issuer of the offer, and the nonce is one this
    issuer gave for this issuance.  What is missing: an issuance started by the wallet, where
    the audience is empty. *)
Theorem C85_proof_claims_partial (c : hconfig) n i pc r : hreach c → made c n i (HX (ESignProof pc r)) →
  ∃ q, asked c i (HCredentials q) ∧
    ((∃ n1 i1 cl sb o, n1 < n ∧ asked c i1 (HOffer cl sb o) ∧ saved c n1 i1 (hc_issuance_id q) ∧
        pc_iss pc = Some cl ∧ pc_aud pc = of_credential_issuer o) ∨
     (∃ n1 i1 z cl iss sc sb, n1 < n ∧ asked c i1 (HAuthorize z) ∧ hz_initiator z = ByWallet cl iss sc sb ∧
        saved c n1 i1 (hc_issuance_id q) ∧ pc_iss pc = Some cl ∧ pc_aud pc = "")) ∧
    ∀ nonce, pc_nonce pc = Some nonce → ∃ m j, m < n ∧
      ((∃ tr tok, made c m j (HX (EToken tr (Some tok))) ∧ trs_c_nonce tok = Some nonce ∧
          token_call_for c j (hc_issuance_id q)) ∨
       (∃ q' cq resp, asked c j (HCredentials q') ∧ hc_issuance_id q' = hc_issuance_id q ∧
          made c m j (HX (ECredential cq (Some resp))) ∧ wr_c_nonce resp = Some nonce)).
Proof. intros Hr. exact (proof_claims_made c Hr n i pc r). Qed.
Print Assumptions C85_proof_claims_partial.
Example C85_example : hreach happy ∧ ∃ pc r nonce, made happy 13 4 (HX (ESignProof pc r)) ∧ pc_nonce pc = Some nonce ∧
  pc_aud pc = ex_iss.
Proof.
  split; [apply hafter_reach|]. eexists _, _, _. split; [exists true; vm_compute; reflexivity|]. done.
Qed.
Theorem C85_wallet_initiated_refuted : ∃ (c : hconfig) i j n z cl iss sc sb id pc r, hreach c ∧
  asked c i (HAuthorize z) ∧ hz_initiator z = ByWallet cl iss sc sb ∧ (∃ m, saved c m i id) ∧
  asked c j (HCredentials (CredentialsRequest id (Some ["EmployeeID_JWT_1"]) None)) ∧
  made c n j (HX (ESignProof pc r)) ∧ iss ≠ "" ∧ pc_aud pc = "".
Proof.
  eexists happy_wallet, 0, 1, 9, _, _, _, _, _, "id0", _, _. split; [apply hafter_reach|].
  split; [eexists; vm_compute; reflexivity|]. split; [reflexivity|].
  split; [eexists 6, _, _, _; vm_compute; reflexivity|]. split; [eexists; vm_compute; reflexivity|].
  split; [exists true; vm_compute; reflexivity|]. done.
Qed.
Print Assumptions C85_wallet_initiated_refuted.

(** C86.  No call panics as long as no metadata contains an empty list of response types, of
    challenge methods, or of display properties. *)
Theorem C86_no_panic_partial (c : hconfig) : hreach c →
  (∀ n i iss s, made c n i (HX (EServer iss (Some s))) →
     sv_response_types_supported s ≠ [] ∧ sv_code_challenge_methods_supported s ≠ Some []) →
  (∀ n i iss md id cfg, made c n i (HX (EMetadata iss (Some md))) → (id, cfg) ∈ is_configurations md →
     cc_display cfg ≠ Some []) →
  ∀ i q w, ¬ answered c i q (Panic w).
Proof. exact (no_panic c). Qed.
Print Assumptions C86_no_panic_partial.
Example C86_example : hreach happy ∧
  (∀ n i iss s, made happy n i (HX (EServer iss (Some s))) →
     sv_response_types_supported s ≠ [] ∧ sv_code_challenge_methods_supported s ≠ Some []) ∧
  (∀ n i iss md id cfg, made happy n i (HX (EMetadata iss (Some md))) → (id, cfg) ∈ is_configurations md →
     cc_display cfg ≠ Some []).
Proof.
  assert (∀ en, en ∈ c_log happy → match e_ev en with
     | EExt (EServer _ (Some s)) => s = ex_server
     | EExt (EMetadata _ (Some md)) => md = ex_issuer | _ => True end) as H.
  { apply Forall_forall. vm_compute. repeat constructor. }
  split; [apply hafter_reach|]. split.
  - intros n i iss s [eff Hm]. apply elem_of_list_lookup_2, H in Hm. simpl in Hm. by subst.
  - intros n i iss md id cfg [eff Hm] Hin. apply elem_of_list_lookup_2, H in Hm. simpl in Hm. subst.
    assert (∀ p, p ∈ is_configurations ex_issuer → cc_display p.2 ≠ Some []) as Hd.
    { apply Forall_forall. repeat constructor; done. }
    exact (Hd _ Hin).
Qed.
Definition poor : hconfig :=
  hafter (HWorld ex_issuer (Server None [RTCode] (Some [AuthorizationCode]) (Some []) None false) (λ _, mixed_issuer) []
            (ex_vprequest []) (λ _ _, None))
    (hserially [HAuthorize (AuthorizeRequest (ByWallet "client" ex_iss (Some "openid") ex_subject) None None)]).
Definition plain : hconfig :=
  hafter (HWorld (Issuer ex_iss None [("EmployeeID_JWT", CredentialConfiguration (cc_format ex_employee) None None (Some []))])
            ex_server (λ _, mixed_issuer) [] (ex_vprequest []) (λ _ _, None))
    (hserially [HOffer "client" "sub" (ex_offer false ["EmployeeID_JWT"]); HAccept "id0" None; HToken "id0";
      HCredentials (CredentialsRequest "id0" None None)]).
Theorem C86_panics_refuted :
  (∃ (c : hconfig) i z w, hreach c ∧ answered c i (HAuthorize z) (Panic w)) ∧
  ∃ (c : hconfig) i r w, hreach c ∧ answered c i (HCredentials r) (Panic w).
Proof.
  split; [eexists poor, 0, _, _|eexists plain, 3, _, _]; (split; [apply hafter_reach|vm_compute; reflexivity]).
Qed.
Print Assumptions C86_panics_refuted.

(** C87.  Everything saved was in an answer of the issuer to a request for this issuance, and
    its signature was verified. *)
Theorem C87_only_verified_credentials_are_saved (c : hconfig) n i cr b : hreach c → made c n i (HX (ESave cr b)) →
  ∃ id j q m1 m2 resp, asked c i (HSave id) ∧ asked c j q ∧
    ((∃ r, q = HCredentials r ∧ hc_issuance_id r = id) ∨ ∃ tx cfg, q = HDeferred id tx cfg) ∧
    m1 < n ∧ made c m1 j (HX (EVerifyVc (wc_issued cr) (Some (wc_vc cr, wc_issuance_date cr)))) ∧
    m2 < n ∧ ((∃ cq, made c m2 j (HX (ECredential cq (Some resp)))) ∨ ∃ dq, made c m2 j (HX (EDeferred dq (Some resp)))) ∧
    contains_token resp (wc_issued cr).
Proof. intros Hr. exact (saved_credentials_received c Hr n i cr b). Qed.
Print Assumptions C87_only_verified_credentials_are_saved.
Example C87_example : hreach mixed ∧ (∃ cr, made mixed 18 4 (HX (ESave cr true))) ∧
  ∃ n cr, made mixed n 7 (HX (ESave cr true)) ∧ wc_issued cr = "later".
Proof.
  split; [apply hafter_reach|]. split; [eexists _, true; vm_compute; reflexivity|].
  eexists 28, _. split; [exists true; vm_compute; reflexivity|reflexivity].
Qed.
