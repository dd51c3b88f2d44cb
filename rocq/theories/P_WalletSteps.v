(** C92-C99: when each step of the wallet goes through, and what it then records.  In each
    statement [es] are the provider calls that the step made, with their answers. *)
From Verif Require Import Base Json CoreModel VcModel Prog ProgFacts ExecSpec Sched Sha256 IssuerTypes
  MatcherModel VerifierModel HolderModel HolderSpec HolderExample WalletStepSpec HolderSteps CredentialSteps.
From Verif Require IssuerExample VerifierExample.
Import IssuerExample.

(** ** C92: offers *)
Theorem C92_offer_goes_through_iff cl sb o es r : runs (h_offer cl sb o) es r →
  (∃ y, r = Ok y) ↔ of_configuration_ids o ≠ [] ∧ smooth es ∧
    ∀ md id, HX (EMetadata (of_credential_issuer o) (Some md)) ∈ es → id ∈ of_configuration_ids o →
      is_Some (assoc id (is_configurations md)).
Proof. intros H. exact (proj1 (offer_exact cl sb o es r H)). Qed.
Print Assumptions C92_offer_goes_through_iff.
Theorem C92_offer_reported_and_recorded cl sb o es y : runs (h_offer cl sb o) es (Ok y) →
  ∃ id md srv v x,
    HX (EUuid id) ∈ es ∧ HX (EMetadata (of_credential_issuer o) (Some md)) ∈ es ∧
    HX (EServer (of_credential_issuer o) (Some srv)) ∈ es ∧ HPut id (HSIssuance v) x true ∈ es ∧
    or_issuance_id y = id ∧ or_issuer y = of_credential_issuer o ∧ or_grants y = of_grants o ∧
    (∀ k c, assoc k (or_offered y) = Some c ↔ k ∈ of_configuration_ids o ∧ assoc k (is_configurations md) = Some c) ∧
    hi_id v = id ∧ hi_client_id v = cl ∧ hi_subject_id v = sb ∧ hi_status v = SReady ∧ hi_offer v = o ∧
    hi_issuer v = md ∧ hi_server v = srv ∧ hi_scope v = None ∧ new_issuance v.
Proof. intros H. exact (proj2 (offer_exact cl sb o es (Ok y) H) y eq_refl). Qed.
Print Assumptions C92_offer_reported_and_recorded.
Definition two_ids : list string := ["EmployeeID_JWT"; "Developer_JWT"].
Example C92_example :
  (∃ es y, runs (h_offer "client" "sub" (ex_offer true two_ids)) es (Ok y) ∧ length (or_offered y) = 2) ∧
  (** nothing on offer *)
  (∃ es e, runs (h_offer "client" "sub" (ex_offer true [])) es (Err e)) ∧
  (** something the issuer does not support *)
  ∃ es e, runs (h_offer "client" "sub" (CredentialOffer ex_iss ["EmployeeID_JWT"; "Diploma"] None)) es (Err e).
Proof.
  split; [|split].
  - eexists _, _. split; [apply (hsolo_runs hw0 ∅); vm_compute; reflexivity|reflexivity].
  - eexists _, _. apply (hsolo_runs hw0 ∅). vm_compute. reflexivity.
  - eexists _, _. apply (hsolo_runs hw0 ∅). vm_compute. reflexivity.
Qed.

(** ** C93: accepting, and the transaction code *)
Theorem C93_accept_goes_through_iff id a es r : runs (h_accept id a) es r →
  (∃ y, r = Ok y) ↔ ∃ i, HGet id (Some (HSIssuance i)) ∈ es ∧ hi_status i = SReady ∧ a ≠ Some [] ∧
    (∀ l s, a = Some l → s ∈ l → as_claims s ≠ None →
       is_Some (assoc (as_configuration_id s) (is_configurations (hi_issuer i)))) ∧ smooth es.
Proof. intros H. exact (proj1 (accept_exact id a es r H)). Qed.
Print Assumptions C93_accept_goes_through_iff.
Theorem C93_acceptance_recorded id a es y : runs (h_accept id a) es (Ok y) →
  ∃ i v x, HGet id (Some (HSIssuance i)) ∈ es ∧ HPut (hi_id i) (HSIssuance v) x true ∈ es ∧
    y = hi_id i ∧ same_origin i v ∧ same_pkce i v ∧ same_received i v ∧ hi_pin v = hi_pin i ∧
    hi_token v = hi_token i ∧ asks_as_specified a (hi_accepted v) ∧
    (wants_code (hi_offer i) ∧ hi_status v = SPendingPin ∨ ¬ wants_code (hi_offer i) ∧ hi_status v = SAccepted).
Proof. intros H. exact (proj2 (accept_exact id a es (Ok y) H) y eq_refl). Qed.
Print Assumptions C93_acceptance_recorded.
Theorem C93_code_goes_through_iff id p es r : runs (h_pin id p) es r →
  (∃ y, r = Ok y) ↔ ∃ i, HGet id (Some (HSIssuance i)) ∈ es ∧ hi_status i = SPendingPin ∧ smooth es.
Proof. intros H. exact (proj1 (pin_exact id p es r H)). Qed.
Print Assumptions C93_code_goes_through_iff.
Theorem C93_code_recorded id p es y : runs (h_pin id p) es (Ok y) →
  ∃ i v x, HGet id (Some (HSIssuance i)) ∈ es ∧ HPut (hi_id i) (HSIssuance v) x true ∈ es ∧
    y = hi_id i ∧ same_origin i v ∧ same_pkce i v ∧ same_received i v ∧ hi_token v = hi_token i ∧
    hi_accepted v = hi_accepted i ∧ hi_pin v = Some p ∧ hi_status v = SAccepted.
Proof. intros H. exact (proj2 (pin_exact id p es (Ok y) H) y eq_refl). Qed.
Print Assumptions C93_code_recorded.
(** The store after the given calls. *)
Definition hstore (w : hworld) (l : list hrequest) : gmap string hstate := store_after ∅ (c_log (hafter w (hserially l))).
Definition offered : hrequest := HOffer "client" "sub" (ex_offer true two_ids).
Definition offered_plain : hrequest := HOffer "client" "sub" (ex_offer false two_ids).
Definition employee_only : option (list auth_spec) := Some [AuthSpec "EmployeeID_JWT" None].
Example C93_example :
  (∃ es y, runs (h_accept "id0" employee_only) es (Ok y)) ∧
  (∃ es y, runs (h_accept "id0" None) es (Ok y)) ∧
  (** an empty selection *)
  (∃ es e, runs (h_accept "id0" (Some [])) es (Err e)) ∧
  (** claims of a credential that is not supported *)
  (∃ es e, runs (h_accept "id0" (Some [AuthSpec "Diploma" (Some [])])) es (Err e)) ∧
  (∃ es y, runs (h_pin "id0" "1234") es (Ok y)) ∧
  (** a code that was not asked for *)
  ∃ es e, runs (h_pin "id0" "1234") es (Err e).
Proof.
  split; [|split; [|split; [|split; [|split]]]].
  - eexists _, _. apply (hsolo_runs hw0 (hstore hw0 [offered])). vm_compute. reflexivity.
  - eexists _, _. apply (hsolo_runs hw0 (hstore hw0 [offered_plain])). vm_compute. reflexivity.
  - eexists _, _. apply (hsolo_runs hw0 (hstore hw0 [offered])). vm_compute. reflexivity.
  - eexists _, _. apply (hsolo_runs hw0 (hstore hw0 [offered])). vm_compute. reflexivity.
  - eexists _, _. apply (hsolo_runs hw0 (hstore hw0 [offered; HAccept "id0" None])). vm_compute. reflexivity.
  - eexists _, _. apply (hsolo_runs hw0 (hstore hw0 [offered_plain; HAccept "id0" None])). vm_compute. reflexivity.
Qed.

(** ** C94: tokens *)
Theorem C94_token_goes_through_iff id es r : runs (h_token id) es r →
  (∃ y, r = Ok y) ↔ ∃ i g, HGet id (Some (HSIssuance i)) ∈ es ∧ hi_status i = SAccepted ∧
    (∃ gs, of_grants (hi_offer i) = Some gs ∧ gr_pre_authorized_code gs = Some g) ∧ smooth es ∧
    ∀ q tok ds d, HX (EToken q (Some tok)) ∈ es → trs_authorization_details tok = Some ds → d ∈ ds →
      ∃ k, stands_for (hi_issuer i) d k.
Proof. intros H. exact (proj1 (token_exact id es r H)). Qed.
Print Assumptions C94_token_goes_through_iff.
Theorem C94_token_kept_and_reported id es y : runs (h_token id) es (Ok y) →
  ∃ i q tok v x, HGet id (Some (HSIssuance i)) ∈ es ∧ HX (EToken q (Some tok)) ∈ es ∧
    HPut (hi_id i) (HSIssuance v) x true ∈ es ∧ ac_issuance_id y = hi_id i ∧
    same_origin i v ∧ same_pkce i v ∧ same_received i v ∧ hi_accepted v = hi_accepted i ∧ hi_pin v = hi_pin i ∧
    hi_token v = tok ∧ hi_status v = STokenReceived ∧
    match trs_authorization_details tok, ac_authorized y with
    | Some ds, Some m => reports (hi_issuer i) ds m
    | None, None => True
    | _, _ => False
    end.
Proof. intros H. exact (proj2 (token_exact id es (Ok y) H) y eq_refl). Qed.
Print Assumptions C94_token_kept_and_reported.
Example C94_example :
  (∃ es y m, runs (h_token "id0") es (Ok y) ∧ ac_authorized y = Some m ∧ map fst m = ["EmployeeID_JWT"]) ∧
  (** not accepted yet *)
  ∃ es e, runs (h_token "id0") es (Err e).
Proof.
  split.
  - eexists _, _, _. split; [|split].
    + apply (hsolo_runs (HWorld ex_issuer ex_server (issuer_answers w0 [ex_creates false two_ids]) [] (ex_vprequest []) (λ _ _, None))
        (hstore hw0 [offered_plain; HAccept "id0" employee_only])). vm_compute. reflexivity.
    + reflexivity.
    + reflexivity.
  - eexists _, _. apply (hsolo_runs hw0 (hstore hw0 [offered])). vm_compute. reflexivity.
Qed.

(** ** C95: authorization *)
Theorem C95_authorization_goes_through_iff r es o : runs (h_authorize r) es o →
  (∃ y, o = Ok y) ↔ ∃ i, begins r es i ∧ may_authorize r i ∧ something_to_ask r i ∧ complete_server (hi_server i) ∧
    smooth es ∧
    ∀ q tok ds d, HX (EToken q (Some tok)) ∈ es → trs_authorization_details tok = Some ds → d ∈ ds →
      ∃ k, stands_for (hi_issuer i) d k.
Proof. intros H. exact (proj1 (authorize_exact r es o H)). Qed.
Print Assumptions C95_authorization_goes_through_iff.
Theorem C95_authorization_recorded r es y : runs (h_authorize r) es (Ok y) →
  ∃ i q tok v x, begins r es i ∧ HX (EToken q (Some tok)) ∈ es ∧
    HPut (hi_id i) (HSIssuance v) x true ∈ es ∧ ac_issuance_id y = hi_id i ∧
    same_origin i v ∧ same_received i v ∧ hi_accepted v = hz_details r ∧ hi_pin v = hi_pin i ∧
    hi_token v = tok ∧ hi_status v = STokenReceived ∧
    (∃ verifier, HX (EVerifier verifier) ∈ es ∧ hi_code_verifier v = Some verifier ∧
       hi_code_challenge v = Some (code_challenge verifier)) ∧
    match trs_authorization_details tok, ac_authorized y with
    | Some ds, Some m => reports (hi_issuer i) ds m
    | None, None | Some [], None => True
    | _, _ => False
    end.
Proof. intros H. exact (proj1 (proj2 (authorize_exact r es (Ok y) H)) y eq_refl). Qed.
Print Assumptions C95_authorization_recorded.
(** An authorization request has a scope or details, never both and never neither. *)
Theorem C95_scope_or_details r es o q x : runs (h_authorize r) es o → HX (EAuthorization q x) ∈ es →
  ro_authorization_details q = None ↔ ro_scope q ≠ None.
Proof. intros H. exact (proj2 (proj2 (authorize_exact r es o H)) q x). Qed.
Print Assumptions C95_scope_or_details.
Definition hw_code : hworld :=
  HWorld ex_issuer ex_server (issuer_answers w0 [ex_creates false two_ids]) [] (ex_vprequest []) (λ _ _, None).
Definition by_user (sc : option string) (ds : option (list authorization_detail)) : authorize_request :=
  AuthorizeRequest (ByWallet "client" ex_iss sc ex_subject) (Some ex_redirect) ds.
Definition employee_detail : authorization_detail := AuthorizationDetail (ByConfigurationId "EmployeeID_JWT" None) None.
Example C95_example :
  (** an accepted offer *)
  (∃ es y, runs (h_authorize (AuthorizeRequest (ByIssuer "id0") (Some ex_redirect) None)) es (Ok y)) ∧
  (** started by the user, with details *)
  (∃ es y, runs (h_authorize (by_user None (Some [employee_detail]))) es (Ok y)) ∧
  (** with both, and with neither *)
  (∃ es e, runs (h_authorize (by_user (Some "openid") (Some [employee_detail]))) es (Err e)) ∧
  ∃ es e, runs (h_authorize (by_user None None)) es (Err e).
Proof.
  split; [|split; [|split]].
  - eexists _, _. apply (hsolo_runs hw_code (hstore hw_code [HOffer "client" ex_subject (ex_offer false two_ids);
      HAccept "id0" employee_only])). vm_compute. reflexivity.
  - eexists _, _. apply (hsolo_runs (HWorld ex_issuer ex_server (issuer_answers w0 []) [] (ex_vprequest []) (λ _ _, None)) ∅).
    vm_compute. reflexivity.
  - eexists _, _. apply (hsolo_runs hw_code ∅). vm_compute. reflexivity.
  - eexists _, _. apply (hsolo_runs hw_code ∅). vm_compute. reflexivity.
Qed.

(** ** C96: requests for credentials *)

(** By scope: one request, for the first configuration with the scope that was authorized
    and the format that is wanted. *)
Theorem C96_scope_goes_through_iff r es o i : runs (h_credentials r) es o →
  HGet (hc_issuance_id r) (Some (HSIssuance i)) ∈ es → hi_scope i ≠ None →
  (∃ y, o = Ok y) ↔ hi_status i = STokenReceived ∧ hc_identifiers r = None ∧ smooth es ∧
    ∃ f id c, hc_format r = Some f ∧ first_in_scope (hi_issuer i) (hi_scope i) f id c ∧
      ∀ q resp, HX (ECredential q (Some resp)) ∈ es → digestible c resp es.
Proof. intros H Hg Hs. exact (proj1 (scope_exact r es o H i Hg Hs)). Qed.
Print Assumptions C96_scope_goes_through_iff.
Theorem C96_scope_asked r es o i q x : runs (h_credentials r) es o →
  HGet (hc_issuance_id r) (Some (HSIssuance i)) ∈ es → hi_scope i ≠ None → HX (ECredential q x) ∈ es →
  hi_status i = STokenReceived ∧ hc_identifiers r = None ∧
  cr_credential_issuer q = is_credential_issuer (hi_issuer i) ∧ cr_access_token q = trs_access_token (hi_token i) ∧
  ∃ f id c, hc_format r = Some f ∧ first_in_scope (hi_issuer i) (hi_scope i) f id c ∧
    cr_credential q = CIFormat (cc_format c).
Proof. intros H Hg Hs. exact (proj1 (proj2 (scope_exact r es o H i Hg Hs)) q x). Qed.
Print Assumptions C96_scope_asked.
Theorem C96_scope_recorded r es y i : runs (h_credentials r) es (Ok y) →
  HGet (hc_issuance_id r) (Some (HSIssuance i)) ∈ es → hi_scope i ≠ None →
  ∃ f id c q resp v x, hc_format r = Some f ∧ first_in_scope (hi_issuer i) (hi_scope i) f id c ∧
    HX (ECredential q (Some resp)) ∈ es ∧ HPut (hi_id i) (HSIssuance v) x true ∈ es ∧ taken_in id resp i v ∧
    same_origin i v ∧ same_pkce i v ∧ hi_token v = hi_token i ∧ hi_accepted v = hi_accepted i ∧ hi_pin v = hi_pin i ∧
    hi_status v = hi_status i ∧ hi_notification_id v = hi_notification_id i.
Proof. intros H Hg Hs. exact (proj2 (proj2 (scope_exact r es (Ok y) H i Hg Hs)) y eq_refl). Qed.
Print Assumptions C96_scope_recorded.
(** By identifier (what is then asked for and kept is C77).  A configuration with an empty
    list of display names makes the wallet panic (C86), and is left aside here. *)
Theorem C96_identifiers_go_through_iff r es o i : runs (h_credentials r) es o →
  HGet (hc_issuance_id r) (Some (HSIssuance i)) ∈ es → hi_scope i = None → ¬ bare_display (hi_issuer i) →
  (∃ y, o = Ok y) ↔ hi_status i = STokenReceived ∧ smooth es ∧ all_digestible es ∧
    ∃ ds, trs_authorization_details (hi_token i) = Some ds ∧
      ∀ d, d ∈ ds → ∃ id, stands_for (hi_issuer i) d id ∧ is_Some (assoc id (is_configurations (hi_issuer i))).
Proof. intros H. exact (identifier_exact r es o H i). Qed.
Print Assumptions C96_identifiers_go_through_iff.
(** An issuer that gives a token without details, and then a credential. *)
Definition scope_answers (q : irequest) : option ireply :=
  match q with
  | QAuthorize _ => Some (RAuthorize (AuthorizationResponse "code" None ex_redirect))
  | QToken _ => Some (RToken (TokenResponse "token" 900 (Some "nonce") None None))
  | QCredential _ => Some (RCredential (CredentialResponse (CRCredential (KString "vc")) None None None))
  | _ => None
  end.
Definition hw_scope : hworld :=
  HWorld ex_issuer ex_server (λ _, scope_answers) [] (ex_vprequest []) (λ _ _, None).
Definition hw_mixed : hworld :=
  HWorld ex_issuer ex_server
    (λ _ q, match q with
     | QToken _ => Some (RToken (TokenResponse "token" 900 (Some "nonce") None (Some
         [AuthorizedDetail (AuthorizationDetail (ByConfigurationId "EmployeeID_JWT" None) None) ["first"; "second"]])))
     | QCredential r =>
         Some (RCredential (CredentialResponse
           (match cr_credential r with CIIdentifier "first" => CRCredential (KString "vc") | _ => CRTransactionId "txn" end)
           None None None))
     | QDeferred r => Some (RDeferred (CredentialResponse (CRCredential (KString "later")) None None None))
     | _ => None
     end) [] (ex_vprequest []) (λ _ _, None).
Definition scoped (sc : string) : gmap string hstate := hstore hw_scope [HAuthorize (by_user (Some sc) None)].
Definition tokened : gmap string hstate :=
  hstore hw_mixed [HOffer "client" "sub" (ex_offer false two_ids); HAccept "id0" None; HToken "id0"].
Example C96_example :
  (∃ es y i, runs (h_credentials (CredentialsRequest "id0" None (Some (cc_format ex_developer)))) es (Ok y) ∧
     HGet "id0" (Some (HSIssuance i)) ∈ es ∧ hi_scope i = Some "DeveloperCredential") ∧
  (** no format given *)
  (∃ es e i, runs (h_credentials (CredentialsRequest "id0" None None)) es (Err e) ∧
     HGet "id0" (Some (HSIssuance i)) ∈ es ∧ hi_scope i = Some "DeveloperCredential") ∧
  (** a scope that no configuration has *)
  (∃ es e i, runs (h_credentials (CredentialsRequest "id0" None (Some (cc_format ex_developer)))) es (Err e) ∧
     HGet "id0" (Some (HSIssuance i)) ∈ es ∧ hi_scope i = Some "openid") ∧
  (** by identifier *)
  (∃ es y i, runs (h_credentials (CredentialsRequest "id0" None None)) es (Ok y) ∧
     HGet "id0" (Some (HSIssuance i)) ∈ es ∧ hi_scope i = None ∧ ¬ bare_display (hi_issuer i)).
Proof.
  split; [|split; [|split]].
  - eexists _, _, _. split; [apply (hsolo_runs hw_scope (scoped "DeveloperCredential")); vm_compute; reflexivity|].
    split; [apply elem_of_list_lookup; exists 0; vm_compute; reflexivity|vm_compute; reflexivity].
  - eexists _, _, _. split; [apply (hsolo_runs hw_scope (scoped "DeveloperCredential")); vm_compute; reflexivity|].
    split; [apply elem_of_list_lookup; exists 0; vm_compute; reflexivity|vm_compute; reflexivity].
  - eexists _, _, _. split; [apply (hsolo_runs hw_scope (scoped "openid")); vm_compute; reflexivity|].
    split; [apply elem_of_list_lookup; exists 0; vm_compute; reflexivity|vm_compute; reflexivity].
  - eexists _, _, _. split; [apply (hsolo_runs hw_mixed tokened); vm_compute; reflexivity|].
    split; [apply elem_of_list_lookup; exists 0; vm_compute; reflexivity|].
    split; [vm_compute; reflexivity|]. intros (id & c & Hin & Hc). vm_compute in Hin.
    repeat (apply elem_of_cons in Hin as [[= -> ->]|Hin]; [done|]). by apply elem_of_nil in Hin.
Qed.

(** ** C97: deferred credentials *)
Theorem C97_deferred_goes_through_iff id tx cf es o : runs (h_deferred id tx cf) es o →
  (∃ y, o = Ok y) ↔ ∃ i cfg, HGet id (Some (HSIssuance i)) ∈ es ∧ hi_status i = STokenReceived ∧
    assoc cf (is_configurations (hi_issuer i)) = Some cfg ∧ smooth es ∧
    ∀ q resp, HX (EDeferred q (Some resp)) ∈ es → digestible cfg resp es.
Proof. intros H. exact (proj1 (deferred_exact id tx cf es o H)). Qed.
Print Assumptions C97_deferred_goes_through_iff.
(** The transaction asked about is gone from the record, and what came for it is there: the
    credentials, or a transaction to ask about next time.  The record is only discarded when
    nothing at all is left in it. *)
Theorem C97_deferred_recorded id tx cf es y : runs (h_deferred id tx cf) es (Ok y) →
  ∃ i q resp v, HGet id (Some (HSIssuance i)) ∈ es ∧ HX (EDeferred q (Some resp)) ∈ es ∧
    same_origin i v ∧ same_pkce i v ∧ hi_token v = hi_token i ∧ hi_accepted v = hi_accepted i ∧ hi_pin v = hi_pin i ∧
    hi_status v = hi_status i ∧ hi_notification_id v = hi_notification_id i ∧
    map (λ c, KString (wc_issued c)) (hi_credentials v) =
      map (λ c, KString (wc_issued c)) (hi_credentials i) ++ credentials_in resp ∧
    (∀ t, assoc t (hi_deferred v) =
       let before := if bool_decide (tx = t) then None else assoc t (hi_deferred i) in
       match wr_response resp with
       | WRTransactionId t' => if bool_decide (t' = t) then Some cf else before
       | _ => before
       end) ∧
    (hi_deferred v = [] ∧ hi_credentials v = [] ∧ HPurge (hi_id i) true ∈ es ∧ (∀ k w x b, HPut k w x b ∉ es) ∨
     (hi_deferred v ≠ [] ∨ hi_credentials v ≠ []) ∧ (∀ k b, HPurge k b ∉ es) ∧
       ∃ x, HPut (hi_id i) (HSIssuance v) x true ∈ es) ∧
    y = CredentialsResponse (hi_id i) (match hi_deferred v with [] => None | l => Some l end).
Proof. intros H. exact (proj2 (deferred_exact id tx cf es (Ok y) H) y eq_refl). Qed.
Print Assumptions C97_deferred_recorded.
Definition awaiting : gmap string hstate :=
  hstore hw_mixed [HOffer "client" "sub" (ex_offer false two_ids); HAccept "id0" None; HToken "id0";
    HCredentials (CredentialsRequest "id0" None None)].
Example C97_example :
  (∃ es y, runs (h_deferred "id0" "txn" "EmployeeID_JWT") es (Ok y)) ∧
  ∃ es e, runs (h_deferred "id0" "txn" "Diploma") es (Err e).
Proof.
  split; (eexists _, _; apply (hsolo_runs hw_mixed awaiting); vm_compute; reflexivity).
Qed.

(** ** C98: cancelling *)
Theorem C98_cancel_goes_through_iff id es o : runs (h_cancel id) es o →
  (∃ y, o = Ok y) ↔ ∃ i, HGet id (Some (HSIssuance i)) ∈ es ∧ smooth es.
Proof. intros H. exact (proj1 (cancel_exact id es o H)). Qed.
Print Assumptions C98_cancel_goes_through_iff.
Theorem C98_cancelled_is_discarded_and_reported id es o : runs (h_cancel id) es o →
  (∀ y, o = Ok y → HPurge id true ∈ es) ∧
  (∀ q e b, HX (ENotify q e b) ∈ es → ∃ i, HGet id (Some (HSIssuance i)) ∈ es ∧ e = CredentialDeleted ∧
     hi_notification_id i = Some (nr_notification_id q) ∧ nr_access_token q = trs_access_token (hi_token i)) ∧
  (∀ i n, HGet id (Some (HSIssuance i)) ∈ es → hi_notification_id i = Some n →
     ∃ q b, HX (ENotify q CredentialDeleted b) ∈ es).
Proof. intros H. exact (proj2 (cancel_exact id es o H)). Qed.
Print Assumptions C98_cancelled_is_discarded_and_reported.
Example C98_example :
  (∃ es y, runs (h_cancel "id0") es (Ok y)) ∧ ∃ es e, runs (h_cancel "id1") es (Err e).
Proof.
  split; (eexists _, _; apply (hsolo_runs hw_mixed awaiting); vm_compute; reflexivity).
Qed.

(** ** C99: presentations *)
Theorem C99_request_goes_through_iff url es o : runs (h_request url) es o →
  (∃ y, o = Ok y) ↔ smooth es ∧
    (∀ u ob, HX (ERequestObject u (Some ob)) ∈ es → ∃ jwt, ob = RoJwt jwt) ∧
    ∃ req f, (HX (EParseRequest url (Some req)) ∈ es ∨ ∃ jwt, HX (EDecodeRequest jwt (Some req)) ∈ es) ∧
      answerable req f.
Proof. intros H. exact (proj1 (request_exact url es o H)). Qed.
Print Assumptions C99_request_goes_through_iff.
Theorem C99_request_recorded url es y : runs (h_request url) es (Ok y) →
  ∃ id req f creds p x, HX (EUuid id) ∈ es ∧
    (HX (EParseRequest url (Some req)) ∈ es ∨
     ∃ u jwt, HX (ERequestObject u (Some (RoJwt jwt))) ∈ es ∧ HX (EDecodeRequest jwt (Some req)) ∈ es) ∧
    answerable req f ∧ HX (EFind f (Some creds)) ∈ es ∧ HPut id (HSPresentation p) x true ∈ es ∧
    p = Presentation id PRequested req creds f ∧
    hq_id y = id ∧ hq_status y = PRequested ∧ hq_credentials y = creds.
Proof. intros H. exact (proj2 (request_exact url es (Ok y) H) y eq_refl). Qed.
Print Assumptions C99_request_recorded.
Theorem C99_consent_goes_through_iff id es o : runs (h_consent id) es o →
  (∃ y, o = Ok y) ↔ ∃ p, HGet id (Some (HSPresentation p)) ∈ es ∧ hp_status p = PRequested ∧ smooth es.
Proof. intros H. exact (proj1 (consent_exact id es o H)). Qed.
Print Assumptions C99_consent_goes_through_iff.
Theorem C99_consent_recorded id es y : runs (h_consent id) es (Ok y) →
  y = PAuthorized ∧ ∃ p x, HGet id (Some (HSPresentation p)) ∈ es ∧
    HPut (hp_id p) (HSPresentation (Presentation (hp_id p) PAuthorized (hp_request p) (hp_credentials p) (hp_filter p)))
      x true ∈ es.
Proof. intros H. exact (proj2 (consent_exact id es (Ok y) H) y eq_refl). Qed.
Print Assumptions C99_consent_recorded.
(** A presentation that was consented to can be sent, but only if some input descriptor of
    the request has a const filter. *)
Theorem C99_sent_iff_partial id es o : runs (h_present id) es o →
  ((∃ y, o = Ok y) ↔ ∃ p d, HGet id (Some (HSPresentation p)) ∈ es ∧ hp_status p = PAuthorized ∧
     vo_definition (hp_request p) = KObject d ∧ has_const d ∧ smooth es) ∧
  (∀ y, o = Ok y → ∃ uri rr, HX (EPresent uri rr (Some y)) ∈ es).
Proof. exact (present_exact id es o). Qed.
Print Assumptions C99_sent_iff_partial.
(** A request with a pattern filter, which the verifier's own matcher has (C51): credentials
    are found for it and the user consents, and then no presentation can be made, whatever
    the providers answer. *)
Definition patterned : input_descriptor :=
  InputDescriptor "employee" None None None
    (Constraints (Some [Field ["$.type"] (Some (Filter "string" (FPattern "Employee.*"))) None])).
Definition unsendable : hconfig :=
  hafter (HWorld ex_issuer ex_server (λ _ _, None) [ex_wcredential "vc"] (ex_vprequest [patterned])
            (λ _ _, Some (ResponseResponse None None)))
    (hserially [HRequest "request_uri"; HConsent "id1"; HPresent "id1"]).
Theorem C99_consented_but_never_sent_refuted :
  (∃ (c : hconfig) i j id e, hreach c ∧ answered c i (HConsent id) (Ok (HRStatus PAuthorized)) ∧
     answered c j (HPresent id) (Err e) ∧ smooth (calls_of j (c_log c))) ∧
  ∀ id es o p d, runs (h_present id) es o → HGet id (Some (HSPresentation p)) ∈ es →
    vo_definition (hp_request p) = KObject d → ¬ has_const d → ¬ ∃ y, o = Ok y.
Proof.
  split.
  - eexists unsendable, 1, 2, "id1", _. split; [apply hafter_reach|].
    split; [vm_compute; reflexivity|]. split; [vm_compute; reflexivity|].
    assert (Forall (λ e : hevent, ¬ hfailed e) (calls_of 2 (c_log unsendable))) as Hf
      by (vm_compute; repeat constructor; exact (λ x, x)).
    intros ev Hin. exact (proj1 (Forall_forall _ _) Hf ev Hin).
  - exact present_needs_const.
Qed.
Print Assumptions C99_consented_but_never_sent_refuted.
Example C99_example : (∃ es y, runs (h_request "request_uri") es (Ok y)) ∧
  (∃ es y, runs (h_consent "id1") es (Ok y)) ∧
  (∃ es y, runs (h_present "id1") es (Ok y)) ∧
  (** consent without a request, sending without consent *)
  (∃ es e, runs (h_consent "id1") es (Err e)) ∧ ∃ es e, runs (h_present "id1") es (Err e).
Proof.
  split; [|split; [|split; [|split]]].
  - eexists _, _. apply (hsolo_runs hw0 ∅). vm_compute. reflexivity.
  - eexists _, _. apply (hsolo_runs hw0 (hstore hw0 [HRequest "request_uri"])). vm_compute. reflexivity.
  - eexists _, _. apply (hsolo_runs hw0 (hstore hw0 [HRequest "request_uri"; HConsent "id1"])). vm_compute. reflexivity.
  - eexists _, _. apply (hsolo_runs hw0 ∅). vm_compute. reflexivity.
  - eexists _, _. apply (hsolo_runs hw0 (hstore hw0 [HRequest "request_uri"])). vm_compute. reflexivity.
Qed.
