(** Properties C06-C11: redeeming codes for access tokens. *)
From Verif Require Import Base Json CoreModel VcModel Prog ProgFacts ExecSpec Sched IssuerTypes
  ClaimsModel Sha256 IssuerModel IssuerSpec IssuerOffer IssuerToken IssuerExpiry IssuerExample.

(** The world of the examples: an offer is created, retrieved, and redeemed; the access
    token is used. *)
Definition pre_world : iconfig :=
  after w0 (serially [QCreateOffer (ex_create ByVal);
                      QToken (ex_token_pre "code2" (Some "123456"));
                      QToken (ex_token_pre "code2" (Some "123456"))]).

(** C06. *)
Theorem C06_code_redeemed_once (c : iconfig) i j ri rj ti tj :
  ireach c → fresh (c_log c) → i ≠ j →
  answered c i (QToken ri) (Ok (RToken ti)) → answered c j (QToken rj) (Ok (RToken tj)) →
  presented ri = presented rj → overlap (c_log c) i j.
Proof. exact (token_once c i j ri rj ti tj). Qed.
Print Assumptions C06_code_redeemed_once.

(** Overlapping requests can redeem one code twice, for two different access tokens. *)
Definition c06_request : irequest := QToken (ex_token_pre "code2" (Some "123456")).
Definition c06_world : iconfig :=
  after w0 [Arrive (QCreateOffer (ex_create ByVal)); Finish 0 60; Arrive c06_request;
            Arrive c06_request; Steps 1 1; Steps 2 1; Finish 1 60; Finish 2 60].
Theorem C06_redeemed_twice_under_overlap : ∃ (c : iconfig) i j r ti tj,
  ireach c ∧ fresh (c_log c) ∧ i ≠ j ∧
  answered c i (QToken r) (Ok (RToken ti)) ∧ answered c j (QToken r) (Ok (RToken tj)) ∧
  trs_access_token ti ≠ trs_access_token tj.
Proof.
  eexists c06_world, 1, 2, _, _, _. split; [apply after_reach|].
  split; [apply freshb_fresh; vm_compute; reflexivity|]. split; [done|].
  split; [vm_compute; reflexivity|]. split; [vm_compute; reflexivity|]. discriminate.
Qed.
Print Assumptions C06_redeemed_twice_under_overlap.

Example C06_example_serial : ireach pre_world ∧ fresh (c_log pre_world) ∧ ∃ t e,
  answered pre_world 1 c06_request (Ok (RToken t)) ∧ answered pre_world 2 c06_request (Err e) ∧
  before (c_log pre_world) 1 2.
Proof.
  split; [apply after_reach|]. split; [apply freshb_fresh; vm_compute; reflexivity|].
  eexists _, _. split; [vm_compute; reflexivity|]. split; [vm_compute; reflexivity|].
  apply beforeb_before. vm_compute. reflexivity.
Qed.

(** C07.  Whatever the provider answers: *)
Theorem C07_tx_code_must_match r es resp code tx :
  runs (token r) es (Ok resp) → tr_grant r = TGPreAuthorizedCode code tx →
  ∃ st o items es', es = Get code (Some st) :: Purge code true :: es' ∧ s_stage st = Offered o ∧
    off_items o = Some items ∧ tx = off_tx_code o.
Proof. exact (token_tx r es resp code tx). Qed.
Print Assumptions C07_tx_code_must_match.

(** In an execution, the transaction code is the one that creating the offer returned. *)
Theorem C07_tx_code_is_the_one_created (c : iconfig) i r tr code tx :
  ireach c → answered c i (QToken r) (Ok (RToken tr)) → tr_grant r = TGPreAuthorizedCode code tx →
  ∃ j r' p, c_pool c !! j = Some (QCreateOffer r', p) ∧
    X (VGen GAuthCode code) ∈ calls_of j (c_log c) ∧ requested r' PreAuthorizedCode ∧
    (is_Some tx ↔ co_tx_code_required r' = true) ∧
    (∀ s, tx = Some s → X (VGen GTxCode s) ∈ calls_of j (c_log c)) ∧
    (∀ resp, p = Ret (Ok (RCreateOffer resp)) → cor_tx_code resp = tx).
Proof. exact (token_tx_source c i r tr code tx). Qed.
Print Assumptions C07_tx_code_is_the_one_created.

Example C07_example : ireach pre_world ∧ ∃ t,
  answered pre_world 1 (QToken (ex_token_pre "code2" (Some "123456"))) (Ok (RToken t)).
Proof. split; [apply after_reach|]. eexists. vm_compute. reflexivity. Qed.
Example C07_example_wrong : ∃ e, let c := after w0 (serially [QCreateOffer (ex_create ByVal);
    QToken (ex_token_pre "code2" None)]) in
  answered c 1 (QToken (ex_token_pre "code2" None)) (Err e).
Proof. eexists. vm_compute. reflexivity. Qed.

(** C08. *)
Theorem C08_client_must_match r es resp code u v :
  runs (token r) es (Ok resp) → tr_grant r = TGAuthorizationCode code u v →
  ∃ st a es' cv, es = Get code (Some st) :: Purge code true :: es' ∧ s_stage st = StAuthorized a ∧
    tr_client_id r = Some (az_client_id a) ∧ u = az_redirect_uri a ∧ v = Some cv ∧
    code_challenge cv = az_code_challenge a.
Proof. exact (token_client r es resp code u v). Qed.
Print Assumptions C08_client_must_match.

(** In an execution, they are those of the authorization request that was answered with
    the code. *)
Theorem C08_client_is_the_one_authorized (c : iconfig) i r tr code u v :
  ireach c → answered c i (QToken r) (Ok (RToken tr)) → tr_grant r = TGAuthorizationCode code u v →
  ∃ j a ro p cv, c_pool c !! j = Some (QAuthorize a, p) ∧ asked_by c a ro ∧
    X (VGen GAuthCode code) ∈ calls_of j (c_log c) ∧
    tr_client_id r = Some (ro_client_id ro) ∧ u = ro_redirect_uri ro ∧ v = Some cv ∧
    code_challenge cv = ro_code_challenge ro.
Proof. exact (token_client_source c i r tr code u v). Qed.
Print Assumptions C08_client_is_the_one_authorized.

Definition c08_world : iconfig :=
  after w0 (serially [QAuthorize (ARObject ex_ro); QToken (ex_token_code "code8" ex_verifier)]).
Example C08_example : ireach c08_world ∧ ∃ t,
  answered c08_world 1 (QToken (ex_token_code "code8" ex_verifier)) (Ok (RToken t)).
Proof. split; [apply after_reach|]. eexists. vm_compute. reflexivity. Qed.

(** C09.  Request [i] (finished or not, successful or not) has read and removed the code. *)
Theorem C09_attempt_burns_code (c : iconfig) i j r st es r' o :
  ireach c → fresh (c_log c) → is_code (c_log c) (presented r) →
  calls_of i (c_log c) = Get (presented r) (Some st) :: Purge (presented r) true :: es →
  answered c j (QToken r') o → presented r' = presented r → before (c_log c) i j →
  o = Err (InvalidGrant "authorization code is invalid").
Proof. exact (token_burned c i j r st es r' o). Qed.
Print Assumptions C09_attempt_burns_code.

(** The first attempt has the wrong transaction code, the second the right one. *)
Definition c09_world : iconfig :=
  after w0 (serially [QCreateOffer (ex_create ByVal); QToken (ex_token_pre "code2" (Some "000000"));
                      QToken (ex_token_pre "code2" (Some "123456"))]).
Example C09_example : ireach c09_world ∧ fresh (c_log c09_world) ∧ is_code (c_log c09_world) "code2" ∧
  (∃ st es, calls_of 1 (c_log c09_world) = Get "code2" (Some st) :: Purge "code2" true :: es) ∧
  (∃ o, answered c09_world 2 (QToken (ex_token_pre "code2" (Some "123456"))) o) ∧
  before (c_log c09_world) 1 2.
Proof.
  split; [apply after_reach|]. split; [apply freshb_fresh; vm_compute; reflexivity|].
  split. { eexists. split; [apply elem_of_list_lookup; exists 2; vm_compute; reflexivity|reflexivity]. }
  split; [eexists _, _; vm_compute; reflexivity|]. split; [eexists; vm_compute; reflexivity|].
  apply beforeb_before. vm_compute. reflexivity.
Qed.

(** C10.  Every state that a successful request has read was live when the clock was read
    after it, ... *)
Theorem C10_offer_live r es o k st :
  runs (credential_offer_endpoint r) es (Ok o) → Get k (Some st) ∈ es → read_then es k st (live st).
Proof. exact (credential_offer_live r es o k st). Qed.
Print Assumptions C10_offer_live.
Theorem C10_token_live r es o k st :
  runs (token r) es (Ok o) → Get k (Some st) ∈ es → read_then es k st (live st).
Proof. exact (token_live r es o k st). Qed.
Print Assumptions C10_token_live.
(** ... and so was the nonce, ... *)
Theorem C10_credential_live r es o :
  runs (credential r) es (Ok o) →
  ∃ st tok es', es = Get (cr_access_token r) (Some st) :: es' ∧ (∀ k v, Get k v ∉ es') ∧
    s_stage st = Validated tok ∧ read_then es (cr_access_token r) st (live st) ∧
    read_then es (cr_access_token r) st (λ t, t < tk_c_nonce_expires_at tok + seconds 1)%Z.
Proof. exact (credential_live r es o). Qed.
Print Assumptions C10_credential_live.
Theorem C10_deferred_live r es o :
  runs (deferred r) es (Ok o) →
  (∀ k st, Get k (Some st) ∈ es → read_then es k st (live st)) ∧
  ∃ st tok, s_stage st = Validated tok ∧
    read_then es (dr_access_token r) st (λ t, t < tk_c_nonce_expires_at tok + seconds 1)%Z.
Proof. exact (deferred_live r es o). Qed.
Print Assumptions C10_deferred_live.
(** ... the pushed request and the offer that an authorization request refers to. *)
Theorem C10_authorize_live a es o :
  runs (authorize a) es (Ok o) →
  ∃ r, match a with
       | ARObject r' => r = r'
       | ARUri u => ∃ st exp, s_stage st = PushedAuthorization r exp ∧
           read_then es u st (λ t, t ≤ exp)%Z
       end ∧
       ∀ k, ro_issuer_state r = Some k → ∃ st, read_then es k st (live st).
Proof. exact (authorize_live a es o). Qed.
Print Assumptions C10_authorize_live.

(** No request is answered with an expiry error before the expiry. *)
Theorem C10_not_expired_early q es e :
  runs (ihandler q) es (Err e) →
  (e ∈ state_expired_errors → ∃ k st, read_then es k st (λ t, s_expires_at st + seconds 1 ≤ t)%Z) ∧
  (e = nonce_expired_error → ∃ k st tok, s_stage st = Validated tok ∧
     read_then es k st (λ t, tk_c_nonce_expires_at tok + seconds 1 ≤ t)%Z) ∧
  (e = reference_expired_error → ∃ k st r exp, s_stage st = PushedAuthorization r exp ∧
     read_then es k st (λ t, exp < t)%Z).
Proof. exact (expiry_justified q es e). Qed.
Print Assumptions C10_not_expired_early.

(** A world in which an hour passes after the first request. *)
Definition late : world :=
  World (w_issuer w0) (w_server w0) (λ n, if Nat.ltb n 9 then seconds 1 else minutes 60) (w_pending w0) (w_tx w0).
Example C10_example_token : ∃ e, let c := after late (serially [QCreateOffer (ex_create ByVal);
    QToken (ex_token_pre "code2" (Some "123456"))]) in
  answered c 1 (QToken (ex_token_pre "code2" (Some "123456"))) (Err e) ∧ e ∈ state_expired_errors.
Proof. eexists. split; [vm_compute; reflexivity|]. unfold state_expired_errors. set_solver. Qed.
Definition c10_world : iconfig :=
  after w0 (serially [QCreateOffer (ex_create ByRef);
                      QCredentialOffer (CredentialOfferRequest ex_iss "uri8");
                      QToken (ex_token_pre "code2" (Some "123456"));
                      QCredential (ex_credential "token19" "EmployeeID_JWT_1" "nonce20")]).
Example C10_example_live : ∃ o t cr,
  answered c10_world 1 (QCredentialOffer (CredentialOfferRequest ex_iss "uri8")) (Ok (RCredentialOffer o)) ∧
  answered c10_world 2 (QToken (ex_token_pre "code2" (Some "123456"))) (Ok (RToken t)) ∧
  answered c10_world 3 (QCredential (ex_credential "token19" "EmployeeID_JWT_1" "nonce20")) (Ok (RCredential cr)).
Proof. eexists _, _, _. split_and!; vm_compute; reflexivity. Qed.

(** C11. *)
Theorem C11_token_covers_selection r es resp :
  runs (token r) es (Ok resp) →
  ∃ st items tok, Get (presented r) (Some st) ∈ es ∧ covers st r items ∧
    tk_access_token tok = trs_access_token resp ∧ trs_c_nonce resp = Some (tk_c_nonce tok) ∧
    table_ok items (tk_credentials tok) ∧
    listed items (trs_authorization_details resp) ∧
    ∀ k v x b, Put k v x b ∈ es →
      k = trs_access_token resp ∧ v = State (s_subject_id st) (Validated tok) (s_expires_at st) ∧ b = true.
Proof. exact (token_covers r es resp). Qed.
Print Assumptions C11_token_covers_selection.

Theorem C11_denied_only_if_not_authorized r es :
  runs (token r) es (Err not_authorized) →
  ∃ st all ds d, Get (presented r) (Some st) ∈ es ∧ state_items st all ∧
    tr_authorization_details r = Some ds ∧ d ∈ ds ∧ ∀ it, it ∈ all → ¬ item_matches d it.
Proof. exact (token_denied r es). Qed.
Print Assumptions C11_denied_only_if_not_authorized.

Definition c11_detail (id : string) : authorization_detail :=
  AuthorizationDetail (ByConfigurationId id None) None.
Definition c11_request (id : string) : token_request :=
  TokenRequest ex_iss (tr_client_id (ex_token_pre "code2" None))
    (TGPreAuthorizedCode "code2" (Some "123456")) (Some [c11_detail id]).
Example C11_example : ∃ t e,
  answered (after w0 (serially [QCreateOffer (ex_create ByVal); QToken (c11_request "EmployeeID_JWT")])) 1
    (QToken (c11_request "EmployeeID_JWT")) (Ok (RToken t)) ∧
  answered (after w0 (serially [QCreateOffer (ex_create ByVal); QToken (c11_request "Licence_mDL")])) 1
    (QToken (c11_request "Licence_mDL")) (Err e) ∧ e = not_authorized.
Proof. eexists _, _. split; [vm_compute; reflexivity|]. split; vm_compute; reflexivity. Qed.
