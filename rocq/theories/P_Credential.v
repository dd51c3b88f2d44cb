(** Properties C12-C22: issuing, deferring and notifying. *)
From Verif Require Import Base StringSpec Json CoreModel VcModel Prog ProgFacts ExecSpec ExecFacts Sched IssuerTypes
  ClaimsModel Sha256 IssuerModel IssuerSpec IssuerWp IssuerOffer IssuerExpiry IssuerCredential
  IssuerNonce IssuerExample.

(** The world of the examples: an offer, a token, a credential; then two requests that
    present the notification id as if it were an access token. *)
Definition cred_world : iconfig :=
  after w0 (serially [QCreateOffer (ex_create ByVal);
                      QToken (ex_token_pre "code2" (Some "123456"));
                      QCredential (ex_credential "token13" "EmployeeID_JWT_1" "nonce14");
                      QCredential (ex_credential "token13" "EmployeeID_JWT_1" "nonce14");
                      QNotification (NotificationRequest ex_iss "token13" "note31")]).

(** C12. *)
Theorem C12_data_was_authorized (c : iconfig) n en subject identifier d :
  ireach c → c_log c !! n = Some en → e_ev en = X (VDataset subject identifier d) →
  ∃ m em config ids, m < n ∧ c_log c !! m = Some em ∧
    e_ev em = X (VAuthorize subject config (Some ids)) ∧ identifier ∈ ids.
Proof. exact (dataset_authorized c n en subject identifier d). Qed.
Print Assumptions C12_data_was_authorized.

(** Whatever is released (fetched, signed or deferred) is what the request is entitled to,
    and the configuration and the identifier are those of an earlier authorization. *)
Theorem C12_release_was_authorized (c : iconfig) n en :
  ireach c → c_log c !! n = Some en → releases (e_ev en) = true →
  ∃ q p h0 h1 r st tok subj iss auth cfg did,
    c_pool c !! e_who en = Some (q, p) ∧ calls_of (e_who en) (take n (c_log c)) = h0 ++ h1 ∧
    credential_request_of q h0 r ∧ entitled r h1 st tok iss auth cfg did ∧
    s_subject_id st = Some subj ∧ release_ok r h1 (e_ev en) subj iss auth cfg did ∧
    (∀ id, cr_credential r = CIIdentifier id → au_identifier auth = id) ∧
    ∃ m em ids, m < n ∧ c_log c !! m = Some em ∧
      e_ev em = X (VAuthorize subj (au_configuration_id auth) (Some ids)) ∧ au_identifier auth ∈ ids.
Proof. exact (release_authorized c n en). Qed.
Print Assumptions C12_release_was_authorized.

Example C12_example : ireach cred_world ∧
  (∃ en d, c_log cred_world !! 22 = Some en ∧ e_ev en = X (VDataset ex_subject "EmployeeID_JWT_1" d)) ∧
  (∃ en v j, c_log cred_world !! 26 = Some en ∧ e_ev en = X (VSignVc ex_iss v j)).
Proof.
  split; [apply after_reach|]. split.
  - eexists _, _. split; [vm_compute; reflexivity|reflexivity].
  - eexists _, _, _. split; [vm_compute; reflexivity|reflexivity].
Qed.

(** C13.  On every path, finished or not: *)
Theorem C13_released_only_if_entitled q p h e h' :
  path (ihandler q) (h ++ e :: h') p → releases e = true →
  ∃ r h0 h1, h = h0 ++ h1 ∧ credential_request_of q h0 r ∧
    ∃ st tok subj iss auth cfg did, entitled r h1 st tok iss auth cfg did ∧
      s_subject_id st = Some subj ∧ release_ok r h1 e subj iss auth cfg did.
Proof. exact (releases_source q p h e h'). Qed.
Print Assumptions C13_released_only_if_entitled.

Theorem C13_issued_only_if_entitled r es resp :
  runs (credential r) es (Ok resp) → ∃ st tok iss auth cfg did, entitled r es st tok iss auth cfg did.
Proof. exact (credential_entitled r es resp). Qed.
Print Assumptions C13_issued_only_if_entitled.

Theorem C13_unknown_token_denied r es o :
  runs (credential r) (Get (cr_access_token r) None :: es) o →
  es = [] ∧ o = Err (AccessDenied "invalid access token").
Proof. exact (credential_unknown r es o). Qed.
Print Assumptions C13_unknown_token_denied.

Example C13_example : ∃ resp,
  answered cred_world 2 (QCredential (ex_credential "token13" "EmployeeID_JWT_1" "nonce14")) (Ok (RCredential resp)).
Proof. eexists. vm_compute. reflexivity. Qed.
Example C13_example_unknown : ∃ es o, runs (credential (ex_credential "nobody" "EmployeeID_JWT_1" "nonce14"))
  (Get "nobody" None :: es) o.
Proof. eexists _, _. apply (solo_runs w0 ∅). vm_compute. reflexivity. Qed.

(** C14.  What is missing: a request with an empty list of proofs proves nothing, yet it is
    accepted (see the refutation below), so [kids] may be empty and the DID "". *)
Theorem C14_proof_of_possession_partial r es resp :
  runs (credential r) es (Ok resp) →
  ∃ st tok iss auth cfg did, entitled r es st tok iss auth cfg did ∧
    ∀ types, cc_proof_types cfg = Some types →
      "jwt" ∈ types ∧ ∃ pr kids, cr_proof r = Some pr ∧
        Forall2 (λ jwt kid, ∃ p, X (VDecodeProof jwt (Some p)) ∈ es ∧ pj_typ_is_proof p = true ∧
                   pj_nonce p = Some (tk_c_nonce tok) ∧ pj_kid p = Some kid) (proof_jwts pr) kids ∧
        (proof_jwts pr ≠ [] → ∃ kid, last kids = Some kid ∧ up_to "#" kid did).
Proof. exact (credential_possession r es resp). Qed.
Print Assumptions C14_proof_of_possession_partial.

(** The DID is the one the signed credential is bound to. *)
Theorem C14_signed_for_the_prover r p h signer v jwt h' :
  path (credential r) (h ++ X (VSignVc signer v jwt) :: h') p →
  ∃ st tok iss auth cfg did, entitled r h st tok iss auth cfg did ∧
    vcc_sub v = did ∧ ∃ claims, vc_subject (vcc_vc v) = QOne (CredentialSubject (Some did) claims).
Proof. exact (credential_signed_for r p h signer v jwt h'). Qed.
Print Assumptions C14_signed_for_the_prover.

Definition c14_request : credential_request :=
  CredentialRequest ex_iss "token13" (CIIdentifier "EmployeeID_JWT_1") (Some (PMultiple [])).
Definition c14_world : iconfig :=
  after w0 (serially [QCreateOffer (ex_create ByVal);
                      QToken (ex_token_pre "code2" (Some "123456")); QCredential c14_request]).
Theorem C14_no_proof_needed_refuted : ∃ (c : iconfig) i r resp cred iss cfg,
  ireach c ∧ answered c i (QCredential r) (Ok (RCredential resp)) ∧ crs_response resp = CRCredential cred ∧
  X (VIssuer (cr_credential_issuer r) (Some iss)) ∈ calls_of i (c_log c) ∧
  assoc "EmployeeID_JWT" (is_configurations iss) = Some cfg ∧ cc_proof_types cfg = Some ["jwt"] ∧
  cr_credential r = CIIdentifier "EmployeeID_JWT_1" ∧
  ∀ jwt d, X (VDecodeProof jwt d) ∉ calls_of i (c_log c).
Proof.
  eexists c14_world, 2, c14_request, _, _, ex_issuer, _. split; [apply after_reach|].
  split; [vm_compute; reflexivity|]. split; [reflexivity|].
  split; [apply elem_of_list_lookup; exists 1; vm_compute; reflexivity|].
  split; [vm_compute; reflexivity|]. split; [reflexivity|]. split; [reflexivity|].
  intros jwt d Hin. apply elem_of_list_lookup in Hin as [n Hn].
  assert (∀ e, e ∈ calls_of 2 (c_log c14_world) → is_decode e = false) as H.
  { apply forallb_decode. vm_compute. reflexivity. }
  apply elem_of_list_lookup_2 in Hn. apply H in Hn. discriminate.
Qed.
Print Assumptions C14_no_proof_needed_refuted.

(** C15.  For access tokens.  What is missing: credentials can also be obtained with a
    notification id (see C22), and there the nonce is not replaced. *)
Theorem C15_nonce_not_reused_partial (c : iconfig) i j ri rj resp cred oj jwt p jwt' p' nonce :
  ireach c → fresh (c_log c) → is_token (c_log c) (cr_access_token ri) →
  cr_access_token rj = cr_access_token ri →
  answered c i (QCredential ri) (Ok (RCredential resp)) → crs_response resp = CRCredential cred →
  X (VDecodeProof jwt (Some p)) ∈ calls_of i (c_log c) → pj_nonce p = Some nonce →
  before (c_log c) i j → answered c j (QCredential rj) oj →
  X (VDecodeProof jwt' (Some p')) ∈ calls_of j (c_log c) → pj_nonce p' = Some nonce →
  proof_refused oj.
Proof. exact (nonce_not_reused c i j ri rj resp cred oj jwt p jwt' p' nonce). Qed.
Print Assumptions C15_nonce_not_reused_partial.

Theorem C15_new_nonce_saved r es resp :
  runs (credential r) es (Ok resp) → ∀ cred, crs_response resp = CRCredential cred →
  ∃ st tok nonce t1 t2, Get (cr_access_token r) (Some st) ∈ es ∧ s_stage st = Validated tok ∧
    crs_c_nonce resp = Some nonce ∧ X (VGen GNonce nonce) ∈ es ∧ X (VNow t1) ∈ es ∧ X (VNow t2) ∈ es ∧
    Put (tk_access_token tok) (State (s_subject_id st) (Validated (Token (tk_access_token tok) nonce
      (t2 + minutes 10)%Z (tk_credentials tok))) (t1 + minutes 15)%Z) (t1 + minutes 15)%Z true ∈ es.
Proof. exact (credential_new_nonce r es resp). Qed.
Print Assumptions C15_new_nonce_saved.

Example C15_example : ireach cred_world ∧ fresh (c_log cred_world) ∧ is_token (c_log cred_world) "token13" ∧
  (∃ resp cred, answered cred_world 2 (QCredential (ex_credential "token13" "EmployeeID_JWT_1" "nonce14"))
     (Ok (RCredential resp)) ∧ crs_response resp = CRCredential cred) ∧
  (∃ jwt p, X (VDecodeProof jwt (Some p)) ∈ calls_of 2 (c_log cred_world) ∧ pj_nonce p = Some "nonce14") ∧
  before (c_log cred_world) 2 3 ∧
  (∃ o, answered cred_world 3 (QCredential (ex_credential "token13" "EmployeeID_JWT_1" "nonce14")) o) ∧
  (∃ jwt p, X (VDecodeProof jwt (Some p)) ∈ calls_of 3 (c_log cred_world) ∧ pj_nonce p = Some "nonce14").
Proof.
  split; [apply after_reach|]. split; [apply freshb_fresh; vm_compute; reflexivity|].
  split. { eexists. split; [apply elem_of_list_lookup; exists 13; vm_compute; reflexivity|reflexivity]. }
  split; [eexists _, _; split; [vm_compute; reflexivity|reflexivity]|].
  split. { eexists _, _. split; [apply elem_of_list_lookup; exists 4; vm_compute; reflexivity|reflexivity]. }
  split; [apply beforeb_before; vm_compute; reflexivity|].
  split; [eexists; vm_compute; reflexivity|].
  eexists _, _. split; [apply elem_of_list_lookup; exists 4; vm_compute; reflexivity|reflexivity].
Qed.

(** With the notification id, one proof is accepted again and again. *)
Definition c15_request : credential_request := ex_credential "note31" "EmployeeID_JWT_1" "nonce28".
Definition c15_world : iconfig :=
  after w0 (serially [QCreateOffer (ex_create ByVal);
                      QToken (ex_token_pre "code2" (Some "123456"));
                      QCredential (ex_credential "token13" "EmployeeID_JWT_1" "nonce14");
                      QCredential c15_request; QCredential c15_request]).
Theorem C15_proof_replayed_refuted : ∃ (c : iconfig) i j r ri rj ci cj,
  ireach c ∧ fresh (c_log c) ∧ before (c_log c) i j ∧
  answered c i (QCredential r) (Ok (RCredential ri)) ∧ crs_response ri = CRCredential ci ∧
  answered c j (QCredential r) (Ok (RCredential rj)) ∧ crs_response rj = CRCredential cj ∧
  ∃ jwt p, cr_proof r = Some (PSingle jwt) ∧
    X (VDecodeProof jwt (Some p)) ∈ calls_of i (c_log c) ∧ X (VDecodeProof jwt (Some p)) ∈ calls_of j (c_log c).
Proof.
  eexists c15_world, 3, 4, c15_request, _, _, _, _. split; [apply after_reach|].
  split; [apply freshb_fresh; vm_compute; reflexivity|].
  split; [apply beforeb_before; vm_compute; reflexivity|].
  split; [vm_compute; reflexivity|]. split; [reflexivity|].
  split; [vm_compute; reflexivity|]. split; [reflexivity|].
  eexists _, _. split; [reflexivity|].
  split; apply elem_of_list_lookup; exists 4; vm_compute; reflexivity.
Qed.
Print Assumptions C15_proof_replayed_refuted.

(** C16. *)
Theorem C16_invalid_proof_gives_the_saved_nonce r es hint nonce secs :
  runs (credential r) es (Err (InvalidProof hint nonce secs)) →
  ∃ st tok es' t1 t2, s_stage st = Validated tok ∧ secs = 600%Z ∧
    es = Get (cr_access_token r) (Some st) :: es' ++
      [X (VGen GNonce nonce); X (VNow t1); X (VNow t2);
       Put (tk_access_token tok) (State (s_subject_id st) (Validated (Token (tk_access_token tok) nonce
         (t2 + minutes 10)%Z (tk_credentials tok))) (t1 + minutes 15)%Z) (t1 + minutes 15)%Z true] ∧
    (∀ k v x b, Put k v x b ∉ es') ∧ (∀ e, e ∈ es' → releases e = false).
Proof. exact (credential_invalid_proof_saves r es hint nonce secs). Qed.
Print Assumptions C16_invalid_proof_gives_the_saved_nonce.

(** The state is saved under the access token that was presented, when that is an access
    token. *)
Theorem C16_saved_under_the_token (c : iconfig) i r hint nonce secs :
  ireach c → fresh (c_log c) → is_token (c_log c) (cr_access_token r) →
  answered c i (QCredential r) (Err (InvalidProof hint nonce secs)) →
  ∃ v x tok, Put (cr_access_token r) v x true ∈ calls_of i (c_log c) ∧ s_stage v = Validated tok ∧
    tk_c_nonce tok = nonce ∧ tk_access_token tok = cr_access_token r.
Proof. exact (invalid_proof_key c i r hint nonce secs). Qed.
Print Assumptions C16_saved_under_the_token.

Example C16_example : ∃ hint nonce secs,
  answered cred_world 3 (QCredential (ex_credential "token13" "EmployeeID_JWT_1" "nonce14"))
    (Err (InvalidProof hint nonce secs)).
Proof. eexists _, _, _. vm_compute. reflexivity. Qed.

(** C17. *)
Theorem C17_signed_content q p h signer v jwt h' :
  path (ihandler q) (h ++ X (VSignVc signer v jwt) :: h') p →
  ∃ r h0 h1 st tok subj iss auth cfg did def types type ds status date,
    h = h0 ++ h1 ∧ credential_request_of q h0 r ∧ entitled r h1 st tok iss auth cfg did ∧
    s_subject_id st = Some subj ∧
    cc_format cfg = FJwtVcJson def ∧ cd_type def = Some types ∧ types !! 1 = Some type ∧
    X (VDataset subj (au_identifier auth) (Some ds)) ∈ h ∧ ds_pending ds = false ∧
    X (VStatus subj "credential_identifier" (Some status)) ∈ h ∧ X (VNow date) ∈ h ∧
    signer = cr_credential_issuer r ∧
    signed_claims (is_credential_issuer iss) did type status
      (restrict (named (cr_credential r)) (restrict (au_claim_ids auth) (ds_claims ds))) date v.
Proof. exact (signed_content q p h signer v jwt h'). Qed.
Print Assumptions C17_signed_content.

(** Tokens carry no claim restriction of their own, so the only one is the request's. *)
Theorem C17_no_other_restriction (c : iconfig) i k st tok key auth :
  ireach c → Get k (Some st) ∈ calls_of i (c_log c) → s_stage st = Validated tok →
  (key, auth) ∈ tk_credentials tok → au_claim_ids auth = None.
Proof. exact (token_no_claim_ids c i k st tok key auth). Qed.
Print Assumptions C17_no_other_restriction.

Theorem C17_mdl_content q p h signer claims mdl h' :
  path (ihandler q) (h ++ X (VSignMdl signer claims mdl) :: h') p →
  ∃ r h0 h1 st tok subj iss auth cfg did doctype cs ds,
    h = h0 ++ h1 ∧ credential_request_of q h0 r ∧ entitled r h1 st tok iss auth cfg did ∧
    s_subject_id st = Some subj ∧ cc_format cfg = FIsoMdl doctype cs ∧
    X (VDataset subj (au_identifier auth) (Some ds)) ∈ h ∧ ds_pending ds = false ∧
    signer = cr_credential_issuer r ∧
    claims = restrict (named (cr_credential r)) (restrict (au_claim_ids auth) (ds_claims ds)).
Proof. exact (signed_mdl q p h signer claims mdl h'). Qed.
Print Assumptions C17_mdl_content.

(** What is returned is what was signed. *)
Theorem C17_returned_is_signed r es resp cred :
  runs (credential r) es (Ok resp) → crs_response resp = CRCredential cred →
  ∃ jwt, cred = KString jwt ∧
    ((∃ signer v, X (VSignVc signer v (Some jwt)) ∈ es) ∨
     (∃ signer cl, X (VSignMdl signer cl (Some jwt)) ∈ es)).
Proof. exact (credential_returned r es resp cred). Qed.
Print Assumptions C17_returned_is_signed.

Definition c17_request : credential_request :=
  CredentialRequest ex_iss "token13" (CIFormat (FJwtVcJson (CredentialDefinition None
    (Some ["VerifiableCredential"; "EmployeeIDCredential"]) (Some [("email", CEntry None)]))))
    (Some (PSingle "nonce14")).
Definition c17_world : iconfig :=
  after w0 (serially [QCreateOffer (ex_create ByVal);
                      QToken (ex_token_pre "code2" (Some "123456")); QCredential c17_request]).
Example C17_example : ireach c17_world ∧ ∃ n en v,
  c_log c17_world !! n = Some en ∧ e_ev en = X (VSignVc ex_iss v (Some ("signed" +:+ "27"))) ∧
  vc_subject (vcc_vc v) = QOne (CredentialSubject (Some "did:key:holder")
    [("email", JStr "normal.user@example.com")]).
Proof.
  split; [apply after_reach|]. eexists 27, _, _. split; [vm_compute; reflexivity|]. split; reflexivity.
Qed.

(** C18. *)
Theorem C18_deferred_iff r es o resp :
  runs (deferred r) es o →
  (o = Ok resp ↔ ∃ h0 es_c cr c, es = h0 ++ es_c ∧ credential_request_of (QDeferred r) h0 cr ∧
     runs (credential cr) es_c (Ok resp) ∧ crs_response resp = CRCredential c).
Proof. exact (deferred_iff r es o resp). Qed.
Print Assumptions C18_deferred_iff.

Theorem C18_original_request (c : iconfig) i r st txn cr :
  ireach c → Get (dr_transaction_id r) (Some st) ∈ calls_of i (c_log c) → s_stage st = Deferred txn cr →
  txn = dr_transaction_id r ∧
  ∃ j q p h0 h1, c_pool c !! j = Some (q, p) ∧ h0 ++ h1 `prefix_of` calls_of j (c_log c) ∧
    credential_request_of q h0 cr ∧ X (VGen GTransactionId (dr_transaction_id r)) ∈ h1.
Proof. exact (deferred_source c i r st txn cr). Qed.
Print Assumptions C18_original_request.

Theorem C18_redeemed_once (c : iconfig) i j ri rj di dj :
  ireach c → fresh (c_log c) → i ≠ j →
  answered c i (QDeferred ri) (Ok (RDeferred di)) → answered c j (QDeferred rj) (Ok (RDeferred dj)) →
  dr_transaction_id ri = dr_transaction_id rj → overlap (c_log c) i j.
Proof. exact (deferred_once c i j ri rj di dj). Qed.
Print Assumptions C18_redeemed_once.

(** The dataset is pending until the [n]-th call. *)
Definition pending_until (n : nat) : world :=
  World (λ _, ex_issuer) ex_server (λ n, seconds (Z.of_nat n)) (λ m, Nat.ltb m n) "123456".
Definition c18_deferred : deferred_request := DeferredRequest ex_iss "token13" "txn23".
Definition c18_script : list irequest :=
  [QCreateOffer (ex_create ByVal); QToken (ex_token_pre "code2" (Some "123456"));
   QCredential (ex_credential "token13" "EmployeeID_JWT_1" "nonce14");
   QDeferred c18_deferred; QDeferred c18_deferred].
Example C18_example : let c := after (pending_until 26) (serially c18_script) in
  ireach c ∧ fresh (c_log c) ∧
  (∃ d cred, answered c 3 (QDeferred c18_deferred) (Ok (RDeferred d)) ∧ crs_response d = CRCredential cred) ∧
  (∃ e, answered c 4 (QDeferred c18_deferred) (Err e)).
Proof.
  split; [apply after_reach|]. split; [apply freshb_fresh; vm_compute; reflexivity|]. split.
  - eexists _, _. split; [vm_compute; reflexivity|reflexivity].
  - eexists. vm_compute. reflexivity.
Qed.
(** Two overlapping requests can both redeem: the state is read and purged in two steps. *)
Definition c18_both : deferred_request := DeferredRequest ex_iss "token13" "txn22".
Example C18_overlap_example : let c := after (pending_until 26) (serially
    [QCreateOffer (ex_create ByVal); QToken (ex_token_pre "code2" (Some "123456"));
     QCredential (ex_credential "token13" "Developer_JWT_1" "")] ++
    [Arrive (QDeferred c18_both); Arrive (QDeferred c18_both); Steps 3 1; Steps 4 1; Finish 3 60; Finish 4 60]) in
  ireach c ∧ fresh (c_log c) ∧ ∃ d d', answered c 3 (QDeferred c18_both) (Ok (RDeferred d)) ∧
    answered c 4 (QDeferred c18_both) (Ok (RDeferred d')).
Proof.
  split; [apply after_reach|]. split; [apply freshb_fresh; vm_compute; reflexivity|].
  eexists _, _. split; vm_compute; reflexivity.
Qed.

(** C19 fails in every execution: the transaction is gone after the first answer. *)
Theorem C19_pending_transaction_is_lost_refuted (c : iconfig) i j ri rj n oj :
  ireach c → fresh (c_log c) →
  answered c i (QDeferred ri) (Err (IssuancePending n)) →
  answered c j (QDeferred rj) oj → dr_transaction_id ri = dr_transaction_id rj → before (c_log c) i j →
  oj = Err (InvalidTransactionId "deferred state not found").
Proof. exact (deferred_lost c i j ri rj n oj). Qed.
Print Assumptions C19_pending_transaction_is_lost_refuted.
Definition c19_world : iconfig := after (pending_until 100) (serially c18_script).
Theorem C19_pending_retry_refuted : ∃ (c : iconfig) i j r n,
  ireach c ∧ fresh (c_log c) ∧ before (c_log c) i j ∧
  answered c i (QDeferred r) (Err (IssuancePending n)) ∧
  answered c j (QDeferred r) (Err (InvalidTransactionId "deferred state not found")).
Proof.
  eexists c19_world, 3, 4, c18_deferred, _. split; [apply after_reach|].
  split; [apply freshb_fresh; vm_compute; reflexivity|].
  split; [apply beforeb_before; vm_compute; reflexivity|]. split; vm_compute; reflexivity.
Qed.
Print Assumptions C19_pending_retry_refuted.

(** C20.  What is missing: the presented token must itself be entitled to the credential,
    but need not be the one of the original request. *)
Theorem C20_deferred_needs_an_entitled_token_partial r es resp :
  runs (deferred r) es (Ok resp) →
  ∃ h0 es_c cr st tok iss auth cfg did, es = h0 ++ es_c ∧ credential_request_of (QDeferred r) h0 cr ∧
    entitled cr es_c st tok iss auth cfg did ∧ cr_access_token cr = dr_access_token r.
Proof. exact (deferred_entitled r es resp). Qed.
Print Assumptions C20_deferred_needs_an_entitled_token_partial.

(** A transaction of the normal user is redeemed with the token of someone else. *)
Definition c20_create : create_offer_request :=
  CreateOfferRequest ex_iss (Some "someone_else") ["Developer_JWT"] (Some [PreAuthorizedCode]) false ByVal.
Definition c20_deferred : deferred_request := DeferredRequest ex_iss "token36" "txn22".
Definition c20_world : iconfig :=
  after (pending_until 26) (serially [QCreateOffer (ex_create ByVal);
    QToken (ex_token_pre "code2" (Some "123456"));
    QCredential (ex_credential "token13" "Developer_JWT_1" "");
    QCreateOffer c20_create; QToken (ex_token_pre "code27" None); QDeferred c20_deferred]).
Theorem C20_other_token_redeems_refuted : ∃ (c : iconfig) i j r0 r resp txn d cred,
  ireach c ∧ fresh (c_log c) ∧
  answered c i (QCredential r0) (Ok (RCredential resp)) ∧ crs_response resp = CRTransactionId txn ∧
  answered c j (QDeferred r) (Ok (RDeferred d)) ∧ crs_response d = CRCredential cred ∧
  dr_transaction_id r = txn ∧ dr_access_token r ≠ cr_access_token r0.
Proof.
  eexists c20_world, 2, 5, (ex_credential "token13" "Developer_JWT_1" ""), c20_deferred, _, _, _, _.
  split; [apply after_reach|]. split; [apply freshb_fresh; vm_compute; reflexivity|].
  split; [vm_compute; reflexivity|]. split; [reflexivity|]. split; [vm_compute; reflexivity|].
  split; [reflexivity|]. split; [reflexivity|]. discriminate.
Qed.
Print Assumptions C20_other_token_redeems_refuted.

(** C21 fails in every execution: no notification is ever accepted. *)
Theorem C21_notification_never_accepted_refuted (c : iconfig) i r o :
  ireach c → ¬ answered c i (QNotification r) (Ok o).
Proof. exact (notification_never c i r o). Qed.
Print Assumptions C21_notification_never_accepted_refuted.
Theorem C21_issued_notification_refuted : ∃ (c : iconfig) i j r resp n nid,
  ireach c ∧ fresh (c_log c) ∧ before (c_log c) i j ∧
  answered c i (QCredential r) (Ok (RCredential resp)) ∧ crs_notification_id resp = Some nid ∧
  nr_notification_id n = nid ∧
  answered c j (QNotification n) (Err (ServerError "issued state not found")).
Proof.
  eexists cred_world, 2, 4, (ex_credential "token13" "EmployeeID_JWT_1" "nonce14"), _,
    (NotificationRequest ex_iss "token13" "note31"), _.
  split; [apply after_reach|]. split; [apply freshb_fresh; vm_compute; reflexivity|].
  split; [apply beforeb_before; vm_compute; reflexivity|].
  split; [vm_compute; reflexivity|]. split; [reflexivity|]. split; [reflexivity|]. vm_compute. reflexivity.
Qed.
Print Assumptions C21_issued_notification_refuted.
(** What it would take: a state that says the credential was issued. *)
Theorem C21_notification_iff_partial r es o :
  runs (notification r) es o →
  (o = Ok tt ↔ ∃ st cr, es = [Get (nr_notification_id r) (Some st); Purge (nr_notification_id r) true] ∧
     s_stage st = Issued cr).
Proof. exact (notification_iff r es o). Qed.
Print Assumptions C21_notification_iff_partial.
Example C21_example : let st := State None (Issued vc_default) 0 in
  ∃ es, runs (notification (NotificationRequest ex_iss "" "n")) es (Ok tt).
Proof.
  intros st. eexists. apply (solo_runs w0 {["n" := st]}). vm_compute. reflexivity.
Qed.

(** C22. *)
Theorem C22_notification_id_is_accepted_refuted : ∃ (c : iconfig) i j r resp nid rj respj cred,
  ireach c ∧ fresh (c_log c) ∧ answered c i (QCredential r) (Ok (RCredential resp)) ∧
  crs_notification_id resp = Some nid ∧ cr_access_token rj = nid ∧ nid ≠ cr_access_token r ∧
  answered c j (QCredential rj) (Ok (RCredential respj)) ∧ crs_response respj = CRCredential cred.
Proof.
  eexists c15_world, 2, 3, (ex_credential "token13" "EmployeeID_JWT_1" "nonce14"), _, _, c15_request, _, _.
  split; [apply after_reach|]. split; [apply freshb_fresh; vm_compute; reflexivity|].
  split; [vm_compute; reflexivity|]. split; [reflexivity|]. split; [reflexivity|]. split; [discriminate|].
  split; [vm_compute; reflexivity|]. reflexivity.
Qed.
Print Assumptions C22_notification_id_is_accepted_refuted.
(** What holds: no other generated value works as an access token. *)
Theorem C22_bearer_values_partial (c : iconfig) i r resp :
  ireach c → answered c i (QCredential r) (Ok (RCredential resp)) →
  ∃ en, en ∈ c_log c ∧ (e_ev en = X (VGen GToken (cr_access_token r)) ∨
                        e_ev en = X (VGen GNotificationId (cr_access_token r))).
Proof. exact (credential_bearer c i r resp). Qed.
Print Assumptions C22_bearer_values_partial.
