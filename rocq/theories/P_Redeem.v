(** Properties C110-C115: codes and access tokens are honoured. *)
From Verif Require Import Base StringSpec Json CoreModel VcModel Prog ProgFacts ExecSpec Sched IssuerTypes
  ClaimsModel Sha256 IssuerModel IssuerSpec AuthorizeSpec RedeemSpec IssuerOffer
  IssuerComplete RedeemExec IssuerExample.

(** Deciding on the calls of a computed execution. *)
Ltac calls i w := let l := eval vm_compute in (calls_of i (c_log w)) in
  assert (calls_of i (c_log w) = l) as -> by (vm_compute; reflexivity).
Ltac logof w H := let l := eval vm_compute in (c_log w) in
  assert (c_log w = l) as E by (vm_compute; reflexivity); rewrite E in H; clear E.
Ltac each H := repeat (apply elem_of_cons in H as [H|H]; [try discriminate H; simplify_eq|]);
  try (by apply elem_of_nil in H).

(** C110.  [code_challenge] is specified in Sha256.v. *)
Theorem C110_token_granted_iff r es o : runs (token r) es o →
  ((∃ resp, o = Ok resp) ↔
   ∃ st t srv id cl es',
    es = Get (presented r) (Some st) :: Purge (presented r) true :: X (VNow t) ::
         X (VServer (tr_credential_issuer r) None (Some srv)) :: X (VClient id (Some cl)) :: es' ∧
    live st t ∧ grant_answered code_challenge srv st r ∧ tr_client_id r = Some id ∧ scopes_supported cl srv ∧
    selection_answered st r es' ∧ ∀ e, e ∈ es' → ¬ failed e).
Proof. exact (token_iff r es o). Qed.
Print Assumptions C110_token_granted_iff.

(** An offer is created and redeemed, and the access token used. *)
Definition c110_offer : create_offer_request := ex_create ByVal.
Definition c110_token : token_request := ex_token_pre "code2" (Some "123456").
Definition c110_credential : credential_request := ex_credential "token13" "EmployeeID_JWT_1" "nonce14".
Definition c110_world : iconfig :=
  after w0 (serially [QCreateOffer c110_offer; QToken c110_token; QCredential c110_credential]).

Example C110_example : ∃ es resp, runs (token c110_token) es (Ok resp).
Proof.
  assert (∃ t, answered c110_world 1 (QToken c110_token) (Ok (RToken t))) as [t Ha] by (eexists; vm_compute; reflexivity).
  apply answered_runs in Ha; [|exact (after_reach _ _)]. apply handler_ok in Ha as (resp & _ & Ha). eexists _, resp. exact Ha.
Qed.

(** C111. *)
Theorem C111_credential_granted_iff r es o : runs (credential r) es o →
  ((∃ resp, o = Ok resp) ↔
   ∃ st tok iss auth cfg ow t1 t2 pe es',
    es = Get (cr_access_token r) (Some st) :: X (VIssuer (cr_credential_issuer r) (Some iss)) ::
         ow ++ X (VNow t1) :: X (VNow t2) :: pe ++ es' ∧
    s_stage st = Validated tok ∧ asked_for iss tok (cr_credential r) auth ∧ walked (cr_credential r) ow ∧
    assoc (au_configuration_id auth) (is_configurations iss) = Some cfg ∧
    live st t1 ∧ nonce_live tok t2 ∧ proof_given cfg (tk_c_nonce tok) (cr_proof r) pe ∧
    s_subject_id st ≠ None ∧
    (issuable iss cfg ∨ ∃ subj id ds, X (VDataset subj id (Some ds)) ∈ es' ∧ ds_pending ds = true) ∧
    ∀ e, e ∈ es' → ¬ failed e).
Proof. exact (credential_iff r es o). Qed.
Print Assumptions C111_credential_granted_iff.


Example C111_example : ∃ es resp, runs (credential c110_credential) es (Ok resp).
Proof.
  assert (∃ t, answered c110_world 2 (QCredential c110_credential) (Ok (RCredential t))) as [t Ha]
    by (eexists; vm_compute; reflexivity).
  apply answered_runs in Ha; [|exact (after_reach _ _)]. apply handler_ok in Ha as (resp & _ & Ha). eexists _, resp. exact Ha.
Qed.

(** C112.  Request [i] created an offer with a pre-authorized code, [j] presents the code
    and the transaction code that came with it. *)
Theorem C112_offer_is_redeemed (c : iconfig) i j ro resp code r id o :
  ireach c → fresh (c_log c) →
  answered c i (QCreateOffer ro) (Ok (RCreateOffer resp)) → requested ro PreAuthorizedCode →
  X (VGen GAuthCode code) ∈ calls_of i (c_log c) →
  answered c j (QToken r) o → before (c_log c) i j → removed_only_by (c_log c) code j →
  tr_grant r = TGPreAuthorizedCode code (cor_tx_code resp) → tr_client_id r = Some id →
  tr_authorization_details r = None →
  (∀ t t', X (VNow t) ∈ calls_of i (c_log c) → X (VNow t') ∈ calls_of j (c_log c) → (t' ≤ t + minutes 5)%Z) →
  (∀ e, e ∈ calls_of j (c_log c) → ¬ failed e) → served r (calls_of j (c_log c)) PreAuthorizedCode id →
  ∃ t, o = Ok (RToken t) ∧
    Forall2 (detail_listed (calls_of i (c_log c)) (default "" (co_subject_id ro)))
      (co_configuration_ids ro) (default [] (trs_authorization_details t)).
Proof. exact (offer_redeemed c i j ro resp code r id o). Qed.
Print Assumptions C112_offer_is_redeemed.

Lemma ex_scopes : scopes_supported ex_client ex_server.
Proof.
  eexists _, _. split; [reflexivity|]. split; [reflexivity|]. intros x Hx.
  assert (split_whitespace "openid email" = ["openid"; "email"]) as E by (vm_compute; reflexivity).
  rewrite E in Hx. set_solver.
Qed.
Example C112_example : let c := c110_world in ∃ resp o,
  ireach c ∧ fresh (c_log c) ∧ answered c 0 (QCreateOffer c110_offer) (Ok (RCreateOffer resp)) ∧
  requested c110_offer PreAuthorizedCode ∧ X (VGen GAuthCode "code2") ∈ calls_of 0 (c_log c) ∧
  answered c 1 (QToken c110_token) o ∧ before (c_log c) 0 1 ∧ removed_only_by (c_log c) "code2" 1 ∧
  tr_grant c110_token = TGPreAuthorizedCode "code2" (cor_tx_code resp) ∧
  (∀ t t', X (VNow t) ∈ calls_of 0 (c_log c) → X (VNow t') ∈ calls_of 1 (c_log c) → (t' ≤ t + minutes 5)%Z) ∧
  (∀ e, e ∈ calls_of 1 (c_log c) → ¬ failed e) ∧ served c110_token (calls_of 1 (c_log c)) PreAuthorizedCode "client".
Proof.
  cbv zeta. eexists _, _. split; [exact (after_reach _ _)|]. split; [apply freshb_fresh; vm_compute; reflexivity|].
  split; [vm_compute; reflexivity|]. split; [eexists; split; [reflexivity|by left]|].
  split; [calls 0 c110_world; by do 2 right; left|]. split; [vm_compute; reflexivity|].
  split; [apply beforeb_before; vm_compute; reflexivity|]. split.
  { intros en b Hin He. logof c110_world Hin. each Hin. done. }
  split; [reflexivity|]. calls 0 c110_world. calls 1 c110_world. split; [|split].
  - intros t t' H1 H2. each H1. each H2. all: vm_compute; discriminate.
  - intros e H. each H; by intros [].
  - intros srv H. each H. split; [eexists; split; [reflexivity|by right; left]|]. split; [done|].
    intros cl H. each H. exact ex_scopes.
Qed.

(** C113.  Request [i] was an authorization request (inline or pushed before) and was given
    a code, which [j] presents with the client id, the redirect URI and the verifier that
    belong to it.  The access token covers all that was asked for. *)
Theorem C113_authorization_is_redeemed (c : iconfig) i j a h0 ro resp r v o :
  ireach c → fresh (c_log c) →
  answered c i (QAuthorize a) (Ok (RAuthorize resp)) →
  request_object_of a h0 ro → h0 `prefix_of` calls_of i (c_log c) →
  answered c j (QToken r) o → before (c_log c) i j → removed_only_by (c_log c) (ar_code resp) j →
  tr_grant r = TGAuthorizationCode (ar_code resp) (ro_redirect_uri ro) (Some v) →
  code_challenge v = ro_code_challenge ro → tr_client_id r = Some (ro_client_id ro) →
  tr_authorization_details r = None →
  (∀ t t', X (VNow t) ∈ calls_of i (c_log c) → X (VNow t') ∈ calls_of j (c_log c) → (t' ≤ t + minutes 5)%Z) →
  (∀ e, e ∈ calls_of j (c_log c) → ¬ failed e) → served r (calls_of j (c_log c)) AuthorizationCode (ro_client_id ro) →
  ∃ t iss tok x b, o = Ok (RToken t) ∧ X (VIssuer (ro_credential_issuer ro) (Some iss)) ∈ calls_of i (c_log c) ∧
    Put (trs_access_token t) (State (Some (ro_subject_id ro)) (Validated tok) x) x b ∈ calls_of j (c_log c) ∧
    ∀ id, by_detail iss ro id ∨ (∃ item, by_scope iss ro id item) →
      ∃ ids, X (VAuthorize (ro_subject_id ro) id (Some ids)) ∈ calls_of i (c_log c) ∧
        ∀ y, y ∈ ids → is_Some (assoc y (tk_credentials tok)).
Proof. exact (authorization_redeemed c i j a h0 ro resp r v o). Qed.
Print Assumptions C113_authorization_is_redeemed.

Definition c113_token : token_request := ex_token_code "code8" ex_verifier.
Definition c113_world : iconfig := after w0 (serially [QAuthorize (ARObject ex_ro); QToken c113_token]).
Example C113_example : let c := c113_world in ∃ resp o,
  ireach c ∧ fresh (c_log c) ∧ answered c 0 (QAuthorize (ARObject ex_ro)) (Ok (RAuthorize resp)) ∧
  request_object_of (ARObject ex_ro) [] ex_ro ∧
  answered c 1 (QToken c113_token) o ∧ before (c_log c) 0 1 ∧ removed_only_by (c_log c) (ar_code resp) 1 ∧
  tr_grant c113_token = TGAuthorizationCode (ar_code resp) (ro_redirect_uri ex_ro) (Some ex_verifier) ∧
  (∀ t t', X (VNow t) ∈ calls_of 0 (c_log c) → X (VNow t') ∈ calls_of 1 (c_log c) → (t' ≤ t + minutes 5)%Z) ∧
  (∀ e, e ∈ calls_of 1 (c_log c) → ¬ failed e) ∧ served c113_token (calls_of 1 (c_log c)) AuthorizationCode "client".
Proof.
  cbv zeta. eexists _, _. split; [exact (after_reach _ _)|]. split; [apply freshb_fresh; vm_compute; reflexivity|].
  split; [vm_compute; reflexivity|]. split; [done|]. split; [vm_compute; reflexivity|].
  split; [apply beforeb_before; vm_compute; reflexivity|]. split.
  { intros en b Hin He. logof c113_world Hin. each Hin. done. }
  split; [reflexivity|]. calls 0 c113_world. calls 1 c113_world. split; [|split].
  - intros t t' H1 H2. each H1. each H2. all: vm_compute; discriminate.
  - intros e H. each H; by intros [].
  - intros srv H. each H. split; [eexists; split; [reflexivity|left]|]. split; [done|].
    intros cl H. each H. exact ex_scopes.
Qed.

(** C114.  Request [i] was given an access token; [j] presents it and asks for one of the
    identifiers listed with it. *)
Theorem C114_access_token_is_honoured (c : iconfig) i j r t cr d cid o :
  ireach c →
  answered c i (QToken r) (Ok (RToken t)) →
  d ∈ default [] (trs_authorization_details t) → cid ∈ atd_identifiers d →
  answered c j (QCredential cr) o → before (c_log c) i j →
  cr_access_token cr = trs_access_token t → cr_credential cr = CIIdentifier cid →
  undisturbed (c_log c) (trs_access_token t) i j →
  (∀ e, e ∈ calls_of j (c_log c) → ¬ failed e) →
  (∀ v x b tok n, Put (trs_access_token t) v x b ∈ calls_of i (c_log c) → s_stage v = Validated tok →
     X (VNow n) ∈ calls_of j (c_log c) → live v n ∧ nonce_live tok n) →
  (∀ iss en s cf ids nonce, X (VIssuer (cr_credential_issuer cr) (Some iss)) ∈ calls_of j (c_log c) →
     trs_c_nonce t = Some nonce →
     en ∈ c_log c → e_ev en = X (VAuthorize s cf (Some ids)) → cid ∈ ids →
     ∃ cfg, assoc cf (is_configurations iss) = Some cfg ∧ issuable iss cfg ∧
       proof_fits cfg nonce (cr_proof cr) (calls_of j (c_log c))) →
  ∃ resp, o = Ok (RCredential resp).
Proof. exact (token_honoured c i j r t cr d cid o). Qed.
Print Assumptions C114_access_token_is_honoured.

Example C114_example : let c := c110_world in ∃ t d o,
  ireach c ∧ answered c 1 (QToken c110_token) (Ok (RToken t)) ∧
  d ∈ default [] (trs_authorization_details t) ∧ "EmployeeID_JWT_1" ∈ atd_identifiers d ∧
  answered c 2 (QCredential c110_credential) o ∧ before (c_log c) 1 2 ∧
  cr_access_token c110_credential = trs_access_token t ∧ undisturbed (c_log c) (trs_access_token t) 1 2 ∧
  (∀ e, e ∈ calls_of 2 (c_log c) → ¬ failed e) ∧
  (∀ v x b tok n, Put (trs_access_token t) v x b ∈ calls_of 1 (c_log c) → s_stage v = Validated tok →
     X (VNow n) ∈ calls_of 2 (c_log c) → live v n ∧ nonce_live tok n) ∧
  (∀ iss en s cf ids nonce, X (VIssuer (cr_credential_issuer c110_credential) (Some iss)) ∈ calls_of 2 (c_log c) →
     trs_c_nonce t = Some nonce →
     en ∈ c_log c → e_ev en = X (VAuthorize s cf (Some ids)) → "EmployeeID_JWT_1" ∈ ids →
     ∃ cfg, assoc cf (is_configurations iss) = Some cfg ∧ issuable iss cfg ∧
       proof_fits cfg nonce (cr_proof c110_credential) (calls_of 2 (c_log c))).
Proof.
  cbv zeta. eexists _, _, _. split; [exact (after_reach _ _)|].
  split; [vm_compute; reflexivity|]. split; [left|]. split; [left|]. split; [vm_compute; reflexivity|].
  split; [apply beforeb_before; vm_compute; reflexivity|]. split; [reflexivity|].
  split. { intros en Hin He. logof c110_world Hin. each Hin; auto. }
  calls 1 c110_world. calls 2 c110_world. split; [|split].
  - intros e H. each H; by intros [].
  - intros v x b tok n H1 Hs H2. each H1. each H2. all: injection Hs as <-; split; vm_compute; reflexivity.
  - intros iss en s cf ids nonce H1 [= <-] H2 He Hc. each H1.
    assert (cf = "EmployeeID_JWT") as ->.
    { logof c110_world H2. each H2; simpl in He; simplify_eq; try done. by each Hc. }
    eexists. split; [reflexivity|]. split.
    + split; [done|]. eexists. split; [reflexivity|]. simpl. lia.
    + split; [by left|]. eexists. split; [reflexivity|]. intros jwt pj Hj Hin. each Hin. eauto.
Qed.

(** C115.  Request [i] used the access token and was given a nonce, with a credential or
    because its proof was not valid; [j] uses the token next, with that nonce. *)
Theorem C115_next_nonce_is_honoured (c : iconfig) i j ri st esi tok oi nonce cr cid o :
  ireach c → fresh (c_log c) → is_token (c_log c) (cr_access_token cr) →
  answered c i (QCredential ri) oi → cr_access_token ri = cr_access_token cr → next_nonce oi nonce →
  calls_of i (c_log c) = Get (cr_access_token ri) (Some st) :: esi → s_stage st = Validated tok →
  cid ∈ keys (tk_credentials tok) →
  answered c j (QCredential cr) o → before (c_log c) i j →
  cr_credential cr = CIIdentifier cid →
  undisturbed (c_log c) (cr_access_token cr) i j →
  (∀ e, e ∈ calls_of j (c_log c) → ¬ failed e) →
  (∀ t t', X (VNow t) ∈ calls_of i (c_log c) → X (VNow t') ∈ calls_of j (c_log c) → (t' ≤ t + minutes 10)%Z) →
  (∀ iss en s cf ids, X (VIssuer (cr_credential_issuer cr) (Some iss)) ∈ calls_of j (c_log c) →
     en ∈ c_log c → e_ev en = X (VAuthorize s cf (Some ids)) → cid ∈ ids →
     ∃ cfg, assoc cf (is_configurations iss) = Some cfg ∧ issuable iss cfg ∧
       proof_fits cfg nonce (cr_proof cr) (calls_of j (c_log c))) →
  ∃ resp, o = Ok (RCredential resp).
Proof. exact (nonce_honoured c i j ri st esi tok oi nonce cr cid o). Qed.
Print Assumptions C115_next_nonce_is_honoured.

(** A credential, and the next one with the nonce that came with it. *)
Definition c115_next : credential_request := ex_credential "token13" "Developer_JWT_2" "nonce28".
Definition c115_world : iconfig :=
  after w0 (serially [QCreateOffer c110_offer; QToken c110_token; QCredential c110_credential; QCredential c115_next]).
Example C115_example : let c := c115_world in ∃ st esi tok oi o,
  ireach c ∧ fresh (c_log c) ∧ is_token (c_log c) "token13" ∧
  answered c 2 (QCredential c110_credential) oi ∧ next_nonce oi "nonce28" ∧
  calls_of 2 (c_log c) = Get "token13" (Some st) :: esi ∧ s_stage st = Validated tok ∧
  "Developer_JWT_2" ∈ keys (tk_credentials tok) ∧
  answered c 3 (QCredential c115_next) o ∧ before (c_log c) 2 3 ∧ undisturbed (c_log c) "token13" 2 3 ∧
  (∀ e, e ∈ calls_of 3 (c_log c) → ¬ failed e) ∧
  (∀ t t', X (VNow t) ∈ calls_of 2 (c_log c) → X (VNow t') ∈ calls_of 3 (c_log c) → (t' ≤ t + minutes 10)%Z).
Proof.
  cbv zeta. eexists _, _, _, _, _. split; [exact (after_reach _ _)|]. split; [apply freshb_fresh; vm_compute; reflexivity|].
  split. { eexists. split; [apply elem_of_list_lookup; exists 13; vm_compute; reflexivity|reflexivity]. }
  split; [vm_compute; reflexivity|]. split; [left; eexists; split; reflexivity|].
  split; [vm_compute; reflexivity|]. split; [reflexivity|]. split; [simpl; set_solver|].
  split; [vm_compute; reflexivity|]. split; [apply beforeb_before; vm_compute; reflexivity|]. split.
  { assert (before (c_log c115_world) 1 2) as Hb by (apply beforeb_before; vm_compute; reflexivity).
    intros en Hin He. assert (e_who en ∈ [1; 2; 3]) as Hw.
    { logof c115_world Hin. clear Hb. each Hin; try (simpl in He; discriminate He); vm_compute; repeat constructor. }
    rewrite !elem_of_cons, elem_of_nil in Hw. destruct Hw as [->|[->|[->|[]]]]; auto. }
  calls 2 c115_world. calls 3 c115_world. split.
  - intros e H. each H; by intros [].
  - intros t t' H1 H2. each H1. all: each H2. all: vm_compute; discriminate.
Qed.
