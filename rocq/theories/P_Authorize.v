(** Properties C23-C39: authorization, pushed requests, and the issuer as a whole. *)
From Verif Require Import Base Json CoreModel VcModel Prog ProgFacts ExecSpec ExecFacts Sched IssuerTypes
  ClaimsModel Sha256 IssuerModel IssuerSpec IssuerOffer IssuerToken IssuerExpiry IssuerNonce AuthorizeSpec
  IssuerAuthorize IssuerPushed IssuerFrame IssuerExample.

(** C23. *)
Theorem C23_granted_iff_valid a es o :
  runs (authorize a) es o →
  ((∃ resp, o = Ok resp) ↔
   ∃ r h0 iss cl srv es',
     es = h0 ++ X (VIssuer (ro_credential_issuer r) (Some iss)) ::
          X (VClient (ro_client_id r) (Some cl)) ::
          X (VServer (ro_credential_issuer r) None (Some srv)) :: es' ∧
     request_object_of a h0 r ∧ (sv_require_par srv = Some true → pushed a) ∧
     authorization_valid iss cl srv r ∧ offer_linked r es' ∧ (∀ e, e ∈ es' → ¬ failed e)).
Proof. exact (authorize_iff a es o). Qed.
Print Assumptions C23_granted_iff_valid.

(** A request with a detail, a scope and an offer. *)
Definition c23_ro : request_object :=
  RequestObject ex_iss RTCode "client" (Some ex_redirect) (Some "state") (code_challenge ex_verifier)
    S256 (Some [AuthorizationDetail (ByConfigurationId "EmployeeID_JWT" None) None])
    (Some "DeveloperCredential") ex_subject (Some "code2").
Definition c23_world : iconfig :=
  after w0 (serially [QCreateOffer (ex_create ByVal); QAuthorize (ARObject c23_ro);
                      QAuthorize (ARObject c23_ro)]).
Example C23_example : ∃ resp e,
  answered c23_world 1 (QAuthorize (ARObject c23_ro)) (Ok (RAuthorize resp)) ∧
  answered c23_world 2 (QAuthorize (ARObject c23_ro)) (Err e).
Proof. eexists _, _. split; vm_compute; reflexivity. Qed.

(** C24. *)
Theorem C24_recorded_under_the_code a es resp :
  runs (authorize a) es (Ok resp) →
  ∃ r h0 h1 iss t items,
    es = h0 ++ X (VIssuer (ro_credential_issuer r) (Some iss)) :: h1 ∧ request_object_of a h0 r ∧
    X (VNow t) ∈ h1 ∧ X (VGen GAuthCode (ar_code resp)) ∈ h1 ∧ ar_state resp = ro_state r ∧
    ro_redirect_uri r = Some (ar_redirect_uri resp) ∧
    (∀ k v x b, Put k v x b ∈ es ↔ k = ar_code resp ∧ b = true ∧ x = (t + minutes 5)%Z ∧
       v = State (Some (ro_subject_id r))
             (StAuthorized (Authorization (ro_client_id r) (ro_redirect_uri r) (ro_code_challenge r)
                (ro_code_challenge_method r) items)) (t + minutes 5)%Z) ∧
    items_for iss r h1 items ∧ (∀ k, Purge k true ∈ es ↔ ro_issuer_state r = Some k).
Proof. exact (authorize_records a es resp). Qed.
Print Assumptions C24_recorded_under_the_code.
Example C24_example : ∃ es resp, runs (authorize (ARObject ex_ro)) es (Ok resp).
Proof. eexists _, _. apply (solo_runs w0 ∅). vm_compute. reflexivity. Qed.

(** C25.  What is missing: that the state is an offer. *)
Theorem C25_offer_for_its_subject_partial a es resp :
  runs (authorize a) es (Ok resp) →
  ∃ r h0, request_object_of a h0 r ∧ h0 `prefix_of` es ∧
    ∀ k, ro_issuer_state r = Some k →
      ∃ st, read_then es k st (live st) ∧ s_subject_id st = Some (ro_subject_id r).
Proof. exact (offer_taken_up a es resp). Qed.
Print Assumptions C25_offer_for_its_subject_partial.

(** The key of any other state of the subject will do; here it is an access token, which is
    removed. *)
Definition c25_ro : request_object :=
  RequestObject ex_iss RTCode "client" (Some ex_redirect) None (code_challenge ex_verifier)
    S256 None (Some "DeveloperCredential") ex_subject (Some "token13").
Definition c25_world : iconfig :=
  after w0 (serially [QCreateOffer (ex_create ByVal); QToken (ex_token_pre "code2" (Some "123456"));
                      QAuthorize (ARObject c25_ro);
                      QCredential (ex_credential "token13" "EmployeeID_JWT_1" "nonce14")]).
Theorem C25_not_an_offer_refuted : ∃ (c : iconfig) i j r tr ro resp e,
  ireach c ∧ fresh (c_log c) ∧ answered c i (QToken r) (Ok (RToken tr)) ∧
  ro_issuer_state ro = Some (trs_access_token tr) ∧
  answered c j (QAuthorize (ARObject ro)) (Ok (RAuthorize resp)) ∧ before (c_log c) i j ∧
  Purge (trs_access_token tr) true ∈ calls_of j (c_log c) ∧
  answered c 3 (QCredential (ex_credential (trs_access_token tr) "EmployeeID_JWT_1" "nonce14")) (Err e).
Proof.
  eexists c25_world, 1, 2, _, _, c25_ro, _, _. split; [apply after_reach|].
  split; [apply freshb_fresh; vm_compute; reflexivity|]. split; [vm_compute; reflexivity|].
  split; [reflexivity|]. split; [vm_compute; reflexivity|].
  split; [apply beforeb_before; vm_compute; reflexivity|].
  split; [apply elem_of_list_lookup; exists 11; vm_compute; reflexivity|]. vm_compute. reflexivity.
Qed.
Print Assumptions C25_not_an_offer_refuted.

(** C26.  Refuted: if the server requires pushed requests, no request is accepted at all,
    pushed or not. *)
Theorem C26_required_pushing_blocks_all_refuted (c : iconfig) i q resp :
  ireach c → par_required c → answered c i q (Ok resp) →
  match q with QPar _ | QAuthorize _ => False | _ => True end.
Proof. exact (par_required_blocks c i q resp). Qed.
Print Assumptions C26_required_pushing_blocks_all_refuted.

Definition par_server : world :=
  World (w_issuer w0) (Server (Some ["openid"; "email"]) [RTCode] (Some [AuthorizationCode; PreAuthorizedCode])
    (Some [S256]) (Some true) true) (w_clock w0) (w_pending w0) (w_tx w0).
(** A request that is accepted when pushing is optional, sent to a server that requires it. *)
Example C26_example : ∃ resp e,
  answered (after w0 (serially [QPar ex_ro])) 0 (QPar ex_ro) (Ok (RPar resp)) ∧
  ireach (after par_server (serially [QPar ex_ro])) ∧ par_required (after par_server (serially [QPar ex_ro])) ∧
  answered (after par_server (serially [QPar ex_ro])) 0 (QPar ex_ro) (Err e).
Proof.
  eexists _, _. split; [vm_compute; reflexivity|]. split; [apply after_reach|].
  split; [|vm_compute; reflexivity].
  intros en ci i srv Hen He.
  assert (Forall (λ en : entry ISig, match e_ev en with
    | EExt (VServer _ _ (Some s)) => sv_require_par s = Some true | _ => True end)
    (c_log (after par_server (serially [QPar ex_ro])))) as Hall by (vm_compute; by repeat constructor).
  rewrite Forall_forall in Hall. apply Hall in Hen. by rewrite He in Hen.
Qed.
(** What a server that does not require it accepts. *)
Theorem C26_pushed_when_optional_partial r es resp :
  runs (par r) es (Ok resp) →
  ∃ iss cl srv, X (VIssuer (ro_credential_issuer r) (Some iss)) ∈ es ∧
    X (VClient (ro_client_id r) (Some cl)) ∈ es ∧
    X (VServer (ro_credential_issuer r) None (Some srv)) ∈ es ∧
    sv_require_par srv ≠ Some true ∧
    (∀ ds d, ro_authorization_details r = Some ds → d ∈ ds → acceptable iss d).
Proof. exact (par_accepts r es resp). Qed.
Print Assumptions C26_pushed_when_optional_partial.

(** C27.  What is missing: one use only. *)
Theorem C27_reference_is_the_pushed_request_partial (c : iconfig) i u resp :
  ireach c → answered c i (QAuthorize (ARUri u)) (Ok (RAuthorize resp)) →
  ∃ j r p tok t1 t, c_pool c !! j = Some (QPar r, p) ∧ u = "urn:ietf:params:oauth:request_uri:" +:+ tok ∧
    X (VGen GUriToken tok) ∈ calls_of j (c_log c) ∧ X (VNow t1) ∈ calls_of j (c_log c) ∧
    X (VNow t) ∈ calls_of i (c_log c) ∧ (t ≤ t1 + seconds 600)%Z ∧
    (∃ iss cl srv, X (VIssuer (ro_credential_issuer r) (Some iss)) ∈ calls_of i (c_log c) ∧
       X (VClient (ro_client_id r) (Some cl)) ∈ calls_of i (c_log c) ∧
       X (VServer (ro_credential_issuer r) None (Some srv)) ∈ calls_of i (c_log c) ∧
       authorization_valid iss cl srv r) ∧
    ar_state resp = ro_state r ∧
    (∀ k v x b, Put k v x b ∈ calls_of i (c_log c) → k = ar_code resp ∧
       s_subject_id v = Some (ro_subject_id r) ∧ ∃ items, s_stage v = StAuthorized
         (Authorization (ro_client_id r) (ro_redirect_uri r) (ro_code_challenge r)
            (ro_code_challenge_method r) items)).
Proof. exact (reference_authorizes c i u resp). Qed.
Print Assumptions C27_reference_is_the_pushed_request_partial.

Definition c27_uri : authorization_request := ARUri "urn:ietf:params:oauth:request_uri:uri3".
Definition c27_world : iconfig := after w0 (serially [QPar ex_ro; QAuthorize c27_uri; QAuthorize c27_uri]).
Theorem C27_reference_used_twice_refuted : ∃ (c : iconfig) i j a r1 r2,
  ireach c ∧ fresh (c_log c) ∧ before (c_log c) i j ∧
  answered c i (QAuthorize (ARUri a)) (Ok (RAuthorize r1)) ∧
  answered c j (QAuthorize (ARUri a)) (Ok (RAuthorize r2)) ∧ ar_code r1 ≠ ar_code r2.
Proof.
  eexists c27_world, 1, 2, _, _, _. split; [apply after_reach|].
  split; [apply freshb_fresh; vm_compute; reflexivity|].
  split; [apply beforeb_before; vm_compute; reflexivity|].
  split; [vm_compute; reflexivity|]. split; [vm_compute; reflexivity|]. discriminate.
Qed.
Print Assumptions C27_reference_used_twice_refuted.

(** C28.  What is missing: the items after the first. *)
Theorem C28_first_scope_item_partial a es resp :
  runs (authorize a) es (Ok resp) →
  ∃ r h0 h1 iss, request_object_of a h0 r ∧
    es = h0 ++ X (VIssuer (ro_credential_issuer r) (Some iss)) :: h1 ∧
    ∀ s item, ro_scope r = Some s → head (split_whitespace s) = Some item →
      (∃ id cfg, (id, cfg) ∈ is_configurations iss ∧ cc_scope cfg = Some item ∧ ¬ by_detail iss r id) ∧
      ∀ id cfg, (id, cfg) ∈ is_configurations iss → cc_scope cfg = Some item → ¬ by_detail iss r id →
        ∃ it z k v x b, Put k v x b ∈ h1 ∧ s_stage v = StAuthorized z ∧ it ∈ az_items z ∧
          ai_configuration_id it = id ∧ ai_item it = ItemScope item.
Proof. exact (scope_considered a es resp). Qed.
Print Assumptions C28_first_scope_item_partial.

(** The second item is supported by no configuration, the third by one; both are ignored. *)
Definition c28_ro (scope : string) : request_object :=
  RequestObject ex_iss RTCode "client" (Some ex_redirect) None (code_challenge ex_verifier)
    S256 None (Some scope) ex_subject None.
Theorem C28_later_items_ignored_refuted : ∃ es resp,
  runs (authorize (ARObject (c28_ro "DeveloperCredential nonsense EmployeeIDCredential"))) es (Ok resp) ∧
  (∀ ids, X (VAuthorize ex_subject "EmployeeID_JWT" ids) ∉ es) ∧
  cc_scope ex_employee = Some "EmployeeIDCredential" ∧
  X (VIssuer ex_iss (Some ex_issuer)) ∈ es ∧
  ∀ id cfg, (id, cfg) ∈ is_configurations ex_issuer → cc_scope cfg ≠ Some "nonsense".
Proof.
  eexists _, _. split; [apply (solo_runs w0 ∅); vm_compute; reflexivity|].
  split. { intros ids H. repeat (apply elem_of_cons in H as [H|H]; [discriminate|]). by apply elem_of_nil in H. }
  split; [reflexivity|]. split; [by left|].
  intros id cfg H. cbn in H.
  repeat (apply elem_of_cons in H as [[= -> ->]|H]; [discriminate|]). by apply elem_of_nil in H.
Qed.
Print Assumptions C28_later_items_ignored_refuted.
Example C28_example_unsupported : ∃ es e, runs (authorize (ARObject (c28_ro "nonsense"))) es (Err e).
Proof. eexists _, _. apply (solo_runs w0 ∅). vm_compute. reflexivity. Qed.

(** C29.  At the three endpoints that take authorization details.  (The authorization-code
    grant of the token endpoint does not look at them.) *)
Theorem C29_authorize_mandatory_claims a es resp :
  runs (authorize a) es (Ok resp) →
  ∃ r h0 h1 iss, request_object_of a h0 r ∧
    es = h0 ++ X (VIssuer (ro_credential_issuer r) (Some iss)) :: h1 ∧
    ∀ ds d, ro_authorization_details r = Some ds → d ∈ ds → acceptable iss d.
Proof. exact (authorize_claims a es resp). Qed.
Print Assumptions C29_authorize_mandatory_claims.
Theorem C29_token_mandatory_claims r es resp code tx ds d :
  runs (token r) es (Ok resp) → tr_grant r = TGPreAuthorizedCode code tx →
  tr_authorization_details r = Some ds → d ∈ ds →
  ∃ iss, X (VIssuer (tr_credential_issuer r) (Some iss)) ∈ es ∧ acceptable iss d.
Proof. exact (token_claims r es resp code tx ds d). Qed.
Print Assumptions C29_token_mandatory_claims.

Definition narrow (cs : claimset) : request_object :=
  RequestObject ex_iss RTCode "client" (Some ex_redirect) None (code_challenge ex_verifier)
    S256 (Some [AuthorizationDetail (ByConfigurationId "EmployeeID_JWT"
      (Some (PCW3c (CredentialDefinition None None (Some cs))))) None]) None ex_subject None.
Definition mandatory : claimset := [("email", CEntry None); ("family_name", CEntry None)].
Example C29_example : (∃ es resp, runs (authorize (ARObject (narrow mandatory))) es (Ok resp)) ∧
  ∃ es e, runs (authorize (ARObject (narrow [("email", CEntry None)]))) es (Err e).
Proof. split; eexists _, _; apply (solo_runs w0 ∅); vm_compute; reflexivity. Qed.
Definition c29_token : token_request :=
  TokenRequest ex_iss (Some "client") (TGPreAuthorizedCode "code2" (Some "123456"))
    (Some [AuthorizationDetail (ByConfigurationId "EmployeeID_JWT" None) None]).
Example C29_example_token : ∃ t,
  answered (after w0 (serially [QCreateOffer (ex_create ByVal); QToken c29_token])) 1
    (QToken c29_token) (Ok (RToken t)).
Proof. eexists. vm_compute. reflexivity. Qed.

(** C30.  Refuted. *)
Theorem C30_unsupported_claims_accepted_refuted : ∃ es resp k,
  runs (authorize (ARObject (narrow (mandatory ++ [(k, CEntry None)])))) es (Ok resp) ∧
  X (VIssuer ex_iss (Some ex_issuer)) ∈ es ∧ format_claims (cc_format ex_employee) = Some ex_claims ∧
  assoc "EmployeeID_JWT" (is_configurations ex_issuer) = Some ex_employee ∧ k ∉ keys ex_claims.
Proof.
  eexists _, _, "salary". split; [apply (solo_runs w0 ∅); vm_compute; reflexivity|].
  split; [by left|]. split; [reflexivity|]. split; [reflexivity|].
  intros H. cbn in H. repeat (apply elem_of_cons in H as [H|H]; [discriminate|]). by apply elem_of_nil in H.
Qed.
Print Assumptions C30_unsupported_claims_accepted_refuted.
(** It is so for every unsupported claim and every set of claims. *)
Theorem C30_unsupported_claims_make_no_difference sup cs k c :
  k ∉ keys sup → k ∉ keys cs → claims_complete sup cs → claims_complete sup (cs ++ [(k, c)]).
Proof. exact (unsupported_ignored sup cs k c). Qed.
Print Assumptions C30_unsupported_claims_make_no_difference.

(** C31.  Refuted: the authorization names two claims, the credential has three.  (C17
    characterises the claims that are issued.) *)
Definition c31_world : iconfig :=
  after w0 (serially [QAuthorize (ARObject (narrow mandatory));
                      QToken (ex_token_code "code7" ex_verifier);
                      QCredential (ex_credential "token14" "EmployeeID_JWT_1" "nonce15")]).
Theorem C31_all_claims_issued_refuted : ∃ (c : iconfig) ro i resp s v jwt subj,
  ireach c ∧ fresh (c_log c) ∧ c_pool c !! 0 = Some (QAuthorize (ARObject ro), Ret (Ok (RAuthorize resp))) ∧
  (∃ d, ro_authorization_details ro = Some [d] ∧ narrowed d = Some mandatory) ∧
  X (VSignVc s v jwt) ∈ calls_of i (c_log c) ∧ vc_subject (vcc_vc v) = QOne subj ∧
  "given_name" ∈ keys (cs_claims subj) ∧ "given_name" ∉ keys mandatory.
Proof.
  eexists c31_world, (narrow mandatory), 2, _, _, _, _, _. split; [apply after_reach|].
  split; [apply freshb_fresh; vm_compute; reflexivity|]. split; [vm_compute; reflexivity|].
  split; [eexists; split; reflexivity|].
  split; [apply elem_of_list_lookup; exists 9; vm_compute; reflexivity|]. split; [reflexivity|].
  split; [vm_compute; do 2 right; by left|].
  intros H. cbn in H. repeat (apply elem_of_cons in H as [H|H]; [discriminate|]). by apply elem_of_nil in H.
Qed.
Print Assumptions C31_all_claims_issued_refuted.

(** C32.  Refuted: the token says 900 seconds; it is refused as expired five minutes after
    the code was made. *)
Definition c32_world : iconfig :=
  after (World (w_issuer w0) (w_server w0)
           (λ n, if Nat.ltb n 9 then 0%Z else if Nat.ltb n 18 then minutes 5 else minutes 6)
           (w_pending w0) (w_tx w0))
    (serially [QCreateOffer (ex_create ByVal); QToken (ex_token_pre "code2" (Some "123456"));
               QCredential (ex_credential "token13" "EmployeeID_JWT_1" "nonce14")]).
Theorem C32_token_expires_early_refuted : ∃ (c : iconfig) r tr cr t t',
  ireach c ∧ fresh (c_log c) ∧ answered c 1 (QToken r) (Ok (RToken tr)) ∧
  X (VNow t) ∈ calls_of 1 (c_log c) ∧ cr_access_token cr = trs_access_token tr ∧
  X (VNow t') ∈ calls_of 2 (c_log c) ∧ (t' < t + seconds (trs_expires_in tr))%Z ∧
  answered c 2 (QCredential cr) (Err (InvalidCredentialRequest "token state expired")).
Proof.
  eexists c32_world, _, _, _, (minutes 5), (minutes 6). split; [apply after_reach|].
  split; [apply freshb_fresh; vm_compute; reflexivity|]. split; [vm_compute; reflexivity|].
  split; [apply elem_of_list_lookup; exists 2; vm_compute; reflexivity|].
  split; [|split; [apply elem_of_list_lookup; exists 2; vm_compute; reflexivity|split;
    [|vm_compute; reflexivity]]]; [reflexivity|].
  vm_compute. reflexivity.
Qed.
Print Assumptions C32_token_expires_early_refuted.
(** What holds: the saved state expires with the code. *)
Theorem C32_token_expires_with_the_code_partial r es resp :
  runs (token r) es (Ok resp) →
  trs_expires_in resp = 900%Z ∧
  ∃ st, Get (presented r) (Some st) ∈ es ∧
    ∀ k v x b, Put k v x b ∈ es → s_expires_at v = s_expires_at st.
Proof. exact (token_expiry r es resp). Qed.
Print Assumptions C32_token_expires_with_the_code_partial.

(** C33.  Refuted: without a client id the request is refused although the server supports
    anonymous access. *)
Definition c33_request : token_request :=
  TokenRequest ex_iss None (TGPreAuthorizedCode "code2" (Some "123456")) None.
Definition c33_world : iconfig := after w0 (serially [QCreateOffer (ex_create ByVal); QToken c33_request]).
Theorem C33_anonymous_refused_refuted : ∃ (c : iconfig) srv,
  ireach c ∧ tr_client_id c33_request = None ∧
  X (VServer ex_iss None (Some srv)) ∈ calls_of 1 (c_log c) ∧ sv_anonymous_access srv = true ∧
  answered c 1 (QToken c33_request) (Err (InvalidClient "anonymous access is not supported")).
Proof.
  eexists c33_world, _. split; [apply after_reach|]. split; [reflexivity|].
  split; [apply elem_of_list_lookup; exists 3; vm_compute; reflexivity|]. split; [reflexivity|].
  vm_compute. reflexivity.
Qed.
Print Assumptions C33_anonymous_refused_refuted.
(** What holds: a missing client id is always refused; an empty one according to the
    policy. *)
Theorem C33_policy_for_empty_client_partial r es code tx :
  tr_grant r = TGPreAuthorizedCode code tx →
  (∀ resp, runs (token r) es (Ok resp) → ∃ id, tr_client_id r = Some id ∧
     (id = "" → ∃ srv, X (VServer (tr_credential_issuer r) None (Some srv)) ∈ es ∧ sv_anonymous_access srv = true)) ∧
  (runs (token r) es (Err (InvalidClient "anonymous access is not supported")) →
     tr_client_id r = None ∨ tr_client_id r = Some "" ∧
       ∃ srv, X (VServer (tr_credential_issuer r) None (Some srv)) ∈ es ∧ sv_anonymous_access srv = false).
Proof. exact (anonymous_outcome r es code tx). Qed.
Print Assumptions C33_policy_for_empty_client_partial.

(** C34. *)
Theorem C34_only_own_keys q p es1 e es2 k :
  path (ihandler q) (es1 ++ e :: es2) p → touched e = Some k → own_key q es1 k.
Proof. exact (own_keys q p es1 e es2 k). Qed.
Print Assumptions C34_only_own_keys.
(** Between two points of an execution, a key that is no request's own keeps its value. *)
Theorem C34_other_keys_keep_their_value (c : iconfig) n m k :
  ireach c → n ≤ m →
  (∀ a en q p, n ≤ a < m → c_log c !! a = Some en → c_pool c !! e_who en = Some (q, p) →
     ¬ own_key q (calls_of (e_who en) (take a (c_log c))) k) →
  store_after ∅ (take m (c_log c)) !! k = store_after ∅ (take n (c_log c)) !! k.
Proof. exact (store_frame c n m k). Qed.
Print Assumptions C34_other_keys_keep_their_value.
(** One session's code stays while another session runs: the second request owns another
    key only. *)
Example C34_example : let c := after w0 (serially [QCreateOffer (ex_create ByVal); QNotification (NotificationRequest ex_iss "t" "n")]) in
  ireach c ∧ (∀ a en q p, 8 ≤ a < length (c_log c) → c_log c !! a = Some en →
    c_pool c !! e_who en = Some (q, p) → ¬ own_key q (calls_of (e_who en) (take a (c_log c))) "code2") ∧
  is_Some (store_after ∅ (take 8 (c_log c)) !! "code2").
Proof.
  intros c. split; [apply after_reach|]. split; [|vm_compute; eauto].
  intros a en q p Ha Hen Hq. assert (a = 8) as ->.
  { replace (length (c_log c)) with 9 in Ha by (vm_compute; reflexivity). lia. }
  vm_compute in Hen. injection Hen as <-. vm_compute in Hq. injection Hq as <- <-.
  intros [H|[(k' & st & H & _)|(g & s & H & _)]]; vm_compute in H; inversion H; subst.
  all: match goal with H : _ ∈ [] |- _ => inversion H end.
Qed.

(** C35.  What is missing: these causes do exist. *)
Theorem C35_panics_only_for_cause_partial q es w : runs (ihandler q) es (Panic w) → panic_cause q es.
Proof. exact (panics q es w). Qed.
Print Assumptions C35_panics_only_for_cause_partial.

Definition no_servers : world :=
  World (λ _, Issuer ex_iss (Some []) (is_configurations ex_issuer)) (w_server w0) (w_clock w0)
    (w_pending w0) (w_tx w0).
Theorem C35_create_offer_panics_refuted : ∃ (c : iconfig) w,
  ireach c ∧ answered c 0 (QCreateOffer (ex_create ByVal)) (Panic w).
Proof.
  eexists (after no_servers (serially [QCreateOffer (ex_create ByVal)])), _.
  split; [apply after_reach|]. vm_compute. reflexivity.
Qed.
Print Assumptions C35_create_offer_panics_refuted.
Definition sd_jwt : world :=
  World (λ _, Issuer ex_iss None [("EmployeeID_JWT", CredentialConfiguration (FVcSdJwt "employee" None) None None None);
      ("Developer_JWT", ex_developer)])
    (w_server w0) (w_clock w0) (w_pending w0) (w_tx w0).
Theorem C35_credential_panics_refuted : ∃ (c : iconfig) w,
  ireach c ∧ answered c 2 (QCredential (ex_credential "token13" "EmployeeID_JWT_1" "nonce14")) (Panic w).
Proof.
  eexists (after sd_jwt (serially [QCreateOffer (ex_create ByVal); QToken (ex_token_pre "code2" (Some "123456"));
    QCredential (ex_credential "token13" "EmployeeID_JWT_1" "nonce14")])), _.
  split; [apply after_reach|]. vm_compute. reflexivity.
Qed.
Print Assumptions C35_credential_panics_refuted.

(** C36.  Refuted: the code and the token come from one issuer, the credential is signed by
    another. *)
Definition two_issuers : world :=
  World (λ id, Issuer id None (is_configurations ex_issuer)) (w_server w0) (w_clock w0)
    (w_pending w0) (w_tx w0).
Definition c36_request : credential_request :=
  CredentialRequest "http://other" "token13" (CIIdentifier "EmployeeID_JWT_1") (Some (PSingle "nonce14")).
Definition c36_world : iconfig :=
  after two_issuers (serially [QCreateOffer (ex_create ByVal); QToken (ex_token_pre "code2" (Some "123456"));
                               QCredential c36_request]).
Theorem C36_token_works_at_other_issuer_refuted : ∃ (c : iconfig) r tr cr resp v jwt,
  ireach c ∧ fresh (c_log c) ∧ answered c 1 (QToken r) (Ok (RToken tr)) ∧
  cr_access_token cr = trs_access_token tr ∧ cr_credential_issuer cr ≠ tr_credential_issuer r ∧
  answered c 2 (QCredential cr) (Ok (RCredential resp)) ∧
  X (VSignVc (cr_credential_issuer cr) v (Some jwt)) ∈ calls_of 2 (c_log c) ∧
  crs_response resp = CRCredential (KString jwt).
Proof.
  eexists c36_world, _, _, c36_request, _, _, _. split; [apply after_reach|].
  split; [apply freshb_fresh; vm_compute; reflexivity|]. split; [vm_compute; reflexivity|].
  split; [reflexivity|]. split; [discriminate|]. split; [vm_compute; reflexivity|].
  split; [apply elem_of_list_lookup; exists 9; vm_compute; reflexivity|]. reflexivity.
Qed.
Print Assumptions C36_token_works_at_other_issuer_refuted.

(** C37.  Refuted: two requests that overlap present one proof, and both are answered with
    a credential. *)
Definition c37_request : irequest := QCredential (ex_credential "token13" "EmployeeID_JWT_1" "nonce14").
Definition c37_world : iconfig :=
  after w0 [Arrive (QCreateOffer (ex_create ByVal)); Finish 0 60;
            Arrive (QToken (ex_token_pre "code2" (Some "123456"))); Finish 1 60;
            Arrive c37_request; Arrive c37_request; Steps 2 1; Steps 3 1; Finish 2 60; Finish 3 60].
Theorem C37_nonce_used_twice_refuted : ∃ (c : iconfig) q ri rj ci cj jwt p,
  ireach c ∧ fresh (c_log c) ∧
  answered c 2 q (Ok (RCredential ri)) ∧ crs_response ri = CRCredential ci ∧
  answered c 3 q (Ok (RCredential rj)) ∧ crs_response rj = CRCredential cj ∧ ci ≠ cj ∧
  X (VDecodeProof jwt (Some p)) ∈ calls_of 2 (c_log c) ∧ X (VDecodeProof jwt (Some p)) ∈ calls_of 3 (c_log c) ∧
  pj_nonce p = Some "nonce14".
Proof.
  eexists c37_world, c37_request, _, _, _, _, _, _. split; [apply after_reach|].
  split; [apply freshb_fresh; vm_compute; reflexivity|].
  split; [vm_compute; reflexivity|]. split; [reflexivity|].
  split; [vm_compute; reflexivity|]. split; [reflexivity|]. split; [discriminate|].
  split; [apply elem_of_list_lookup; exists 4; vm_compute; reflexivity|].
  split; [apply elem_of_list_lookup; exists 4; vm_compute; reflexivity|]. reflexivity.
Qed.
Print Assumptions C37_nonce_used_twice_refuted.
(** What holds: it takes an overlap (for access tokens; see C15). *)
Theorem C37_only_under_overlap_partial (c : iconfig) i j ri rj respi respj credi credj jwt p jwt' p' nonce :
  ireach c → fresh (c_log c) → is_token (c_log c) (cr_access_token ri) →
  cr_access_token rj = cr_access_token ri →
  answered c i (QCredential ri) (Ok (RCredential respi)) → crs_response respi = CRCredential credi →
  answered c j (QCredential rj) (Ok (RCredential respj)) → crs_response respj = CRCredential credj →
  X (VDecodeProof jwt (Some p)) ∈ calls_of i (c_log c) → pj_nonce p = Some nonce →
  X (VDecodeProof jwt' (Some p')) ∈ calls_of j (c_log c) → pj_nonce p' = Some nonce →
  overlap (c_log c) i j.
Proof. exact (nonce_overlap c i j ri rj respi respj credi credj jwt p jwt' p' nonce). Qed.
Print Assumptions C37_only_under_overlap_partial.

(** C38. *)
Theorem C38_failed_token_saves_nothing r es e :
  runs (token r) es (Err e) → ∀ k v x, Put k v x true ∉ es.
Proof. exact (λ H k v x Hin, token_clean r es e H _ Hin I). Qed.
Print Assumptions C38_failed_token_saves_nothing.
Theorem C38_failed_par_saves_nothing r es e :
  runs (par r) es (Err e) → ∀ k v x, Put k v x true ∉ es.
Proof. exact (λ H k v x Hin, par_clean r es e H _ Hin I). Qed.
Print Assumptions C38_failed_par_saves_nothing.
Theorem C38_failed_offer_saves_nothing r es e :
  runs (credential_offer_endpoint r) es (Err e) → ∀ k v x, Put k v x true ∉ es.
Proof. exact (λ H k v x Hin, credential_offer_clean r es e H _ Hin I). Qed.
Print Assumptions C38_failed_offer_saves_nothing.
(** The one exception is a failure of the store after the authorization was saved, which is
    not a validation error. *)
Theorem C38_failed_authorize_saves_nothing a es e :
  runs (authorize a) es (Err e) → e ≠ ServerError "issue purging offer state" →
  ∀ k v x, Put k v x true ∉ es.
Proof. exact (authorize_clean_put a es e). Qed.
Print Assumptions C38_failed_authorize_saves_nothing.
(** The exceptions are a new nonce for the next proof, a failure of the store, and the
    request still being pending. *)
Theorem C38_failed_deferred_saves_nothing r es e :
  runs (deferred r) es (Err e) → ¬ renewing e → e ≠ IssuancePending 5 →
  ∀ k v x, Put k v x true ∉ es.
Proof. exact (deferred_clean_put r es e). Qed.
Print Assumptions C38_failed_deferred_saves_nothing.
Example C38_example :
  (∃ es e, runs (token (ex_token_pre "x" None)) es (Err e)) ∧
  (∃ es e, runs (par (c28_ro "nonsense")) es (Err e)) ∧
  (∃ es e, runs (authorize (ARObject (c28_ro "nonsense"))) es (Err e) ∧ e ≠ ServerError "issue purging offer state") ∧
  (∃ es e, runs (deferred (DeferredRequest ex_iss "x" "y")) es (Err e) ∧ ¬ renewing e ∧ e ≠ IssuancePending 5).
Proof.
  split; [eexists _, _; apply (solo_runs w0 ∅); vm_compute; reflexivity|].
  split; [eexists _, _; apply (solo_runs w0 ∅); vm_compute; reflexivity|].
  split; [eexists _, _; split; [apply (solo_runs w0 ∅); vm_compute; reflexivity|discriminate]|].
  eexists _, _; split; [apply (solo_runs w0 ∅); vm_compute; reflexivity|split; [|discriminate]].
  intros H. by cbn in H.
Qed.

(** C39.  Refuted: an authorization detail may name a configuration that does not exist. *)
Definition c39_ro : request_object :=
  RequestObject ex_iss RTCode "client" (Some ex_redirect) None (code_challenge ex_verifier)
    S256 (Some [AuthorizationDetail (ByConfigurationId "Nonsense" None) None]) None ex_subject None.
Theorem C39_unknown_configuration_granted_refuted : ∃ es resp,
  runs (authorize (ARObject c39_ro)) es (Ok resp) ∧
  X (VIssuer ex_iss (Some ex_issuer)) ∈ es ∧ assoc "Nonsense" (is_configurations ex_issuer) = None.
Proof.
  eexists _, _. split; [apply (solo_runs w0 ∅); vm_compute; reflexivity|]. split; [by left|reflexivity].
Qed.
Print Assumptions C39_unknown_configuration_granted_refuted.
(** What holds: it is refused when the detail narrows the claims, and when it asks by
    format. *)
Theorem C39_unknown_refused_partial a es resp r h0 d ds id :
  runs (authorize a) es (Ok resp) → request_object_of a h0 r → h0 `prefix_of` es →
  ro_authorization_details r = Some ds → d ∈ ds →
  (∃ cs, narrowed d = Some cs) ∨ (∃ f, ad_credential d = ByFormat f) →
  ∃ iss, X (VIssuer (ro_credential_issuer r) (Some iss)) ∈ es ∧
    (configured iss d id → is_Some (assoc id (is_configurations iss))).
Proof. exact (unknown_refused a es resp r h0 d ds id). Qed.
Print Assumptions C39_unknown_refused_partial.
