(** Properties C40-C49: the verifier. *)
From Verif Require Import Base Json CoreModel VcModel Prog ProgFacts ExecSpec Sched IssuerTypes
  MatcherModel MatcherSpec MatcherExample VerifierModel VerifierSpec VerifierFacts VerifierExec VerifierExample.

(** C40.  An authorization request is created exactly when a descriptor is given and no call
    failed. *)
Theorem C40_request_created_iff r es o :
  runs (create_request r) es o →
  (∃ resp, o = Ok resp) ↔ vq_input_descriptors r ≠ [] ∧ ∀ e, e ∈ es → ¬ vfailed e.
Proof. exact (create_request_iff r es o). Qed.
Print Assumptions C40_request_created_iff.
(** It is what was asked for, with a newly generated token and nonce; it is saved under
    the token for five minutes and handed over by value or by reference to the token. *)
Theorem C40_request_saved_and_handed_over r es resp :
  runs (create_request r) es (Ok resp) →
  ∃ token nonce def_id meta t obj,
    Y (WGen GvUriToken token) ∈ es ∧ Y (WGen GvNonce nonce) ∈ es ∧ Y (WGen GvDefinitionId def_id) ∈ es ∧
    Y (WVerifier (vq_client_id r) (Some meta)) ∈ es ∧ Y (WNow t) ∈ es ∧
    asks r token nonce def_id meta obj ∧ handed_over r token obj resp ∧
    VPut token (VState (t + minutes 5)%Z obj) (t + minutes 5)%Z true ∈ es ∧
    ∀ k v x b, VPut k v x b ∈ es → k = token.
Proof. exact (create_request_saved r es resp). Qed.
Print Assumptions C40_request_saved_and_handed_over.
Example C40_example :
  (∃ es resp, runs (create_request (ex_create_request CrossDevice)) es (Ok resp) ∧
     vr_request_uri resp = Some "http://verifier/request/uri1" ∧ vr_request_object resp = None) ∧
  (∃ es resp o, runs (create_request (ex_create_request SameDevice)) es (Ok resp) ∧
     vr_request_uri resp = None ∧ vr_request_object resp = Some o ∧ vo_nonce o = "nonce3" ∧
     vo_client_id o = "http://verifier/callback") ∧
  (∃ es e, runs (create_request (CreateRequestRequest "http://verifier" "" [] SameDevice)) es (Err e)).
Proof.
  split; [|split].
  - eexists _, _. split; [apply (vsolo_runs vw0 ∅); vm_compute; reflexivity|]. auto.
  - eexists _, _, _. split; [apply (vsolo_runs vw0 ∅); vm_compute; reflexivity|]. auto.
  - eexists _, _. apply (vsolo_runs vw0 ∅). vm_compute. reflexivity.
Qed.

(** C41.  Exactly when the stored object is the client's and no call failed... *)
Theorem C41_object_given_iff r es o :
  runs (vrequest_object r) es o →
  ((∃ resp, o = Ok resp) ↔
   (∀ st, VGet (or_id r) (Some st) ∈ es → vo_client_id (vs_request st) = or_client_id r +:+ "/post") ∧
   ∀ e, e ∈ es → ¬ vfailed e).
Proof. exact (request_object_iff r es o). Qed.
Print Assumptions C41_object_given_iff.
(** ... the stored object, signed for the client, ... *)
Theorem C41_object_is_the_stored_one r es resp :
  runs (vrequest_object r) es (Ok resp) →
  ∃ st jwt, VGet (or_id r) (Some st) ∈ es ∧ vo_client_id (vs_request st) = or_client_id r +:+ "/post" ∧
    Y (WSign (or_client_id r) (vs_request st) (Some jwt)) ∈ es ∧ resp = RoJwt jwt.
Proof. exact (request_object_given r es resp). Qed.
Print Assumptions C41_object_is_the_stored_one.
(** ... without touching the store. *)
Theorem C41_store_unchanged r es o :
  runs (vrequest_object r) es o → ∀ e, e ∈ es → (∃ k v, e = VGet k v) ∨ ∃ x, e = Y x.
Proof. exact (request_object_quiet r es o). Qed.
Print Assumptions C41_store_unchanged.
(** In an execution, it was created earlier, for another device, by a request of the same
    client. *)
Theorem C41_object_created_for_client lb c i r x :
  reachable (vhandler lb) ∅ c →
  answered c i (VObject r) (Ok (VRObject x)) →
  ∃ j q st jwt, created_by c j (or_id r) q st ∧ vq_client_id q = or_client_id r ∧
    vq_device_flow q = CrossDevice ∧ x = RoJwt jwt ∧
    Y (WSign (or_client_id r) (vs_request st) (Some jwt)) ∈ calls_of i (c_log c).
Proof. exact (request_object_source lb c i r x). Qed.
Print Assumptions C41_object_created_for_client.
Example C41_example :
  let c := vafter vw0 (vserially [VCreate (ex_create_request CrossDevice);
    VObject (RequestObjectRequest "http://verifier" "uri1");
    VObject (RequestObjectRequest "http://other" "uri1")]) in
  reachable (vhandler ex_libs) ∅ c ∧
  answered c 1 (VObject (RequestObjectRequest "http://verifier" "uri1")) (Ok (VRObject (RoJwt "signed8"))) ∧
  answered c 2 (VObject (RequestObjectRequest "http://other" "uri1"))
    (Err (InvalidRequest "client ID mismatch")).
Proof. split; [apply vafter_reach|]. split; vm_compute; reflexivity. Qed.

(** C42.  For any JSONPath library that selects parts of documents. *)
Theorem C42_presentations_answer_the_nonce lb c i r x :
  reachable (vhandler lb) ∅ c → selects_parts (lb_engine lb) →
  answered c i (VResponse r) (Ok (VRResponse x)) →
  ∃ key st l, rq_state r = Some key ∧ VGet key (Some st) ∈ calls_of i (c_log c) ∧
    rq_vp_token r = Some l ∧ l ≠ [] ∧
    ∀ v, v ∈ l → ∃ p, presents (seen (calls_of i (c_log c))) (vo_nonce (vs_request st)) v p.
Proof. intros Hr. exact (response_presentations lb c Hr i r x). Qed.
Print Assumptions C42_presentations_answer_the_nonce.
Example C42_example :
  let c := vafter vw0 (vserially [VCreate (ex_create_request CrossDevice);
    VResponse (ex_response [KString "old"]); VResponse (ex_response []); VResponse (ex_response [KString "good"])]) in
  reachable (vhandler ex_libs) ∅ c ∧ selects_parts (lb_engine ex_libs) ∧
  answered c 1 (VResponse (ex_response [KString "old"])) (Err (InvalidRequest "nonce does not match")) ∧
  answered c 2 (VResponse (ex_response [])) (Err (InvalidRequest "no match for path_nested")) ∧
  ∃ x, answered c 3 (VResponse (ex_response [KString "good"])) (Ok (VRResponse x)).
Proof.
  split; [apply vafter_reach|]. split; [apply ex_selects_parts|].
  split; [vm_compute; reflexivity|]. split; [vm_compute; reflexivity|]. eexists. vm_compute. reflexivity.
Qed.

(** C43. *)
Theorem C43_every_descriptor_answered lb r es x :
  runs (response lb r) es (Ok x) →
  ∃ key st l vps doc subm def,
    rq_state r = Some key ∧ VGet key (Some st) ∈ es ∧
    rq_vp_token r = Some l ∧ Forall2 (presents (seen es) (vo_nonce (vs_request st))) l vps ∧
    document lb vps doc ∧ rq_submission r = Some subm ∧ vo_definition (vs_request st) = KObject def ∧
    pb_definition_id subm = pd_id def ∧
    ∀ d, d ∈ pd_input_descriptors def → ∃ token s, answers lb (seen es) doc subm d token s.
Proof. exact (response_descriptors lb r es x). Qed.
Print Assumptions C43_every_descriptor_answered.
(** Accepted before the credential expires, refused after. *)
Example C43_example :
  (∃ x, answered (vafter vw0 (vserially [VCreate (ex_create_request CrossDevice);
       VResponse (ex_response [KString "late"])])) 1 (VResponse (ex_response [KString "late"])) (Ok (VRResponse x))) ∧
  answered (vafter vw_slow (vserially [VCreate (ex_create_request CrossDevice);
       VResponse (ex_response [KString "late"])])) 1 (VResponse (ex_response [KString "late"]))
    (Err (InvalidRequest "credential has expired")).
Proof. split; [eexists|]; vm_compute; reflexivity. Qed.

(** C44.  Two accepted responses to one request overlapped; ... *)
Theorem C44_accepted_once_unless_overlapping lb c i j r r' x x' :
  reachable (vhandler lb) ∅ c → vfresh (c_log c) → i ≠ j → rq_state r = rq_state r' →
  answered c i (VResponse r) (Ok (VRResponse x)) → answered c j (VResponse r') (Ok (VRResponse x')) →
  overlap (c_log c) i j.
Proof. intros Hr. exact (response_once lb c Hr i j r r' x x'). Qed.
Print Assumptions C44_accepted_once_unless_overlapping.
(** ... acceptance removes the state, as the last thing; ... *)
Theorem C44_acceptance_removes_state lb r es x :
  runs (response lb r) es (Ok x) →
  ∃ key es', rq_state r = Some key ∧ es = es' ++ [VPurge key true] ∧ ∀ k b, VPurge k b ∉ es'.
Proof. exact (response_removes lb r es x). Qed.
Print Assumptions C44_acceptance_removes_state.
(** ... and refusal (or a panic) leaves it, unless it is the removal that failed. *)
Theorem C44_refusal_keeps_state lb r es o :
  runs (response lb r) es o → (∀ x, o ≠ Ok x) →
  (∀ k v x b, VPut k v x b ∉ es) ∧
  ∀ k b, VPurge k b ∈ es → b = false ∧ o = Err (ServerError "issue purging state").
Proof. exact (response_refused lb r es o). Qed.
Print Assumptions C44_refusal_keeps_state.
(** One after the other the second fails; overlapping, both succeed. *)
Example C44_example :
  let q := VResponse (ex_response [KString "good"]) in
  let c := vafter vw0 (vserially [VCreate (ex_create_request CrossDevice); VResponse (ex_response [KString "old"]); q; q]) in
  let d := vafter vw0 [Arrive (VCreate (ex_create_request CrossDevice)); Finish 0 60; Arrive q; Arrive q;
                       Steps 1 1; Finish 2 60; Finish 1 60] in
  reachable (vhandler ex_libs) ∅ c ∧ vfresh (c_log c) ∧
  (∃ x, answered c 2 q (Ok (VRResponse x))) ∧ answered c 3 q (Err (InvalidRequest "state not found")) ∧
  reachable (vhandler ex_libs) ∅ d ∧ vfresh (c_log d) ∧
  (∃ x x', answered d 1 q (Ok (VRResponse x)) ∧ answered d 2 q (Ok (VRResponse x'))).
Proof.
  intros q c d. split; [apply vafter_reach|]. split; [apply vfreshb_vfresh; vm_compute; reflexivity|].
  split; [eexists; vm_compute; reflexivity|]. split; [vm_compute; reflexivity|].
  split; [apply vafter_reach|]. split; [apply vfreshb_vfresh; vm_compute; reflexivity|].
  eexists _, _. split; vm_compute; reflexivity.
Qed.

(** C45.  Refuted: a response accepted a day after the request expired. *)
Theorem C45_expired_request_accepted_refuted : ∃ lb c i r x key st t,
  reachable (vhandler lb) ∅ c ∧ answered c i (VResponse r) (Ok (VRResponse x)) ∧
  rq_state r = Some key ∧ VGet key (Some st) ∈ calls_of i (c_log c) ∧
  Y (WNow t) ∈ calls_of i (c_log c) ∧ (vs_expires_at st + minutes 60 < t)%Z.
Proof.
  exists ex_libs. exists (vafter vw_slow (vserially [VCreate (ex_create_request CrossDevice);
    VResponse (ex_response [KString "long"])])). exists 1. eexists (ex_response [KString "long"]), _, "uri1", _, (seconds 86400).
  split; [apply vafter_reach|]. split; [vm_compute; reflexivity|]. split; [reflexivity|].
  split; [apply elem_of_list_lookup; exists 0; vm_compute; reflexivity|].
  split; [apply elem_of_list_lookup; exists 3; vm_compute; reflexivity|]. vm_compute. reflexivity.
Qed.
Print Assumptions C45_expired_request_accepted_refuted.
(** In fact the expiry of the stored state never makes a difference: the same run is
    possible with any other expiry. *)
Theorem C45_expiry_never_checked_refuted lb r r' k st exp es o o' :
  (runs (response lb r) (VGet k (Some st) :: es) o →
   runs (response lb r) (VGet k (Some (VState exp (vs_request st))) :: es) o) ∧
  (runs (vrequest_object r') (VGet k (Some st) :: es) o' →
   runs (vrequest_object r') (VGet k (Some (VState exp (vs_request st))) :: es) o').
Proof.
  exact (conj (response_ignores_expiry lb r k st exp es o) (object_ignores_expiry r' k st exp es o')).
Qed.
Print Assumptions C45_expiry_never_checked_refuted.
(** What is done: the store is told to keep the state for five minutes. *)
Theorem C45_store_told_expiry_partial lb c i key st :
  reachable (vhandler lb) ∅ c → VGet key (Some st) ∈ calls_of i (c_log c) →
  ∃ j t b, Y (WNow t) ∈ calls_of j (c_log c) ∧
    VPut key st (t + minutes 5)%Z b ∈ calls_of j (c_log c) ∧ vs_expires_at st = (t + minutes 5)%Z.
Proof. intros Hr. exact (get_expiry lb c Hr i key st). Qed.
Print Assumptions C45_store_told_expiry_partial.

(** C46.  Refuted: an unsigned presentation, given as an object with the nonce in an embedded
    proof that nobody checks, is accepted: no presentation is decoded at all. *)
Theorem C46_unsigned_presentation_accepted_refuted : ∃ lb c i p r x,
  reachable (vhandler lb) ∅ c ∧ answered c i (VResponse r) (Ok (VRResponse x)) ∧
  rq_vp_token r = Some [KObject p] ∧ ∀ jwt s, Y (WDecodeVp jwt s) ∉ calls_of i (c_log c).
Proof.
  exists ex_libs. exists (vafter vw0 (vserially [VCreate (ex_create_request CrossDevice);
    VResponse (ex_response [KObject (ex_vp (Some "did:thief") (Some "nonce3") "vc")])])).
  exists 1. eexists _, _, _. split; [apply vafter_reach|].
  split; [vm_compute; reflexivity|]. split; [reflexivity|].
  intros jwt s Hin. vm_compute in Hin.
  repeat (apply elem_of_cons in Hin as [Hin|Hin]; [discriminate Hin|]). by apply elem_of_nil in Hin.
Qed.
Print Assumptions C46_unsigned_presentation_accepted_refuted.
(** Presentations given as tokens are verified. *)
Theorem C46_tokens_verified_partial lb r es x jwt l :
  runs (response lb r) es (Ok x) → rq_vp_token r = Some l → KString jwt ∈ l →
  ∃ s, Y (WDecodeVp jwt (Some s)) ∈ es.
Proof. exact (response_tokens lb r es x jwt l). Qed.
Print Assumptions C46_tokens_verified_partial.

(** C47.  Refuted: the credential names did:issuer as its issuer, but is signed by
    did:mallory. *)
Theorem C47_other_signer_accepted_refuted : ∃ lb c i r x token s,
  reachable (vhandler lb) ∅ c ∧ answered c i (VResponse r) (Ok (VRResponse x)) ∧
  (∀ jwt r, Y (WDecodeVc jwt r) ∈ calls_of i (c_log c) → jwt = token ∧ r = Some s) ∧
  vc_issuer (vcc_vc (sv_claims s)) = KString "did:issuer" ∧ sv_kid s = "did:mallory#key-1".
Proof.
  exists ex_libs. exists (vafter vw0 (vserially [VCreate (ex_create_request CrossDevice);
    VResponse (ex_response [KString "mallory"])])).
  exists 1. eexists _, _, "vc-by-mallory", (ex_signed "did:mallory#key-1" "did:holder" None).
  split; [apply vafter_reach|].
  split; [vm_compute; reflexivity|]. split; [|split; reflexivity].
  intros jwt r Hin. vm_compute in Hin.
  repeat (apply elem_of_cons in Hin as [Hin|Hin]; [first [discriminate Hin | injection Hin as -> ->; split; reflexivity]|]).
  by apply elem_of_nil in Hin.
Qed.
Print Assumptions C47_other_signer_accepted_refuted.
(** The credential that answers a descriptor is signed by someone. *)
Theorem C47_signed_by_someone_partial lb r es x :
  runs (response lb r) es (Ok x) →
  ∃ key st def, rq_state r = Some key ∧ VGet key (Some st) ∈ es ∧ vo_definition (vs_request st) = KObject def ∧
    ∀ d, d ∈ pd_input_descriptors def → ∃ token s, Y (WDecodeVc token (Some s)) ∈ es ∧
      fulfils (lb_engine lb) (id_constraints d) s.
Proof. exact (response_signed lb r es x). Qed.
Print Assumptions C47_signed_by_someone_partial.

(** C48.  Refuted: a presentation made by someone else than the subject of its credential,
    and one made for another verifier. *)
Theorem C48_other_holder_accepted_refuted : ∃ lb c i r x s v,
  reachable (vhandler lb) ∅ c ∧ answered c i (VResponse r) (Ok (VRResponse x)) ∧
  rq_vp_token r = Some [KString "stolen"] ∧
  Y (WDecodeVp "stolen" (Some s)) ∈ calls_of i (c_log c) ∧ Y (WDecodeVc "vc" (Some v)) ∈ calls_of i (c_log c) ∧
  vp_holder (vpc_vp (sp_claims s)) = Some "did:thief" ∧ sp_kid s = "did:thief#key-1" ∧
  vcc_sub (sv_claims v) = "did:holder".
Proof.
  exists ex_libs. exists (vafter vw0 (vserially [VCreate (ex_create_request CrossDevice);
    VResponse (ex_response [KString "stolen"])])).
  exists 1. eexists (ex_response [KString "stolen"]), _, _, _. split; [apply vafter_reach|].
  split; [vm_compute; reflexivity|]. split; [reflexivity|].
  split; [apply elem_of_list_lookup; exists 1; vm_compute; reflexivity|].
  split; [apply elem_of_list_lookup; exists 2; vm_compute; reflexivity|]. auto.
Qed.
Print Assumptions C48_other_holder_accepted_refuted.
Theorem C48_other_audience_accepted_refuted : ∃ lb c i r x s key st,
  reachable (vhandler lb) ∅ c ∧ answered c i (VResponse r) (Ok (VRResponse x)) ∧
  rq_vp_token r = Some [KString "elsewhere"] ∧
  Y (WDecodeVp "elsewhere" (Some s)) ∈ calls_of i (c_log c) ∧
  VGet key (Some st) ∈ calls_of i (c_log c) ∧
  vpc_aud (sp_claims s) = "http://other" ∧ vo_client_id (vs_request st) = "http://verifier/post".
Proof.
  exists ex_libs. exists (vafter vw0 (vserially [VCreate (ex_create_request CrossDevice);
    VResponse (ex_response [KString "elsewhere"])])).
  exists 1. eexists (ex_response [KString "elsewhere"]), _, _, _, _. split; [apply vafter_reach|].
  split; [vm_compute; reflexivity|]. split; [reflexivity|].
  split; [apply elem_of_list_lookup; exists 1; vm_compute; reflexivity|].
  split; [apply elem_of_list_lookup; exists 0; vm_compute; reflexivity|]. auto.
Qed.
Print Assumptions C48_other_audience_accepted_refuted.
(** What ties a presentation to this verifier is the nonce: it was generated for the
    authorization request that is being answered, and for no other. *)
Theorem C48_nonce_of_this_request_partial lb c i r x :
  reachable (vhandler lb) ∅ c → vfresh (c_log c) →
  answered c i (VResponse r) (Ok (VRResponse x)) →
  ∃ key j q st l, rq_state r = Some key ∧ created_by c j key q st ∧ rq_vp_token r = Some l ∧
    (∀ v, v ∈ l → ∃ p, presents (seen (calls_of i (c_log c))) (vo_nonce (vs_request st)) v p) ∧
    ∀ j' key' q' st', created_by c j' key' q' st' →
      vo_nonce (vs_request st') = vo_nonce (vs_request st) → j' = j.
Proof. intros Hr. exact (response_nonce lb c Hr i r x). Qed.
Print Assumptions C48_nonce_of_this_request_partial.

(** C49.  If tokens decode consistently and the clock stands still during the request, and
    the store works, a response is accepted exactly when it is an answer to the stored
    request. *)
Theorem C49_accepted_iff_acceptable lb su r es o key st :
  runs (response lb r) es o → as_in su es →
  rq_state r = Some key → VGet key (Some st) ∈ es → (∀ k, VPurge k false ∉ es) →
  (∃ x, o = Ok x) ↔ acceptable lb su (vs_request st) r.
Proof. exact (response_iff lb su r es o key st). Qed.
Print Assumptions C49_accepted_iff_acceptable.
(** In a world where the clock stands at 9 seconds, for both outcomes. *)
Example C49_example_accepted : ∃ es x st,
  runs (response ex_libs (ex_response [KString "late"])) es (Ok x) ∧ as_in ex_surroundings es ∧
  VGet "uri1" (Some st) ∈ es ∧ ∀ k, VPurge k false ∉ es.
Proof.
  eexists _, _, _. split; [apply (vsolo_runs ex_stood ex_stored); vm_compute; reflexivity|].
  split; [|split; [by left|]].
  - repeat split; intros; repeat (match goal with H : _ ∈ _ :: _ |- _ => apply elem_of_cons in H as [H|H] | H : _ ∈ [] |- _ => by apply elem_of_nil in H end; try discriminate); simplify_eq/=; try done.
  - intros k Hin. repeat (apply elem_of_cons in Hin as [Hin|Hin]; [discriminate|]). by apply elem_of_nil in Hin.
Qed.
Example C49_example_refused : ∃ es e st,
  runs (response ex_libs (ex_response [KString "old"])) es (Err e) ∧ as_in ex_surroundings es ∧
  VGet "uri1" (Some st) ∈ es ∧ ∀ k, VPurge k false ∉ es.
Proof.
  eexists _, _, _. split; [apply (vsolo_runs ex_stood ex_stored); vm_compute; reflexivity|].
  split; [|split; [by left|]].
  - repeat split; intros; repeat (match goal with H : _ ∈ _ :: _ |- _ => apply elem_of_cons in H as [H|H] | H : _ ∈ [] |- _ => by apply elem_of_nil in H end; try discriminate); simplify_eq/=; try done.
  - intros k Hin. repeat (apply elem_of_cons in Hin as [Hin|Hin]; [discriminate|]). by apply elem_of_nil in Hin.
Qed.
