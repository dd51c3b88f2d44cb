(** C80-C82 and C89: the wallet's side of presentation, and that steps are taken once. *)
From Verif Require Import Base StringSpec Json CoreModel VcModel Prog ProgFacts ExecSpec Sched Sha256 IssuerTypes
  MatcherModel VerifierModel HolderModel HolderSpec HolderExec HolderRuns HolderSerial HolderProps HolderExample.
From Verif Require IssuerExample VerifierExample.
Import IssuerExample.

Definition presented : hconfig :=
  hafter hw0 (hserially [HRequest "request_uri"; HConsent "id1"; HPresent "id1"; HPresent "id1"]).

(** C80.  What is sent, and when.  What is missing: the credentials are selected for the
    first descriptor alone. *)
Theorem C80_sent_after_consent_partial (c : hconfig) n i uri rr x : hreach c → made c n i (HX (EPresent uri rr x)) →
  ∃ id n1 i1 n2 i2 url req creds d x0 rest,
    asked c i (HPresent id) ∧ n1 < n2 < n ∧ asked c i1 (HRequest url) ∧ saved c n1 i1 id ∧
    asked c i2 (HConsent id) ∧ saved c n2 i2 id ∧
    vo_definition req = KObject d ∧ pd_input_descriptors d = x0 :: rest ∧
    (∃ m, m < n1 ∧ (made c m i1 (HX (EParseRequest url (Some req))) ∨
                    ∃ jwt, made c m i1 (HX (EDecodeRequest jwt (Some req))))) ∧
    (∃ m, m < n1 ∧ made c m i1 (HX (EFind (id_constraints x0) (Some creds)))) ∧
    match vo_response_uri req with
    | Some u => ∃ u', uri = Some u' ∧ without_trailing "/" u u'
    | None => uri = None
    end ∧
    ∃ m jwt claims kid m', m < n ∧ made c m i (HX (ESignVp claims (Some jwt))) ∧
      m' < n ∧ made c m' i (HX (EKid kid)) ∧
      vpc_aud claims = vo_client_id req ∧ vpc_nonce claims = vo_nonce req ∧
      up_to "#" kid (vpc_iss claims) ∧ vp_holder (vpc_vp claims) = Some (vpc_iss claims) ∧
      default [] (vp_credential (vpc_vp claims)) = map (λ cr, KString (wc_issued cr)) creds ∧
      rq_vp_token rr = Some [KString jwt] ∧ rq_state rr = vo_state req ∧
      ∃ sub, rq_submission rr = Some sub ∧ pb_definition_id sub = pd_id d ∧
        map dm_id (pb_descriptor_map sub) = map id_id (pd_input_descriptors d).
Proof. intros Hr. exact (presentation_sent c Hr n i uri rr x). Qed.
Print Assumptions C80_sent_after_consent_partial.
Example C80_example : hreach presented ∧ ∃ n uri rr x, made presented n 2 (HX (EPresent uri rr (Some x))).
Proof. split; [apply hafter_reach|]. eexists 16, _, _, _, true. vm_compute. reflexivity. Qed.

(** Two descriptors: nothing is selected for the second, and the same credential is sent as
    the answer to both. *)
Definition second : input_descriptor :=
  InputDescriptor "diploma" None None None
    (Constraints (Some [Field ["$.type"] (Some (Filter "string" (FConst "DiplomaCredential"))) None])).
Definition two_descriptors : hconfig :=
  hafter (HWorld ex_issuer ex_server (λ _ _, None) [ex_wcredential "vc"]
            (ex_vprequest [VerifierExample.ex_descriptor "employee"; second])
            (λ _ _, Some (ResponseResponse None None)))
    (hserially [HRequest "request_uri"; HConsent "id1"; HPresent "id1"]).
Theorem C80_second_descriptor_refuted : ∃ (c : hconfig) i id n uri rr req d x0 x1 sub r,
  hreach c ∧ asked c i (HPresent id) ∧ made c n i (HX (EPresent uri rr (Some r))) ∧
  (∃ m j jwt, made c m j (HX (EDecodeRequest jwt (Some req)))) ∧
  vo_definition req = KObject d ∧ pd_input_descriptors d = [x0; x1] ∧ id_constraints x0 ≠ id_constraints x1 ∧
  (∀ m j f l, made c m j (HX (EFind f l)) → f ≠ id_constraints x1) ∧
  rq_submission rr = Some sub ∧
  map (λ m, (dm_id m, pn_path (dm_nested m))) (pb_descriptor_map sub) =
    [(id_id x0, "$.verifiableCredential[0]"); (id_id x1, "$.verifiableCredential[0]")].
Proof.
  eexists two_descriptors, 2, "id1", 16, _, _, _, _, _, _, _, _. split; [apply hafter_reach|].
  split; [eexists; vm_compute; reflexivity|]. split; [exists true; vm_compute; reflexivity|].
  split; [eexists 3, 0, _, true; vm_compute; reflexivity|]. split; [reflexivity|]. split; [reflexivity|].
  split; [done|]. split; [|split; reflexivity].
  intros m j f l [eff Hm] ->. apply elem_of_list_lookup_2 in Hm.
  assert (∀ en, en ∈ c_log two_descriptors → match e_ev en with
     | EExt (EFind f _) => f = id_constraints (VerifierExample.ex_descriptor "employee") | _ => True end) as H.
  { apply Forall_forall. vm_compute. repeat constructor. }
  apply H in Hm. discriminate Hm.
Qed.
Print Assumptions C80_second_descriptor_refuted.

(** C81. *)
Theorem C81_status_round_trip_partial s :
  (∀ e, s = PFailed e → boundary 0 e) → status_parse (status_display s) = Ok s.
Proof. exact (status_round_trip s). Qed.
Print Assumptions C81_status_round_trip_partial.
Theorem C81_parse_inverts_print_partial s st : status_parse s = Ok st →
  match st with
  | PFailed e => ∃ a, s = a +:+ e ∧ String.length a = 8 ∧ starts_with "Failed" s = true
  | _ => s = status_display st
  end.
Proof. exact (status_parse_ok s st). Qed.
Print Assumptions C81_parse_inverts_print_partial.
Theorem C81_panics_iff s : (∃ w, status_parse s = Panic w) ↔ starts_with "Failed" s = true ∧ ¬ boundary 8 s.
Proof. exact (status_parse_panics s). Qed.
Print Assumptions C81_panics_iff.
Theorem C81_parse_panics_refuted :
  (∃ w, status_parse "Failed" = Panic w) ∧ (∃ w, status_parse "Failed:" = Panic w).
Proof. split; eexists; reflexivity. Qed.
Print Assumptions C81_parse_panics_refuted.
Example C81_example : boundary 0 "not found" ∧ status_parse (status_display (PFailed "not found")) = Ok (PFailed "not found").
Proof. split; [exists "", "not found"; split_and!; done|reflexivity]. Qed.

(** C82.  Consent is used again: one consent, two presentations. *)
Theorem C82_presented_twice_refuted : ∃ (c : hconfig) i j k id n m uri uri' rr rr' x x',
  hreach c ∧ hfresh (c_log c) ∧ one_at_a_time (c_log c) ∧ i ≠ j ∧ asked c i (HPresent id) ∧ asked c j (HPresent id) ∧
  made c n i (HX (EPresent uri rr (Some x))) ∧ made c m j (HX (EPresent uri' rr' (Some x'))) ∧
  asked c k (HConsent id) ∧ ∀ k', asked c k' (HConsent id) → k' = k.
Proof.
  eexists presented, 2, 3, 1, "id1", 16, 25, _, _, _, _, _, _. split; [apply hafter_reach|].
  split; [apply hfreshb_hfresh; vm_compute; reflexivity|].
  split; [apply sorted_one_at_a_time; vm_compute; reflexivity|]. split; [done|].
  split; [eexists; vm_compute; reflexivity|]. split; [eexists; vm_compute; reflexivity|].
  split; [exists true; vm_compute; reflexivity|]. split; [exists true; vm_compute; reflexivity|].
  split; [eexists; vm_compute; reflexivity|].
  intros k' [p Hp]. assert (∀ k q p, c_pool presented !! k = Some (q, p) → q = HConsent "id1" → k = 1) as H.
  { clear. intros k q p Hk ->. destruct k as [|[|[|[|k]]]]; vm_compute in Hk; try done. }
  by eapply H.
Qed.
Print Assumptions C82_presented_twice_refuted.

(** C89.  When calls are made one at a time, an issuance is accepted once, gets one
    transaction code and one token, and a presentation is consented to once. *)
Theorem C89_steps_taken_once (c : hconfig) n m i j qi qj id s : hreach c → hfresh (c_log c) → one_at_a_time (c_log c) →
  asked c i qi → asked c j qj → step_on qi = Some (id, s) → step_on qj = Some (id, s) →
  saved c n i id → saved c m j id → i = j.
Proof. intros Hr. exact (step_once c Hr n m i j qi qj id s). Qed.
Print Assumptions C89_steps_taken_once.
Example C89_example : hreach presented ∧ hfresh (c_log presented) ∧ one_at_a_time (c_log presented) ∧
  asked presented 1 (HConsent "id1") ∧ ∃ n, saved presented n 1 "id1".
Proof.
  split; [apply hafter_reach|]. split; [apply hfreshb_hfresh; vm_compute; reflexivity|].
  split; [apply sorted_one_at_a_time; vm_compute; reflexivity|]. split; [eexists; vm_compute; reflexivity|].
  eexists 7, _, _, _. vm_compute. reflexivity.
Qed.
(** Overlapping calls can both take the step. *)
Definition overlap : hconfig :=
  hafter hw0 [Arrive (HOffer "client" "sub" (ex_offer true ["EmployeeID_JWT"])); Finish 0 60;
              Arrive (HAccept "id0" None); Arrive (HAccept "id0" (Some [AuthSpec "EmployeeID_JWT" None]));
              Steps 1 1; Finish 2 60; Finish 1 60].
Theorem C89_taken_twice_under_overlap : ∃ (c : hconfig) n m i j a b id,
  hreach c ∧ hfresh (c_log c) ∧ i ≠ j ∧ asked c i (HAccept id a) ∧ asked c j (HAccept id b) ∧
  saved c n i id ∧ saved c m j id.
Proof.
  eexists overlap, 7, 6, 1, 2, _, _, "id0". split; [apply hafter_reach|].
  split; [apply hfreshb_hfresh; vm_compute; reflexivity|]. split; [done|].
  split; [eexists; vm_compute; reflexivity|]. split; [eexists; vm_compute; reflexivity|].
  split; eexists _, _, _; vm_compute; reflexivity.
Qed.
Print Assumptions C89_taken_twice_under_overlap.
