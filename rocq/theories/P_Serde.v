(** Properties C100-C106: what is written as JSON or as a query string is read back. *)
From Coq Require Import Lia.
From Verif Require Import Base StringSpec Json MatcherModel JsonParse JsonText CoreModel VcModel Prog ProgFacts ExecSpec ExecFacts
  Sched IssuerTypes ClaimsModel Sha256 IssuerModel IssuerSpec IssuerWp IssuerExec IssuerExample
  SerdeSpec SerdeModel SerdeFacts SerdeTrips SerdeText SerdeStore SerdeRequest SerdeProps SerdeExample QueryModel SerdeQuery.
From Verif Require UrlModel UrlSpec.

(** C100.  In every execution of the issuer on requests that were read from JSON, every state
    it saves is read back from its JSON value as it was. *)
Theorem C100_saved_states_read_back cx (c : iconfig) :
  dates_read cx → ireach c →
  (∀ i q p, c_pool c !! i = Some (q, p) → was_read q) →
  ∀ n en k v x o, c_log c !! n = Some en → e_ev en = Put k v x o → de_state cx (ser_state cx v) = Some v.
Proof. exact (saved_value cx c). Qed.
Print Assumptions C100_saved_states_read_back.
(** Which states have this property at all: *)
Theorem C100_exactly_the_readable cx s :
  dates_read cx → vcs_read cx → de_state cx (ser_state cx s) = Some s ↔ readable_state s.
Proof. exact (state_exact cx s). Qed.
Print Assumptions C100_exactly_the_readable.
(** and a state that was read from anything can be saved again. *)
Theorem C100_read_states_are_stable cx j s :
  dates_read cx → vcs_read cx → de_state cx j = Some s → de_state cx (ser_state cx s) = Some s.
Proof. exact (state_again cx j s). Qed.
Print Assumptions C100_read_states_are_stable.
(** A claims object without claims, in a request the program builds, is saved and read back
    as something else. *)
Example C100_example_unreadable :
  readable_claim (CSet []) → False.
Proof. by intros [? _]. Qed.
Example C100_example : ∃ en k v x, c_log (deep_run 118) !! 6 = Some en ∧ e_ev en = Put k v x true ∧
  de_state ex_cx (ser_state ex_cx v) = Some v.
Proof.
  destruct shallow_put as (en & k & v & x & H1 & H2). exists en, k, v, x. split; [done|]. split; [done|].
  refine (saved_value ex_cx (deep_run 118) ex_dates (deep_reach 118) _ 6 en k v x true H1 H2).
  destruct shallow_pool as (p0 & ->). intros i q p. destruct i as [|i]; [|done]. intros [= <- <-].
  exists (ser_request (deep_request 118)). apply de_request_ser, deep_readable.
Qed.

(** C101.  In a store that keeps states as JSON text, the same holds while the claims in the
    requests are nested less than 120 deep; *)
Theorem C101_saved_text_reads_back_partial cx (c : iconfig) :
  dates_read cx → ireach c →
  (∀ i q p, c_pool c !! i = Some (q, p) → was_read q ∧ ∀ l, l ∈ request_claims q → claims_depth l ≤ 119) →
  ∀ n en k v x o, c_log c !! n = Some en → e_ev en = Put k v x o →
  read (de_state cx) (write (ser_state cx) v) = Some v.
Proof. exact (saved_text cx c). Qed.
Print Assumptions C101_saved_text_reads_back_partial.
(** in general it holds exactly of the states nested less than 128 deep. *)
Theorem C101_exactly_the_shallow cx s :
  dates_read cx → vcs_read cx → (∀ c, s_stage s = Issued c → jnumbers (vc_json cx c)) →
  read (de_state cx) (write (ser_state cx) s) = Some s ↔ readable_state s ∧ jdepth (ser_state cx s) < 128.
Proof. exact (text_exact cx s). Qed.
Print Assumptions C101_exactly_the_shallow.
(** Without the bound it fails: a request that is itself read from text is pushed and answered
    with a request URI, and what was saved under it cannot be read. *)
Theorem C101_saved_text_reads_back_refuted : ∃ r c,
  read de_request (write ser_request r) = Some r ∧
  ireach c ∧ (∃ p, c_pool c = [(QPar r, p)]) ∧ (∃ i resp, answered c i (QPar r) (Ok (RPar resp))) ∧
  ∃ n en k v x, c_log c !! n = Some en ∧ e_ev en = Put k v x true ∧
    ∀ cx, read (de_state cx) (write (ser_state cx) v) = None.
Proof. exact deep_claims_lost. Qed.
Print Assumptions C101_saved_text_reads_back_refuted.
Example C101_example : ∃ en k v x, c_log (deep_run 118) !! 6 = Some en ∧ e_ev en = Put k v x true ∧
  read (de_state ex_cx) (write (ser_state ex_cx) v) = Some v.
Proof. exact shallow_saved. Qed.

(** C102.  Messages are read from the text they are written as. *)
Theorem C102_create_offer_request r : read de_create_offer (write ser_create_offer r) = Some r.
Proof. exact (create_offer_text r). Qed.
Print Assumptions C102_create_offer_request.
Theorem C102_create_offer_response r : (∀ o, cor_offer r = OfferObject o → readable_offer o) →
  read de_create_offer_response (write ser_create_offer_response r) = Some r.
Proof. exact (create_offer_response_text r). Qed.
Print Assumptions C102_create_offer_response.
Theorem C102_credential_offer o : readable_offer o → read de_offer (write ser_offer o) = Some o.
Proof. exact (offer_text o). Qed.
Print Assumptions C102_credential_offer.
Theorem C102_authorization_response r : read de_authorization_response (write ser_authorization_response r) = Some r.
Proof. exact (authorization_response_text r). Qed.
Print Assumptions C102_authorization_response.
Theorem C102_pushed_response r : fits 64 (pr_expires_in r) → read de_par_response (write ser_par_response r) = Some r.
Proof. exact (par_response_text r). Qed.
Print Assumptions C102_pushed_response.
Theorem C102_deferred_request r : read de_deferred_request (write ser_deferred_request r) = Some r.
Proof. exact (deferred_request_text r). Qed.
Print Assumptions C102_deferred_request.
(** The messages with claims: when these can be read, and are not nested too deep. *)
Theorem C102_request_object_partial r :
  readable_request r → (∀ c, c ∈ details_claims (ro_authorization_details r) → claims_depth c ≤ 122) →
  read de_request (write ser_request r) = Some r.
Proof. exact (request_text r). Qed.
Print Assumptions C102_request_object_partial.
Theorem C102_authorization_request_partial strict a :
  match a with
  | ARUri u => u ≠ ""
  | ARObject r => readable_request r ∧ ∀ c, c ∈ details_claims (ro_authorization_details r) → claims_depth c ≤ 122 end →
  read (de_authorization_request strict) (write ser_authorization_request a) = Some a.
Proof. exact (authorization_request_text strict a). Qed.
Print Assumptions C102_authorization_request_partial.
Theorem C102_token_request_partial r :
  readable_details (tr_authorization_details r) →
  (∀ c, c ∈ details_claims (tr_authorization_details r) → claims_depth c ≤ 122) →
  read de_token_request (write ser_token_request r) = Some r.
Proof. exact (token_request_text r). Qed.
Print Assumptions C102_token_request_partial.
Theorem C102_token_response_partial r :
  fits 64 (trs_expires_in r) → (∀ n, trs_c_nonce_expires_in r = Some n → fits 64 n) →
  (∀ l d, trs_authorization_details r = Some l → d ∈ l → readable_detail (atd_detail d)) →
  (∀ l d c, trs_authorization_details r = Some l → d ∈ l → c ∈ authorization_claims (ad_credential (atd_detail d)) → claims_depth c ≤ 122) →
  read de_token_response (write ser_token_response r) = Some r.
Proof. exact (token_response_text r). Qed.
Print Assumptions C102_token_response_partial.
Theorem C102_credential_request_partial r :
  readable_credential_request r → (∀ c, c ∈ issuance_claims (cr_credential r) → claims_depth c ≤ 124) →
  read de_credential_request (write ser_credential_request r) = Some r.
Proof. exact (credential_request_text r). Qed.
Print Assumptions C102_credential_request_partial.
(** What can be built but not read back: the claims of an SD-JWT credential come back as those
    of an mDL, for every set of claims. *)
Theorem C102_sd_jwt_claims_refuted id l loc : readable_claims l →
  de_detail (ser_detail (AuthorizationDetail (ByConfigurationId id (Some (PCSdJwt l))) loc)) =
  Some (AuthorizationDetail (ByConfigurationId id (Some (PCIsoMdl l))) loc).
Proof. exact (sd_jwt_claims id l loc). Qed.
Print Assumptions C102_sd_jwt_claims_refuted.
Example C102_example : readable_request ex_ro ∧
  read de_request (write ser_request ex_ro) = Some ex_ro ∧
  read de_token_request (write ser_token_request (ex_token_code "code" ex_verifier)) = Some (ex_token_code "code" ex_verifier).
Proof.
  assert (readable_request ex_ro) as H.
  { intros l d [= <-] ->%elem_of_list_singleton. done. }
  split; [done|]. split.
  - apply request_text; [done|]. by intros c ?%elem_of_nil.
  - apply token_request_text; [by intros l d|]. by intros c ?%elem_of_nil.
Qed.

(** C103.  Requests that were read from JSON, however it was written, are read back when they are
    sent on. *)
Theorem C103_request_object j r : de_request j = Some r → de_request (ser_request r) = Some r.
Proof. exact (request_again j r). Qed.
Print Assumptions C103_request_object.
Theorem C103_authorization_request strict strict' j a :
  de_authorization_request strict j = Some a →
  de_authorization_request strict' (ser_authorization_request a) = Some a.
Proof. exact (authorization_request_again strict strict' j a). Qed.
Print Assumptions C103_authorization_request.
Theorem C103_credential_request j r :
  de_credential_request j = Some r → de_credential_request (ser_credential_request r) = Some r.
Proof. exact (credential_request_again j r). Qed.
Print Assumptions C103_credential_request.
Definition ex_sloppy : json :=
  JObj [("subject_id", JStr "user"); ("unknown", JNull); ("scope", JNull); ("client_id", JStr "client")].
Example C103_example :
  de_request ex_sloppy = Some (RequestObject "" RTCode "client" None None "" S256 None None "user" None).
Proof. reflexivity. Qed.

(** C104.  A set of claims is read back exactly when no set inside it is empty or has a claim
    named like a member of a claim's description. *)
Theorem C104_claims_read_back_partial l : de_claimset (ser_claimset l) = Some l ↔ readable_claims l.
Proof. exact (claims_exact l). Qed.
Print Assumptions C104_claims_read_back_partial.
(** A nested claim with such a name is never read back, *)
Theorem C104_reserved_names_refuted k c : k ∈ ["mandatory"; "value_type"; "display"] →
  de_claim (ser_claim (CSet [(k, c)])) = None ∨
  ∃ c', de_claim (ser_claim (CSet [(k, c)])) = Some c' ∧ c' ≠ CSet [(k, c)].
Proof. exact (λ H, reserved_unread k H c). Qed.
Print Assumptions C104_reserved_names_refuted.
(** and what is said about a claim that has nested claims is dropped: *)
Theorem C104_mandatory_is_lost_refuted b k c : k ∉ ["mandatory"; "value_type"; "display"] → readable_claim c →
  de_claim (JObj [("mandatory", JBool b); (k, ser_claim c)]) = Some (CSet [(k, c)]).
Proof. exact (mandatory_lost b k c). Qed.
Print Assumptions C104_mandatory_is_lost_refuted.
(** a request without a mandatory claim is then accepted, *)
Theorem C104_mandatory_container_not_required_refuted b k c name :
  k ∉ ["mandatory"; "value_type"; "display"] → readable_claim c → claim_required c None = true →
  ∃ l, de_claimset (JObj [(name, JObj [("mandatory", JBool b); (k, ser_claim c)])]) = Some l ∧ claims_required [] l = true.
Proof. exact (container_not_required b k c name). Qed.
Print Assumptions C104_mandatory_container_not_required_refuted.
(** although it is refused for a claim without nested claims. *)
Theorem C104_mandatory_entry_required name :
  ∃ l, de_claimset (JObj [(name, JObj [("mandatory", JBool true)])]) = Some l ∧ claims_required [] l = false.
Proof. exact (entry_required name). Qed.
Print Assumptions C104_mandatory_entry_required.
Example C104_example :
  readable_claims [("address", CSet [("street", CEntry (Some true)); ("city", CEntry None)]); ("name", CEntry None)] ∧
  de_claimset (JObj [("address", JObj [("mandatory", JBool true); ("street", JObj [])])])
  = Some [("address", CSet [("street", CEntry None)])] ∧
  de_claim (ser_claim (CSet [("display", CEntry None)])) = None ∧
  de_claim (ser_claim (CSet [("mandatory", CEntry None)])) = None.
Proof. split; [|done]. by apply claims_exact. Qed.

(** C105.  Saying what is wanted in two ways is not refused: the credential identifier, or the
    configuration, is taken, and a format beside it ignored. *)
Theorem C105_identifier_and_format_partial m r id :
  lookups "credential_identifier" m = [JStr id] → de_credential_request (JObj m) = Some r →
  cr_credential r = CIIdentifier id.
Proof. exact (identifier_wins m r id). Qed.
Print Assumptions C105_identifier_and_format_partial.
Theorem C105_configuration_and_format_partial m d id :
  lookups "credential_configuration_id" m = [JStr id] → de_detail (JObj m) = Some d →
  ∃ o, ad_credential d = ByConfigurationId id o.
Proof. exact (configuration_wins m d id). Qed.
Print Assumptions C105_configuration_and_format_partial.
Theorem C105_two_ways_are_refused_refuted :
  (∃ r, de_credential_request (JObj [("credential_identifier", JStr "id"); ("format", JStr "vc+sd-jwt"); ("vct", JStr "x")]) = Some r) ∧
  (∃ d, de_detail (JObj [("type", JStr "openid_credential"); ("credential_configuration_id", JStr "id");
                         ("format", JStr "vc+sd-jwt"); ("vct", JStr "x")]) = Some d).
Proof. split; eexists; reflexivity. Qed.
Print Assumptions C105_two_ways_are_refused_refuted.
(** A proof of a kind that is not supported, and claims that cannot be read, are taken as absent. *)
Theorem C105_unreadable_parts_are_refused_refuted :
  (∃ r, de_credential_request (JObj [("credential_identifier", JStr "id");
          ("proof", JObj [("proof_type", JStr "cwt"); ("cwt", JStr "x")])]) = Some r ∧ cr_proof r = None) ∧
  (∃ d, de_detail (JObj [("type", JStr "openid_credential"); ("credential_configuration_id", JStr "id");
          ("credential_definition", JStr "x")]) = Some d ∧ ad_credential d = ByConfigurationId "id" None).
Proof. split; eexists; split; reflexivity. Qed.
Print Assumptions C105_unreadable_parts_are_refused_refuted.

(** C106.  A request object of harmless strings is read back from its query string. *)
Theorem C106_request_object_partial r :
  readable_request r → innocents (ser_request r) →
  (∀ c, c ∈ details_claims (ro_authorization_details r) → claims_depth c ≤ 122) →
  authorization_from_str (authorization_query (ARObject r)) = Some (ARObject r).
Proof. exact (object_query r). Qed.
Print Assumptions C106_request_object_partial.
(** A request by URI never is, unless there is an ampersand in the URI; *)
Theorem C106_request_uri_refuted u :
  has_char "&" u = false → authorization_from_str (authorization_query (ARUri u)) = None.
Proof. exact (uri_unread u). Qed.
Print Assumptions C106_request_uri_refuted.
(** and a parameter that is not known, which OAuth has servers ignore, makes any request
    unreadable. *)
Theorem C106_unknown_parameters_ignored_refuted r k v :
  readable_request r → innocents (ser_request r) →
  (∀ c, c ∈ details_claims (ro_authorization_details r) → claims_depth c ≤ 122) →
  UrlSpec.innocent k → UrlSpec.innocent v → k ∉ known →
  authorization_from_str (query_of (ser_request_entries r ++ [(k, JStr v)])) = None.
Proof. exact (unknown_refused r k v). Qed.
Print Assumptions C106_unknown_parameters_ignored_refuted.
Definition ex_query : request_object :=
  RequestObject "issuer" RTCode "client" (Some "redirect") (Some "state") "challenge" S256
    (Some [AuthorizationDetail (ByConfigurationId "EmployeeID_JWT" None) None]) (Some "Developer") "user" None.
Example C106_example :
  authorization_from_str (authorization_query (ARObject ex_query)) = Some (ARObject ex_query) ∧
  authorization_from_str (query_of (ser_request_entries ex_query ++ [("nonce", JStr "x")])) = None ∧
  "nonce" ∉ known ∧
  authorization_from_str (authorization_query (ARUri "urn:ietf:params:oauth:request_uri:x")) = None.
Proof. split; [vm_compute; reflexivity|]. split; [vm_compute; reflexivity|]. split; [|vm_compute; reflexivity]. unfold known. set_solver. Qed.
