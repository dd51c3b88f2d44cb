(** Properties C121-C127: the messages between verifier and wallet as JSON. *)
From Verif Require Import Base StringSpec Json MatcherModel JsonParse JsonText CoreModel VcModel Prog ProgFacts ExecSpec Sched IssuerTypes
  VerifierModel VerifierSpec VerifierExec HolderModel HolderSpec SerdeSpec SerdeModel SerdeFacts SerdeTrips SerdeText QueryModel SerdeQuery
  ErrorModel VcSpec VcSerde VcTrips SerdeExample WireSpec WireFacts DifSerde DifSpec DifTrips DifFacts DifExec DifQuery.
From Verif Require VerifierExample HolderExample MatcherExample UrlModel.

(** C121.  A presentation definition is read back from its JSON exactly when no format is named
    twice, *)
Theorem C121_definitions_read_back d :
  de_presentation_definition (ser_presentation_definition d) = Some d ↔ readable_presentation_definition d.
Proof. split; [apply de_definition_readable|apply de_definition_ser]. Qed.
Print Assumptions C121_definitions_read_back.
(** so whatever was read once is read back; *)
Theorem C121_what_was_read j d : de_presentation_definition j = Some d →
  de_presentation_definition (ser_presentation_definition d) = Some d.
Proof. intros H. apply C121_definitions_read_back. exact (de_definition_readable j d H). Qed.
Print Assumptions C121_what_was_read.
(** as text too; *)
Theorem C121_text d : readable_presentation_definition d →
  read de_presentation_definition (write ser_presentation_definition d) = Some d.
Proof. exact (definition_text d). Qed.
Print Assumptions C121_text.
(** and every submission is. *)
Theorem C121_submissions_read_back s : read de_submission (write ser_submission s) = Some s.
Proof. exact (submission_text s). Qed.
Print Assumptions C121_submissions_read_back.
(** The members, with their values. *)
Theorem C121_definition_members d : exactly [("id", Some (JStr (pd_id d)));
  ("input_descriptors", Some (ser_list ser_descriptor (pd_input_descriptors d))); ("name", option_map JStr (pd_name d));
  ("purpose", option_map JStr (pd_purpose d)); ("format", option_map (ser_map ser_claim_format) (pd_format d))]
  (ser_presentation_definition d).
Proof. exact (presentation_definition_members d). Qed.
Print Assumptions C121_definition_members.
Theorem C121_descriptor_members d c f g : exactly [("id", Some (JStr (id_id d))); ("name", option_map JStr (id_name d));
    ("purpose", option_map JStr (id_purpose d)); ("format", option_map (ser_map ser_claim_format) (id_format d));
    ("constraints", Some (ser_constraints (id_constraints d)))] (ser_descriptor d) ∧
  exactly [("fields", option_map (ser_list ser_field) (cn_fields c))] (ser_constraints c) ∧
  exactly [("path", Some (ser_strs (fd_path f))); ("filter", option_map ser_filter (fd_filter f));
    ("optional", option_map JBool (fd_optional f))] (ser_field f) ∧
  exactly [("alg", option_map ser_strs (cf_alg g)); ("proof_type", option_map ser_strs (cf_proof_type g))] (ser_claim_format g).
Proof. exact (conj (descriptor_members d) (conj (constraints_members c) (conj (field_members f) (claim_format_members g)))). Qed.
Print Assumptions C121_descriptor_members.
Theorem C121_submission_members s d n : exactly [("id", Some (JStr (pb_id s))); ("definition_id", Some (JStr (pb_definition_id s)));
    ("descriptor_map", Some (ser_list ser_mapping (pb_descriptor_map s)))] (ser_submission s) ∧
  exactly [("id", Some (JStr (dm_id d))); ("format", Some (JStr (dm_format d))); ("path", Some (JStr (dm_path d)));
    ("path_nested", Some (ser_nested (dm_nested d)))] (ser_mapping d) ∧
  exactly [("format", Some (JStr (pn_format n))); ("path", Some (JStr (pn_path n)))] (ser_nested n).
Proof. exact (conj (submission_members s) (conj (mapping_members d) (nested_members n))). Qed.
Print Assumptions C121_submission_members.
(** A filter is read exactly if it is a type with one of [const], [pattern] and [format], and
    nothing else; *)
Theorem C121_filters m f : de_filter (JObj m) = Some f ↔ filter_members f m.
Proof. exact (filter_iff m f). Qed.
Print Assumptions C121_filters.
(** so any other JSON Schema, which Presentation Exchange allows as a filter, makes the definition
    it occurs in unreadable. *)
Theorem C121_every_filter_refuted j v :
  filter_in j v → ¬ simple_filter v → de_presentation_definition j = None.
Proof.
  intros H1 H2. destruct (de_presentation_definition j) as [d|] eqn:E; [|done]. exfalso. exact (H2 (filters_simple j d v E H1)).
Qed.
Print Assumptions C121_every_filter_refuted.
Definition ex_definition : presentation_definition :=
  PresentationDefinition "def0"
    [InputDescriptor "employee" (Some "Employee") None (Some [("jwt_vc", ClaimFormat (Some ["EdDSA"]) None); ("ldp_vc", ClaimFormat None (Some ["X"]))])
       (Constraints (Some [Field ["$.type"; "$.vc.type"] (Some (Filter "string" (FConst "EmployeeIDCredential"))) (Some true);
                           Field ["$.issuer"] None None]))]
    None (Some "To verify employment") (Some [("jwt_vc", ClaimFormat None None)]).
(** The members of a filter with an enumeration, in a definition. *)
Definition ex_enum : list (string * json) := [("type", JStr "string"); ("enum", JArr [JStr "A"; JStr "B"])].
Definition definition_with (f : json) : json :=
  JObj [("id", JStr "d"); ("input_descriptors", JArr [JObj [("id", JStr "x");
    ("constraints", JObj [("fields", JArr [JObj [("path", JArr [JStr "$.type"]); ("filter", f)]])])]])].
Example C121_example :
  readable_presentation_definition ex_definition ∧
  read de_presentation_definition (write ser_presentation_definition ex_definition) = Some ex_definition ∧
  filter_in (definition_with (JObj ex_enum)) (JObj ex_enum) ∧ ¬ simple_filter (JObj ex_enum) ∧
  de_presentation_definition (definition_with (JObj ex_enum)) = None ∧
  is_Some (de_presentation_definition (definition_with (JObj [("const", JStr "A"); ("type", JStr "string")]))).
Proof.
  split; [apply C121_definitions_read_back; vm_compute; reflexivity|]. split; [vm_compute; reflexivity|].
  split. { do 6 eexists. split; [reflexivity|]. repeat (split; [repeat constructor|]). repeat constructor. }
  split.
  { intros [[=]|(f & m & [= <-] & Hm)]. apply C121_filters in Hm. vm_compute in Hm. discriminate Hm. }
  split; [vm_compute; reflexivity|]. eexists. vm_compute. reflexivity.
Qed.

(** C122.  Every authorization request the verifier signs can be read by the wallet from the text
    of what is signed, and is the one that was asked for; *)
Theorem C122_signed_requests_read_back lb (c : vconfig) i id o r : reachable (vhandler lb) ∅ c → well_supplied c →
  Y (WSign id o r) ∈ calls_of i (c_log c) →
  read de_vp_request (write ser_vp_request o) = Some o ∧ ∃ j k q st, created_by c j k q st ∧ o = vs_request st.
Proof. intros Hr Hw Hs. exact (conj (signed_text lb c i id o r Hr Hw Hs) (sign_created lb c i id o r Hr Hs)). Qed.
Print Assumptions C122_signed_requests_read_back.
(** so can the answers to its owner; *)
Theorem C122_answers_read_back lb (c : vconfig) i q x : reachable (vhandler lb) ∅ c → well_supplied c →
  answered c i (VCreate q) (Ok (VRCreate x)) → read de_create_response (write ser_create_response x) = Some x.
Proof. exact (create_answer_text lb c i q x). Qed.
Print Assumptions C122_answers_read_back.
(** and in general any request whose definition and metadata can. *)
Theorem C122_requests_read_back r : de_vp_request (ser_vp_request r) = Some r ↔ readable_vp_request r.
Proof. split; [apply de_vp_request_readable|apply de_vp_request_ser]. Qed.
Print Assumptions C122_requests_read_back.
Theorem C122_request_members r : exactly
  [("response_type", Some (ser_vp_response_type (vo_response_type r))); ("client_id", Some (JStr (vo_client_id r)));
   ("redirect_uri", option_map JStr (vo_redirect_uri r)); ("response_mode", option_map JStr (vo_response_mode r));
   ("response_uri", option_map JStr (vo_response_uri r)); ("scope", option_map JStr (vo_scope r)); ("nonce", Some (JStr (vo_nonce r)));
   ("state", option_map JStr (vo_state r)); ("presentation_definition", Some (ser_kind ser_presentation_definition (vo_definition r)));
   ("client_id_scheme", option_map ser_scheme (vo_client_id_scheme r)); ("client_metadata", Some (vo_client_metadata r))]
  (ser_vp_request r).
Proof. exact (vp_request_members r). Qed.
Print Assumptions C122_request_members.
(** OpenID4VP requests without metadata of the client, or with the definition by URI or by scope,
    cannot be read. *)
Theorem C122_standard_requests_refuted m :
  "client_metadata" ∉ keys m ∨ "presentation_definition" ∉ keys m → de_vp_request (JObj m) = None.
Proof. exact (vp_request_needs m). Qed.
Print Assumptions C122_standard_requests_refuted.
Definition ex_dif_run : vconfig :=
  VerifierExample.vafter VerifierExample.vw0 (VerifierExample.vserially
    [VCreate (VerifierExample.ex_create_request CrossDevice); VObject (RequestObjectRequest "http://verifier" "uri1");
     VCreate (VerifierExample.ex_create_request SameDevice)]).
Lemma ex_dif_supplied : well_supplied ex_dif_run.
Proof.
  split.
  - intros j r p d Hj Hd l Hl.
    assert (∀ q p, (q, p) ∈ c_pool ex_dif_run → q ∈ [VCreate (VerifierExample.ex_create_request CrossDevice);
      VObject (RequestObjectRequest "http://verifier" "uri1"); VCreate (VerifierExample.ex_create_request SameDevice)]) as Hp.
    { intros q p0 H. apply (elem_of_list_fmap_1 fst) in H.
      replace (c_pool ex_dif_run).*1 with [VCreate (VerifierExample.ex_create_request CrossDevice);
        VObject (RequestObjectRequest "http://verifier" "uri1"); VCreate (VerifierExample.ex_create_request SameDevice)] in H
        by (vm_compute; reflexivity). exact H. }
    apply elem_of_list_lookup_2, Hp in Hj.
    assert (vq_input_descriptors r = [VerifierExample.ex_descriptor "employee"]) as Er.
    { apply elem_of_cons in Hj as [[= ->]|Hj]; [done|]. apply elem_of_cons in Hj as [[=]|Hj].
      by apply elem_of_list_singleton in Hj as [= ->]. }
    rewrite Er in Hd. apply elem_of_list_singleton in Hd as ->. injection Hl as <-. apply NoDup_singleton.
  - intros j id m Hin. apply calls_of_elem in Hin.
    assert (Forall (λ en : entry VSig, match e_ev en with EExt (WVerifier _ (Some m)) => m = JObj [("client_id", JStr "http://verifier"); ("client_name", JStr "A verifier")] | _ => True end)
      (c_log ex_dif_run)) as Hf by (vm_compute; repeat constructor).
    destruct Hin as (en & Hin & _ & He). rewrite Forall_forall in Hf. specialize (Hf en Hin). rewrite He in Hf. simpl in Hf. subst m.
    exists (ClientMetadata "http://verifier" None None None None None None None None (Some "A verifier") None None None None None None None None None None None None).
    split; [done|reflexivity].
Qed.
Example C122_example :
  reachable (vhandler VerifierExample.ex_libs) ∅ ex_dif_run ∧ well_supplied ex_dif_run ∧
  (∃ o r, Y (WSign "http://verifier" o r) ∈ calls_of 1 (c_log ex_dif_run) ∧ vo_nonce o = "nonce3" ∧
     read de_vp_request (write ser_vp_request o) = Some o) ∧
  (∃ q o, answered ex_dif_run 2 (VCreate q) (Ok (VRCreate (CreateRequestResponse (Some o) None)))) ∧
  de_vp_request (JObj [("response_type", JStr "vp_token"); ("client_id", JStr "c"); ("nonce", JStr "n");
    ("presentation_definition_uri", JStr "https://verifier/definition")]) = None.
Proof.
  split; [apply VerifierExample.vafter_reach|]. split; [apply ex_dif_supplied|]. split.
  { eexists _, _. split; [|split]; [apply elem_of_list_In; vm_compute; right; right; left; reflexivity|reflexivity|vm_compute; reflexivity]. }
  split; [|reflexivity]. eexists _, _. vm_compute. reflexivity.
Qed.

(** C123.  The answer to the wallet's request for an authorization request is read back when it is
    a token, *)
Theorem C123_tokens_read_back_partial t : de_object_response (ser_object_response (RoJwt t)) = Some (RoJwt t).
Proof. reflexivity. Qed.
Print Assumptions C123_tokens_read_back_partial.
(** and never when it is an object. *)
Theorem C123_objects_read_back_refuted o : de_object_response (ser_object_response (RoObject o)) = None.
Proof. exact (object_response_unread o). Qed.
Print Assumptions C123_objects_read_back_refuted.
(** An answer that says nothing is taken as a request, without nonce and definition. *)
Theorem C123_nothing_is_refused_refuted : ∃ o, de_object_response (JObj []) = Some (RoObject o) ∧ vo_nonce o = "" ∧
  vo_client_id o = "" ∧ vo_definition o = KString "".
Proof. by eexists. Qed.
Print Assumptions C123_nothing_is_refused_refuted.
(** Written with a name, as only others do, the one or the other is read; of several the last one is taken, and nothing else may be there. *)
Inductive object_member : string * json → request_object_response → Prop :=
| jwt_member t : object_member ("jwt", JStr t) (RoJwt t)
| request_member j o : de_vp_request j = Some o → object_member ("request_object", j) (RoObject o).
Theorem C123_read_iff m a : de_object_response (JObj m) = Some a ↔
  (∀ kv, kv ∈ m → ∃ b, object_member kv b) ∧ (m ≠ [] → ∃ kv, last m = Some kv ∧ object_member kv a) ∧
  (m = [] → a = RoObject vp_request_default).
Proof.
  change (de_object_response (JObj m)) with (de_object_members m (RoObject vp_request_default)).
  generalize (RoObject vp_request_default). induction m as [|[k v] m IH]; intros b.
  { simpl. split; [intros [= <-]|intros (_ & _ & ->); done]. split; [intros kv H; by apply elem_of_nil in H|]. done. }
  assert (∀ x, object_member (k, v) x → de_object_members ((k, v) :: m) b = de_object_members m x) as Hx.
  { intros x Hx. inversion Hx as [t|j o E]; subst; simpl; [done|by rewrite E]. }
  assert (de_object_members ((k, v) :: m) b = None ∨ ∃ x, object_member (k, v) x) as Hn.
  { simpl. case_bool_decide as E1; [subst k; destruct (de_vp_request v) eqn:Eo; [right; eexists; by constructor|by left]|].
    case_bool_decide as E2; [|by left]. subst k. destruct v; try by left. right. eexists. constructor. }
  split.
  - intros H. destruct Hn as [Hn|[x Hm]]; [congruence|]. rewrite (Hx x Hm) in H. apply IH in H as (H1 & H2 & H3). split.
    { intros kv [->|Hkv]%elem_of_cons; [by exists x|by apply H1]. }
    split; [|done]. intros _. destruct m as [|kv m]; [exists (k, v); by rewrite (H3 eq_refl)|].
    destruct (H2 ltac:(done)) as (kv' & E & H). by exists kv'.
  - intros (H1 & H2 & _). destruct (H1 (k, v) (elem_of_list_here _ _)) as [x Hm]. rewrite (Hx x Hm). apply IH.
    destruct (H2 ltac:(done)) as (kv & E & H). split; [intros kv' H'; apply H1; by right|]. destruct m as [|kv' m].
    + split; [done|]. intros _. injection E as <-. pose proof (Hx _ H) as Hy. rewrite (Hx _ Hm) in Hy. simpl in Hy. by injection Hy.
    + split; [|done]. intros _. by exists kv.
Qed.
Print Assumptions C123_read_iff.
Example C123_example : ser_object_response (RoJwt "a.b.c") = JStr "a.b.c" ∧
  de_object_response (JObj [("jwt", JStr "a.b.c")]) = Some (RoJwt "a.b.c") ∧ de_object_response (JObj [("other", JNull)]) = None.
Proof. done. Qed.

(** C124.  An authorization request of harmless strings, written as the query string of a link, is
    read by the wallet as it was; *)
Theorem C124_by_value_partial r : readable_vp_request r → innocents (ser_vp_request r) →
  UrlModel.url_from_str (read de_vp_request) (query_of (ser_vp_request_entries r)) = Some r.
Proof. exact (vp_query_read r). Qed.
Print Assumptions C124_by_value_partial.
(** it knows that it need not fetch the request, *)
Theorem C124_not_fetched r es q e : readable_vp_request r → innocents (ser_vp_request r) →
  path (h_request (query_of (ser_vp_request_entries r))) es q → e ∈ es → ∀ u x, e ≠ HX (ERequestObject u x).
Proof.
  intros Hr Hi Hp He u x ->. destruct (vp_query_mentions r Hr Hi) as (a & b & E). rewrite E in Hp.
  exact (request_fetchless a b es q _ Hp He I).
Qed.
Print Assumptions C124_not_fetched.
(** and this is so for all requests the verifier gives its owner for a link. *)
Theorem C124_links_are_read_partial lb (c : vconfig) i q x o : reachable (vhandler lb) ∅ c → well_supplied c →
  answered c i (VCreate q) (Ok (VRCreate x)) → vr_request_object x = Some o → innocents (ser_vp_request o) →
  UrlModel.url_from_str (read de_vp_request) (query_of (ser_vp_request_entries o)) = Some o.
Proof. intros Hr Hw Ha Ho. apply vp_query_read. exact (create_answer_readable lb c i q x Hr Hw Ha o Ho). Qed.
Print Assumptions C124_links_are_read_partial.
(** With other strings it can be misread or refused. *)
Definition ex_linked (path : string) : vp_request :=
  VpRequest VpToken "http://verifier/callback" None None None None "nonce3" (Some "uri1")
    (KObject (PresentationDefinition "def0" [InputDescriptor "employee" None None None
       (Constraints (Some [Field [path] (Some (Filter "string" (FConst "EmployeeIDCredential"))) None]))] None (Some "To verify employment") None))
    (Some SchemeRedirectUri) (JObj [("client_id", JStr "http://verifier"); ("client_name", JStr "A verifier")]).
Lemma ex_linked_readable p : readable_vp_request (ex_linked p).
Proof.
  split.
  - intros d [= <-]. split; [done|]. intros x ->%elem_of_list_singleton. done.
  - exists (ClientMetadata "http://verifier" None None None None None None None None (Some "A verifier") None None None None None None None None None None None None).
    split; [done|reflexivity].
Qed.
Theorem C124_every_request_refuted : ∃ r, readable_vp_request r ∧
  UrlModel.url_from_str (read de_vp_request) (query_of (ser_vp_request_entries r)) ≠ Some r.
Proof.
  exists (ex_linked "$['type']"). split; [apply ex_linked_readable|]. vm_compute. discriminate.
Qed.
Print Assumptions C124_every_request_refuted.
Example C124_example : readable_vp_request (ex_linked "$.type") ∧ innocents (ser_vp_request (ex_linked "$.type")) ∧
  UrlModel.url_from_str (read de_vp_request) (query_of (ser_vp_request_entries (ex_linked "$.type"))) = Some (ex_linked "$.type") ∧
  UrlModel.url_from_str (read de_vp_request) (query_of (ser_vp_request_entries (ex_linked "$['type']"))) = None.
Proof.
  split; [apply ex_linked_readable|]. split; [|split; vm_compute; reflexivity].
  unfold innocents. vm_compute. repeat split.
Qed.

(** C125.  What the wallet sends the verifier is read by it as it was sent: one token, a
    submission and the state; *)
Theorem C125_responses_read_back cx (c : hconfig) n i uri rr x : hreach c → dates_read cx → made c n i (HX (EPresent uri rr x)) →
  read (de_response_request cx) (write (ser_response_request cx) rr) = Some rr.
Proof. exact (presented_text cx c n i uri rr x). Qed.
Print Assumptions C125_responses_read_back.
(** so is any response whose presentations can be read. *)
Theorem C125_any_response cx n r : dates_read cx → readable_response r → shallow n (response_values r) → 7 + n < depth_limit →
  read (de_response_request cx) (write (ser_response_request cx) r) = Some r.
Proof. exact (response_text cx n r). Qed.
Print Assumptions C125_any_response.
Theorem C125_response_members cx r : exactly
  [("vp_token", option_map (ser_list (ser_kind (ser_vp cx))) (rq_vp_token r));
   ("presentation_submission", option_map ser_submission (rq_submission r)); ("state", option_map JStr (rq_state r))]
  (ser_response_request cx r).
Proof. exact (response_members cx r). Qed.
Print Assumptions C125_response_members.
(** The wallet always wraps the one token it sends in an array, as OpenID4VP forbids, *)
Theorem C125_single_token_refuted cx (c : hconfig) n i uri rr x : hreach c → made c n i (HX (EPresent uri rr x)) →
  ∃ jwt m, ser_response_request cx rr = JObj m ∧ ("vp_token", JArr [JStr jwt]) ∈ m.
Proof.
  intros Hr Hm. destruct (presented_shape c n i uri rr x Hr Hm) as (jwt & sub & Ht & _). exists jwt. eexists. split; [reflexivity|].
  rewrite Ht. left.
Qed.
Print Assumptions C125_single_token_refuted.
(** and the verifier does not read one that is sent as it should be. *)
Theorem C125_standard_response_refuted cx m t : ("vp_token", JStr t) ∈ m → de_response_request cx (JObj m) = None.
Proof. exact (response_needs_list cx m t). Qed.
Print Assumptions C125_standard_response_refuted.
Definition ex_presented : hconfig :=
  HolderExample.hafter HolderExample.hw0 (HolderExample.hserially
    [HRequest "request_uri"; HConsent "id1"; HPresent "id1"]).
Example C125_example : hreach ex_presented ∧ ∃ n uri rr x, made ex_presented n 2 (HX (EPresent uri rr x)) ∧
  read (de_response_request ex_cx) (write (ser_response_request ex_cx) rr) = Some rr.
Proof.
  split; [apply HolderExample.hafter_reach|]. exists 16. eexists _, _, _. split; [exists true; vm_compute; reflexivity|vm_compute; reflexivity].
Qed.

(** C126.  A client's metadata is read exactly when the members it knows have values of the right
    kind; *)
Theorem C126_metadata_read_iff m : is_Some (de_client_metadata (JObj m)) ↔ metadata_members ser_int m.
Proof. exact (metadata_iff m). Qed.
Print Assumptions C126_metadata_read_iff.
(** it is read back, *)
Theorem C126_metadata_read_back c : dates_fit c → de_client_metadata (ser_client_metadata c) = Some c.
Proof. exact (de_client_metadata_ser c). Qed.
Print Assumptions C126_metadata_read_back.
(** in particular when it was read before. *)
Theorem C126_what_was_read j c : de_client_metadata j = Some c → de_client_metadata (ser_client_metadata c) = Some c.
Proof. intros H. apply de_client_metadata_ser. exact (de_client_metadata_fits j c H). Qed.
Print Assumptions C126_what_was_read.
Theorem C126_metadata_members c : exactly
  [("client_id", Some (JStr (mt_client_id c))); ("client_id_issued_at", option_map ser_int (mt_issued_at c));
   ("client_secret", option_map JStr (mt_secret c)); ("client_secret_expires_at", option_map ser_int (mt_secret_expires_at c));
   ("redirect_uris", option_map ser_strs (mt_redirect_uris c));
   ("token_endpoint_auth_method", option_map ser_endpoint_auth (mt_endpoint_auth c));
   ("grant_types", option_map (ser_list ser_grant_type) (mt_grant_types c));
   ("response_types", option_map (ser_list ser_response_type) (mt_response_types c));
   ("client_name", option_map JStr (mt_name c)); ("client_uri", option_map JStr (mt_uri c)); ("logo_uri", option_map JStr (mt_logo c));
   ("scope", option_map JStr (mt_scope c)); ("contacts", option_map JStr (mt_contacts c)); ("tos_uri", option_map JStr (mt_tos c));
   ("policy_uri", option_map JStr (mt_policy c)); ("jwks_uri", option_map JStr (mt_jwks_uri c)); ("jwks", option_map JStr (mt_jwks c));
   ("software_id", option_map JStr (mt_software_id c)); ("software_version", option_map JStr (mt_software_version c));
   ("require_pushed_authorization_requests", option_map JBool (mt_pushed c));
   ("credential_offer_endpoint", option_map JStr (mt_offer_endpoint c)); ("vp_formats", option_map ser_vp_formats (mt_vp_formats c))]
  (ser_client_metadata c).
Proof. exact (metadata_document c). Qed.
Print Assumptions C126_metadata_members.
(** A client that can also take presentations in other formats cannot be read at all, *)
Theorem C126_other_formats_refuted m f k x : ("vp_formats", JObj f) ∈ m → (k, x) ∈ f → k ≠ "jwt_vp_json" →
  de_client_metadata (JObj m) = None.
Proof. exact (metadata_formats m f k x). Qed.
Print Assumptions C126_other_formats_refuted.
(** nor one whose contacts are a list, as RFC 7591 has them. *)
Theorem C126_contacts_refuted m l : ("contacts", JArr l) ∈ m → de_client_metadata (JObj m) = None.
Proof. exact (metadata_contacts m l). Qed.
Print Assumptions C126_contacts_refuted.
Definition ex_metadata : client_metadata :=
  ClientMetadata "http://verifier" (Some 1700000000%Z) None (Some ["http://verifier/callback"]) (Some AuthPrivateKeyJwt)
    (Some [AuthorizationCode; PreAuthorizedCode]) (Some [RTVpToken; RTIdToken]) (Some true) None (Some "A verifier") None None None None None None
    (Some "http://verifier/jwks") None None None None (Some (Some (ClaimFormat (Some ["EdDSA"; "ES256"]) None))).
Example C126_example : dates_fit ex_metadata ∧
  de_client_metadata (ser_client_metadata ex_metadata) = Some ex_metadata ∧
  metadata_members ser_int [("client_id", JStr "c"); ("client_name", JNull); ("unknown", JNum "1"); ("grant_types", JArr [JStr "authorization_code"])] ∧
  de_client_metadata (JObj [("client_id", JStr "c"); ("vp_formats", JObj [("ldp_vp", JObj [])])]) = None.
Proof.
  assert (de_client_metadata (ser_client_metadata ex_metadata) = Some ex_metadata) as H by (vm_compute; reflexivity).
  split; [exact (de_client_metadata_fits _ _ H)|]. split; [exact H|]. split; [|vm_compute; reflexivity].
  apply C126_metadata_read_iff. eexists. vm_compute. reflexivity.
Qed.

(** C127.  What the verifier saves of a request is read back from its text; *)
Theorem C127_saved_requests_read_back lb cx (c : vconfig) i k v x b : reachable (vhandler lb) ∅ c → well_supplied c → dates_read cx →
  VPut k v x b ∈ calls_of i (c_log c) → read (de_vstate cx) (write (ser_vstate cx) v) = Some v.
Proof. exact (saved_text lb cx c i k v x b). Qed.
Print Assumptions C127_saved_requests_read_back.
(** so is what its owner asks for. *)
Theorem C127_owner_requests_read_back r : (∀ d, d ∈ vq_input_descriptors r → readable_descriptor d) →
  read de_create_request (write ser_create_request r) = Some r.
Proof. exact (create_request_text r). Qed.
Print Assumptions C127_owner_requests_read_back.
Theorem C127_response_read_back r : de_response_response (ser_response_response r) = Some r.
Proof. exact (de_response_response_ser r). Qed.
Print Assumptions C127_response_read_back.
(** The owner may leave things out: the request is then one that is refused, as it names no
    credentials. *)
Theorem C127_left_out_is_refused r es o : de_create_request (JObj []) = Some r → runs (create_request r) es o →
  es = [] ∧ o = Err (InvalidRequest "no credentials specified").
Proof.
  intros [= <-] [(_ & -> & ->)|(H & _)]%create_request_any; [done|]. by destruct H.
Qed.
Print Assumptions C127_left_out_is_refused.
Example C127_example : ∃ k v x b, VPut k v x b ∈ calls_of 0 (c_log ex_dif_run) ∧ dates_read ex_cx ∧
  read (de_vstate ex_cx) (write (ser_vstate ex_cx) v) = Some v ∧
  read de_create_request (write ser_create_request (VerifierExample.ex_create_request CrossDevice)) =
    Some (VerifierExample.ex_create_request CrossDevice) ∧ is_Some (de_create_request (JObj [])).
Proof.
  eexists _, _, _, _. split; [apply elem_of_list_In; vm_compute; do 5 right; left; reflexivity|].
  split; [apply ex_dates|]. split; [vm_compute; reflexivity|]. split; [vm_compute; reflexivity|]. by eexists.
Qed.
