(** The verifier's messages and saved state survive being written and read. *)
From Coq Require Import Lia DecimalString DecimalZ.
From Verif Require Import Base StringSpec Json MatcherModel JsonParse JsonText CoreModel VcModel Prog IssuerTypes VerifierModel
  IssuerClaims SerdeSpec SerdeModel SerdeFacts SerdeTrips SerdeText SerdeProps ErrorModel VcSpec VcSerde VcTrips VcText DifSpec DifSerde.
Local Arguments String.append : simpl never.

(** ** Presentation definitions and submissions *)
Lemma de_claim_format_ser f : de_claim_format (ser_claim_format f) = Some f.
Proof.
  destruct f as [a p]. unfold ser_claim_format, de_claim_format. cbn [obj cf_alg cf_proof_type].
  rewrite (opt_of _ ser_strs _ _ a); [|by lk|intros; split; [apply de_strs_ser|done]].
  rewrite (opt_of _ ser_strs _ _ p); [done|by lk|intros; split; [apply de_strs_ser|done]].
Qed.
Lemma de_filter_ser f : de_filter (ser_filter f) = Some f.
Proof. by destruct f as [t []]. Qed.
Lemma de_field_ser f : de_field (ser_field f) = Some f.
Proof.
  destruct f as [p f o]. unfold ser_field, de_field. cbn [obj fd_path fd_filter fd_optional]. rq. rewrite de_strs_ser.
  rewrite (opt_of _ ser_filter _ _ f); [|by lk|intros; split; [apply de_filter_ser|done]].
  rewrite (opt_of _ JBool _ _ o); [done|by lk|by intros].
Qed.
Lemma de_constraints_ser c : de_constraints (ser_constraints c) = Some c.
Proof.
  destruct c as [l]. unfold ser_constraints, de_constraints. cbn [obj cn_fields].
  rewrite (opt_of _ (ser_list ser_field) _ _ l); [done|by lk|]. intros fs _. split; [|done].
  apply de_list_ser. apply Forall_forall. intros f _. apply de_field_ser.
Qed.
Lemma opt_formats m o : lookups "format" m = match o with Some l => [ser_map ser_claim_format l] | None => [] end →
  readable_formats o → opt (de_map de_claim_format) "format" m = Some o.
Proof.
  intros Hl H. apply (opt_of _ (ser_map ser_claim_format)); [done|]. intros l ->. split; [|done].
  apply de_map_ser; [|by apply H]. intros. apply de_claim_format_ser.
Qed.
Lemma opt_formats_inv m o : opt (de_map de_claim_format) "format" m = Some o → readable_formats o.
Proof.
  intros H l ->. apply opt_inv in H as (j & _ & H). destruct j as [| | | | |m']; try done.
  unfold de_map in H. cbn [obj] in H. assert (NoDup (keys (@nil (string * claim_format)))) as Hn by constructor.
  revert Hn H. generalize (@nil (string * claim_format)). clear. induction m' as [|[k v] m' IH]; intros acc Hn H; [by injection H as <-|].
  cbn [de_entries] in H. destruct (de_claim_format v); [|done]. apply (IH _ (nodup_ainsert' _ _ _ Hn) H).
Qed.
Lemma de_descriptor_ser d : readable_descriptor d → de_descriptor (ser_descriptor d) = Some d.
Proof.
  destruct d as [i n p f c]. intros H. unfold ser_descriptor, de_descriptor. cbn [obj id_id id_name id_purpose id_format id_constraints].
  rq. cbn [de_str]. ro JStr n. ro JStr p. rewrite (opt_formats _ f); [|by lk|done]. rq. by rewrite de_constraints_ser.
Qed.
Lemma de_descriptor_readable j d : de_descriptor j = Some d → readable_descriptor d.
Proof.
  destruct j as [| | | | |m]; try done. unfold de_descriptor. cbn [obj]. intros H.
  repeat match type of H with match ?x with Some _ => _ | None => _ end = _ => destruct x eqn:?; [|done] end.
  injection H as <-. by match goal with E : opt (de_map _) _ m = _ |- _ => apply opt_formats_inv in E end.
Qed.
Global Arguments ser_descriptor : simpl never.
Global Arguments de_descriptor : simpl never.
Lemma de_descriptors_ser l : (∀ x, x ∈ l → readable_descriptor x) → de_list de_descriptor (ser_list ser_descriptor l) = Some l.
Proof. intros H. apply de_list_ser. apply Forall_forall. intros x Hx. by apply de_descriptor_ser, H. Qed.
Lemma de_descriptors_readable j l : de_list de_descriptor j = Some l → ∀ x, x ∈ l → readable_descriptor x.
Proof.
  intros H x Hx. apply de_list_inv in H. destruct (proj1 (Forall_forall _ _) H x Hx) as (j' & Hj). by apply (de_descriptor_readable j').
Qed.
Lemma de_definition_ser d : readable_presentation_definition d → de_presentation_definition (ser_presentation_definition d) = Some d.
Proof.
  destruct d as [i l n p f]. intros [Hf Hl]. unfold ser_presentation_definition, de_presentation_definition.
  cbn [obj pd_id pd_input_descriptors pd_name pd_purpose pd_format] in *.
  rq. cbn [de_str]. rq. rewrite de_descriptors_ser by done. ro JStr n. ro JStr p.
  by rewrite (opt_formats _ f); [|by lk|done].
Qed.
Lemma de_definition_readable j d : de_presentation_definition j = Some d → readable_presentation_definition d.
Proof.
  destruct j as [| | | | |m]; try done. unfold de_presentation_definition. cbn [obj]. intros H.
  repeat match type of H with match ?x with Some _ => _ | None => _ end = _ => destruct x eqn:?; [|done] end.
  injection H as <-. split; cbn [pd_format pd_input_descriptors].
  - by match goal with E : opt (de_map _) _ m = _ |- _ => apply opt_formats_inv in E end.
  - match goal with E : req (de_list _) _ m = _ |- _ => apply req_inv in E as (j & _ & E); by apply (de_descriptors_readable j) end.
Qed.
Lemma de_mapping_ser d : de_mapping (ser_mapping d) = Some d.
Proof. by destruct d as [i f p [nf np]]. Qed.
Lemma de_submission_ser s : de_submission (ser_submission s) = Some s.
Proof.
  destruct s as [i d l]. unfold ser_submission, de_submission. cbn [obj pb_id pb_definition_id pb_descriptor_map].
  rq. cbn [de_str]. rq. cbn [de_str]. rq. rewrite de_list_ser; [done|]. apply Forall_forall. intros x _. apply de_mapping_ser.
Qed.
Global Arguments ser_presentation_definition : simpl never.
Global Arguments de_presentation_definition : simpl never.
Global Arguments ser_submission : simpl never.
Global Arguments de_submission : simpl never.

(** ** Metadata *)
Lemma de_endpoint_auth_ser a : de_endpoint_auth (ser_endpoint_auth a) = Some a.
Proof. by destruct a. Qed.
Lemma de_vp_formats_ser f : de_vp_formats (ser_vp_formats f) = Some f.
Proof.
  destruct f as [f|]; [|done]. unfold de_vp_formats, ser_vp_formats. cbn [obj some_entry de_vp_format_entries].
  rewrite bool_decide_true by done. by rewrite de_claim_format_ser.
Qed.
Lemma de_client_metadata_ser c : dates_fit c → de_client_metadata (ser_client_metadata c) = Some c.
Proof.
  destruct c as [i ia se ru ea gt rt pr cs cn cu lu sc co tu pu ju j si sv oe vf]. intros [Hia Hse].
  cbn [mt_issued_at mt_secret_expires_at] in *.
  unfold de_client_metadata, ser_client_metadata.
  cbn [obj mt_client_id mt_issued_at mt_secret_expires_at mt_redirect_uris mt_endpoint_auth mt_grant_types mt_response_types mt_pushed
    mt_secret mt_name mt_uri mt_logo mt_scope mt_contacts mt_tos mt_policy mt_jwks_uri mt_jwks mt_software_id mt_software_version
    mt_offer_endpoint mt_vp_formats].
  rq. cbn [de_str].
  rewrite (opt_of _ ser_int _ _ ia); [|by lk|intros z ->; split; [by apply de_int_ser, Hia|done]].
  rewrite (opt_of _ ser_int _ _ se); [|by lk|intros z ->; split; [by apply de_int_ser, Hse|done]].
  rewrite (opt_of _ ser_strs _ _ ru); [|by lk|intros; split; [apply de_strs_ser|done]].
  rewrite (opt_of _ ser_endpoint_auth _ _ ea); [|by lk|intros a _; split; [apply de_endpoint_auth_ser|done]].
  rewrite (opt_of _ (ser_list ser_grant_type) _ _ gt); [|by lk|].
  2:{ intros a _. split; [|done]. apply de_list_ser, Forall_forall. intros x _. apply de_grant_type_ser. }
  rewrite (opt_of _ (ser_list ser_response_type) _ _ rt); [|by lk|].
  2:{ intros a _. split; [|done]. apply de_list_ser, Forall_forall. intros x _. apply de_response_type_ser. }
  rewrite (opt_of _ JBool _ _ pr); [|by lk|by intros].
  ro JStr cs. ro JStr cn. ro JStr cu. ro JStr lu. ro JStr sc. ro JStr co. ro JStr tu. ro JStr pu. ro JStr ju. ro JStr j. ro JStr si.
  ro JStr sv. ro JStr oe. rewrite (opt_of _ ser_vp_formats _ _ vf); [done|by lk|]. intros f _. split; [apply de_vp_formats_ser|done].
Qed.
Global Arguments ser_client_metadata : simpl never.
Global Arguments de_client_metadata : simpl never.
(** Metadata as a provider can give it: some client's, written. *)
Lemma de_metadata_ser j : readable_metadata j → de_metadata j = Some j.
Proof. intros (c & Hc & ->). unfold de_metadata. by rewrite de_client_metadata_ser. Qed.
Lemma de_client_metadata_fits j c : de_client_metadata j = Some c → dates_fit c.
Proof.
  destruct j as [| | | | |m]; try done. unfold de_client_metadata. cbn [obj]. intros H.
  repeat match type of H with match ?x with Some _ => _ | None => _ end = _ => destruct x eqn:?; [|done] end.
  injection H as <-. split; cbn [mt_issued_at mt_secret_expires_at]; intros z ->;
  match goal with E : opt _ _ m = Some (Some z) |- _ => apply opt_inv in E as (j & _ & E); by apply (de_int_inv 64 j) end.
Qed.
Lemma de_metadata_readable j j' : de_metadata j = Some j' → readable_metadata j'.
Proof.
  unfold de_metadata. destruct (de_client_metadata j) as [c|] eqn:E; [|done]. intros [= <-]. exists c.
  split; [by apply (de_client_metadata_fits j)|done].
Qed.
Global Arguments de_metadata : simpl never.

(** ** Requests *)
Lemma de_vp_response_type_ser r : de_vp_response_type (ser_vp_response_type r) = Some r.
Proof. by destruct r. Qed.
Lemma de_scheme_ser s : de_scheme (ser_scheme s) = Some s.
Proof. by destruct s. Qed.
Lemma de_flow_ser s : de_flow (ser_flow s) = Some s.
Proof. by destruct s. Qed.
Lemma de_vp_request_ser r : readable_vp_request r → de_vp_request (ser_vp_request r) = Some r.
Proof.
  destruct r as [rt ci ru rm ri sc n st d cs cm]. intros [Hd Hm]. unfold ser_vp_request, ser_vp_request_entries, de_vp_request.
  cbn [obj vo_response_type vo_client_id vo_redirect_uri vo_response_mode vo_response_uri vo_scope vo_nonce vo_state vo_definition
    vo_client_id_scheme vo_client_metadata] in *.
  rq. rewrite de_vp_response_type_ser. rq. cbn [de_str]. ro JStr ru. ro JStr rm. ro JStr ri. ro JStr sc. rq. cbn [de_str].
  ro JStr st. rq. rewrite de_kind_ser.
  2:{ intros x ->. split; [|done]. by apply de_definition_ser, Hd. }
  rewrite (opt_of _ ser_scheme _ _ cs); [|by lk|intros s _; split; [apply de_scheme_ser|done]].
  rq. by rewrite de_metadata_ser.
Qed.
Lemma de_vp_request_readable j r : de_vp_request j = Some r → readable_vp_request r.
Proof.
  destruct j as [| | | | |m]; try done. unfold de_vp_request. cbn [obj]. intros H.
  repeat match type of H with match ?x with Some _ => _ | None => _ end = _ => destruct x eqn:?; [|done] end.
  injection H as <-. split; cbn [vo_definition vo_client_metadata].
  - intros d Hd. subst. match goal with E : req (de_kind _) _ m = _ |- _ => apply req_inv in E as (j' & _ & He) end.
    apply de_kind_inv in He as [He _]. by apply (de_definition_readable j').
  - match goal with E : req de_metadata _ m = _ |- _ => apply req_inv in E as (j' & _ & He) end. by apply (de_metadata_readable j').
Qed.
Global Arguments ser_vp_request : simpl never.
Global Arguments de_vp_request : simpl never.
Lemma vp_request_nonnull r : ser_vp_request r ≠ JNull.
Proof. done. Qed.
Lemma de_create_request_ser r : (∀ x, x ∈ vq_input_descriptors r → readable_descriptor x) →
  de_create_request (ser_create_request r) = Some r.
Proof.
  destruct r as [c p l f]. intros H. unfold ser_create_request, de_create_request.
  cbn [obj vq_client_id vq_purpose vq_input_descriptors vq_device_flow] in *.
  df. cbn [de_str]. df. cbn [de_str]. df. rewrite de_descriptors_ser by done. df. by rewrite de_flow_ser.
Qed.
Lemma de_create_response_ser r : (∀ o, vr_request_object r = Some o → readable_vp_request o) →
  de_create_response (ser_create_response r) = Some r.
Proof.
  destruct r as [o u]. intros H. unfold ser_create_response, de_create_response. cbn [obj vr_request_object vr_request_uri] in *.
  rewrite (opt_of _ ser_vp_request _ _ o); [|by lk|intros x ->; split; [by apply de_vp_request_ser, H|done]]. by ro JStr u.
Qed.
Lemma de_vstate_ser cx s : dates_read cx → readable_vp_request (vs_request s) → de_vstate cx (ser_vstate cx s) = Some s.
Proof.
  destruct s as [t o]. intros Hd H. unfold ser_vstate, de_vstate. cbn [obj vs_expires_at vs_request] in *.
  rq. rewrite de_date_ser by done. rq. by rewrite de_vp_request_ser.
Qed.
Lemma de_vstate_readable cx j s : de_vstate cx j = Some s → readable_vp_request (vs_request s).
Proof.
  destruct j as [| | | | |m]; try done. unfold de_vstate. cbn [obj]. intros H.
  repeat match type of H with match ?x with Some _ => _ | None => _ end = _ => destruct x eqn:?; [|done] end.
  injection H as <-. match goal with E : req de_vp_request _ m = _ |- _ => apply req_inv in E as (j & _ & He) end.
  by apply (de_vp_request_readable j).
Qed.

(** ** Responses *)
Lemma de_response_request_ser cx r : dates_read cx → readable_response r →
  de_response_request cx (ser_response_request cx r) = Some r.
Proof.
  destruct r as [l s k]. intros Hd H. unfold ser_response_request, de_response_request, readable_response in *.
  cbn [obj rq_vp_token rq_submission rq_state] in *.
  rewrite (opt_of _ (ser_list (ser_kind (ser_vp cx))) _ _ l); [|by lk|].
  2:{ intros vs ->. split; [|done]. apply de_list_ser, Forall_forall. intros x Hx. apply de_kind_ser. intros v ->.
      split; [|done]. apply de_vp_ser; [done|]. by apply (H vs). }
  rewrite (opt_of _ ser_submission _ _ s); [|by lk|intros; split; [apply de_submission_ser|done]]. by ro JStr k.
Qed.
Lemma de_response_request_readable cx j r : de_response_request cx j = Some r → readable_response r.
Proof.
  destruct j as [| | | | |m]; try done. unfold de_response_request. cbn [obj]. intros H.
  repeat match type of H with match ?x with Some _ => _ | None => _ end = _ => destruct x eqn:?; [|done] end.
  injection H as <-. intros l v Hl Hv. cbn [rq_vp_token] in Hl. subst.
  match goal with E : opt (de_list _) _ m = _ |- _ => apply opt_inv in E as (j & _ & He) end.
  apply de_list_inv in He. destruct (proj1 (Forall_forall _ _) He _ Hv) as (j' & Hj). apply de_kind_inv in Hj as [Hj _].
  by apply (de_vp_readable cx j').
Qed.
Lemma de_response_response_ser r : de_response_response (ser_response_response r) = Some r.
Proof. by destruct r as [[] []]. Qed.

(** ** What is written with one pair of braces too many *)
Lemma object_response_unread o : de_object_response (ser_object_response (RoObject o)) = None.
Proof. reflexivity. Qed.

(** ** Text *)
Lemma fine_claim_format n f : fine (2 + n) (ser_claim_format f).
Proof. apply fine_obj. fns. Qed.
Lemma fine_formats n l : fine (3 + n) (ser_map ser_claim_format l).
Proof. apply fine_map. intros k f _. apply fine_claim_format. Qed.
Lemma fine_descriptor n d : fine (5 + n) (ser_descriptor d).
Proof.
  apply fine_obj. fns; [apply fine_formats|]. apply fine_obj. fns. apply fine_list. intros f _. apply fine_obj. fns.
  apply fine_obj. fns. destruct (fl_value _); apply Forall_singleton, fine_str.
Qed.
Lemma fine_presentation_definition n d : fine (7 + n) (ser_presentation_definition d).
Proof. apply fine_obj. fns; [|apply (fine_formats (3 + n))]. apply fine_list. intros x _. apply fine_descriptor. Qed.
Lemma fine_submission n s : fine (4 + n) (ser_submission s).
Proof. apply fine_obj. fns. apply fine_list. intros x _. apply fine_obj. fns. apply fine_obj. fns. Qed.
Lemma fine_metadata n j : readable_metadata j → fine (4 + n) j.
Proof.
  intros (c & _ & ->). apply fine_obj. fns; try apply fine_int.
  - apply fine_list. intros x _. apply fine_str.
  - apply fine_list. intros x _. apply fine_str.
  - apply fine_obj. fns. apply fine_claim_format.
Qed.
Lemma fine_vp_request n r : readable_metadata (vo_client_metadata r) → fine (8 + n) (ser_vp_request r).
Proof.
  intros H. apply fine_obj. unfold ser_vp_request_entries. fns; [|by apply (fine_metadata (3 + n))].
  destruct (vo_definition r); [apply fine_str|apply fine_presentation_definition].
Qed.
Lemma definition_text d : readable_presentation_definition d →
  read de_presentation_definition (write ser_presentation_definition d) = Some d.
Proof.
  intros H. apply (read_write _ _ _ 7); [apply (fine_presentation_definition 0)|apply Nat.ltb_lt; reflexivity|by apply de_definition_ser].
Qed.
Lemma submission_text s : read de_submission (write ser_submission s) = Some s.
Proof. apply (read_write _ _ _ 4); [apply (fine_submission 0)|apply Nat.ltb_lt; reflexivity|apply de_submission_ser]. Qed.
Lemma vp_request_text r : readable_vp_request r → read de_vp_request (write ser_vp_request r) = Some r.
Proof.
  intros H. apply (read_write _ _ _ 8); [by apply (fine_vp_request 0), H|apply Nat.ltb_lt; reflexivity|by apply de_vp_request_ser].
Qed.
Lemma create_request_text r : (∀ x, x ∈ vq_input_descriptors r → readable_descriptor x) →
  read de_create_request (write ser_create_request r) = Some r.
Proof.
  intros H. apply (read_write _ _ _ 7); [|apply Nat.ltb_lt; reflexivity|by apply de_create_request_ser].
  apply (fine_obj 6). fns. apply fine_list. intros x _. apply (fine_descriptor 0).
Qed.
Lemma create_response_text r : (∀ o, vr_request_object r = Some o → readable_vp_request o) →
  read de_create_response (write ser_create_response r) = Some r.
Proof.
  intros H. apply (read_write _ _ _ 9); [|apply Nat.ltb_lt; reflexivity|by apply de_create_response_ser].
  apply fine_obj. fns. apply (fine_vp_request 0). by apply H.
Qed.
Lemma vstate_text cx s : dates_read cx → readable_vp_request (vs_request s) → read (de_vstate cx) (write (ser_vstate cx) s) = Some s.
Proof.
  intros Hd H. apply (read_write _ _ _ 9); [|apply Nat.ltb_lt; reflexivity|by apply de_vstate_ser].
  apply fine_obj. fns. apply (fine_vp_request 0). by apply H.
Qed.
Lemma response_text cx n r : dates_read cx → readable_response r → shallow n (response_values r) → 7 + n < depth_limit →
  read (de_response_request cx) (write (ser_response_request cx) r) = Some r.
Proof.
  intros Hd H Hs Hn. apply (read_write _ _ _ (7 + n)); [|done|by apply de_response_request_ser].
  apply fine_obj. fns; [|apply (fine_submission (2 + n))]. apply fine_list. intros [s|v] Hv; [apply fine_str|].
  apply fine_vp. intros j Hj. apply Hs. unfold response_values. rewrite H0. apply elem_of_list_In, in_flat_map.
  eexists. split; [apply elem_of_list_In; exact Hv|by apply elem_of_list_In].
Qed.
