(** The wallet's records survive being written and read. *)
From Coq Require Import Lia.
From Verif Require Import Base StringSpec Json MatcherModel JsonParse JsonText CoreModel VcModel Prog Sha256 IssuerTypes
  SerdeSpec SerdeModel SerdeFacts SerdeTrips SerdeText SerdeProps ErrorModel WireSpec WireFacts VcSpec VcSerde VcTrips VcText
  VerifierModel DifSerde DifSpec DifTrips MetaSerde MetaSpec MetaTrips MetaFacts HolderModel RecordSerde RecordSpec.
Local Arguments String.append : simpl never.

Lemma step_null {A B} (d : json → option A) (f : A → json) k m o (K : option A → option B) r :
  lookups k m = [or_null f o] → (∀ a, o = Some a → d (f a) = Some a ∧ f a ≠ JNull) →
  K o = r → (opt d k m ≫= K) = r.
Proof. intros Hl Hd <-. by rewrite (opt_null _ f _ _ o). Qed.
Ltac sn := eapply step_null; [look|intros; split; [|done]; try done|].

Lemma logo_values g : exactly [("image", Some (JStr (lg_image g))); ("mediaType", Some (JStr (lg_media_type g)))] (ser_logo g).
Proof. exact_members. Qed.
Lemma de_logo_ser g : de_logo (ser_logo g) = Some g.
Proof.
  apply (of_reads _ _ _ _ (logo_values g)); [nd|]. intros m H. destruct g as [i t]. unfold de_logo. cbn [obj lg_image lg_media_type] in *.
  sr. sr. done.
Qed.
Global Arguments de_logo : simpl never.
Lemma credential_values cx c : exactly (credential_document cx c) (ser_credential cx c).
Proof. exact_members. Qed.
Lemma de_credential_ser cx c : dates_read cx → readable_vc (kc_vc c) → de_credential cx (ser_credential cx c) = Some c.
Proof.
  intros Hd Hv. apply (of_reads _ _ _ _ (credential_values cx c)); [nd|]. intros m H. destruct c as [i s v t d l g].
  unfold de_credential, credential_document in *. cbn [obj kc_id kc_issuer kc_vc kc_issued kc_issuance_date kc_display kc_logo] in *.
  sr. sr. sr; [by apply de_vc_ser|]. sr. sr; [by apply de_date_ser|].
  eapply (step_opt _ (ser_list ser_display)); [look|intros; split; [|done]|].
  { apply de_list_ser. apply Forall_forall. intros. apply de_display_ser. }
  eapply (step_opt _ ser_logo); [look|intros; split; [apply de_logo_ser|done]|done].
Qed.
Global Arguments de_credential : simpl never.
Global Arguments ser_credential : simpl never.
Lemma de_credentials_ser cx l : dates_read cx → (∀ c, c ∈ l → readable_vc (kc_vc c)) →
  de_list (de_credential cx) (ser_list (ser_credential cx) l) = Some l.
Proof. intros Hd Hv. apply de_list_ser. apply Forall_forall. intros c Hc. by apply de_credential_ser, Hv. Qed.

Lemma de_issuance_status_ser s : de_issuance_status (ser_issuance_status s) = Some s.
Proof. by destruct s. Qed.
Lemma de_presentation_status_ser s : de_presentation_status (ser_presentation_status s) = Some s.
Proof. by destruct s. Qed.
Global Arguments de_issuance_status : simpl never.
Global Arguments de_presentation_status : simpl never.

Lemma issuance_record_values cx r : exactly (issuance_document cx r) (ser_issuance_record cx r).
Proof. exact_members. Qed.
Lemma presentation_record_values cx r : exactly (presentation_document cx r) (ser_presentation_record cx r).
Proof. exact_members. Qed.
Lemma de_token_ser t : readable_token t → de_token_response (ser_token_response t) = Some t.
Proof. intros (H1 & H2 & H3). by apply de_token_response_ser. Qed.
Lemma issuance_record_nodup cx r : NoDup (keys (issuance_document cx r)).
Proof. apply (bool_decide_unpack _). cbn [keys map fst issuance_document]. vm_compute. exact I. Qed.
Lemma de_issuance_record_ser cx r : dates_read cx → readable_issuance_record r → de_issuance_record cx (ser_issuance_record cx r) = Some r.
Proof.
  intros Hd (Ho & Hi & Ha & Ht & Hn & Hv). apply (of_reads _ _ _ _ (issuance_record_values cx r)); [apply issuance_record_nodup|]. intros m H.
  destruct r as [i c b s o md sv a p cv cc t sc d n l]. unfold de_issuance_record, issuance_document in *.
  cbn [obj ri_id ri_client_id ri_subject_id ri_status ri_offer ri_issuer ri_server ri_accepted ri_pin ri_code_verifier ri_code_challenge
       ri_token ri_scope ri_deferred ri_notification_id ri_credentials] in *.
  sr. sr. sr. sr; [apply de_issuance_status_ser|]. sr; [by apply de_offer_ser|]. sr; [by apply de_issuer_metadata_ser|].
  sr; [apply de_server_metadata_ser|].
  eapply (step_null _ (ser_list ser_detail)); [look|intros; split; [|done]|].
  { apply de_details_ser. intros x. by apply Ha. }
  sn. sn. sn. sr; [by apply de_token_ser|]. sn. sr; [by apply (de_map_ser _ JStr)|]. sn.
  sr; [by apply de_credentials_ser|done].
Qed.
Lemma de_presentation_record_ser cx r : dates_read cx → readable_presentation_record r →
  de_presentation_record cx (ser_presentation_record cx r) = Some r.
Proof.
  intros Hd (Hr & Hv). apply (of_reads _ _ _ _ (presentation_record_values cx r)); [nd|]. intros m H.
  destruct r as [i s q l f b]. unfold de_presentation_record, presentation_document in *.
  cbn [obj rp_id rp_status rp_request rp_credentials rp_filter rp_submission] in *.
  sr. sr; [apply de_presentation_status_ser|]. sr; [by apply de_vp_request_ser|]. sr; [by apply de_credentials_ser|].
  sr; [apply de_constraints_ser|]. sr; [apply de_submission_ser|done].
Qed.

(** ** What was read can be written *)
Ltac taken H := repeat (match type of H with (?e ≫= _) = _ => destruct e eqn:? end; [|done]; cbn [mbind option_bind] in H).
Lemma de_credential_readable cx j c : de_credential cx j = Some c → readable_vc (kc_vc c).
Proof.
  unfold de_credential. destruct j as [| | | | |m]; try done. cbn [obj]. intros H. taken H. injection H as <-. cbn [kc_vc].
  match goal with E : req (de_vc cx) _ m = _ |- _ => apply req_inv in E as (j & _ & HE) end. by apply (de_vc_readable cx j).
Qed.
Lemma de_credentials_readable cx j l : de_list (de_credential cx) j = Some l → ∀ c, c ∈ l → readable_vc (kc_vc c).
Proof.
  intros H%de_list_inv c Hc. destruct (proj1 (Forall_forall _ _) H c Hc) as [j' Hj]. by apply (de_credential_readable cx j').
Qed.
Lemma de_token_response_readable j t : de_token_response j = Some t → readable_token t.
Proof.
  unfold de_token_response. destruct j as [| | | | |m]; try done. cbn [obj]. intros H.
  destruct (req de_str "access_token" m) as [a|]; [|done]. destruct (req _ "token_type" m) as [b|]; [|done].
  destruct (req (de_int 64) "expires_in" m) as [e|] eqn:E1; [|done]. destruct (opt de_str "c_nonce" m) as [n|]; [|done].
  destruct (opt (de_int 64) "c_nonce_expires_in" m) as [ne|] eqn:E2; [|done].
  destruct (opt (de_list de_authorized_detail) "authorization_details" m) as [d|] eqn:E3; [|done]. injection H as <-.
  split_and!; cbn [trs_expires_in trs_c_nonce_expires_in trs_authorization_details].
  - apply req_inv in E1 as (j & _ & E1). by apply (de_int_inv 64 j).
  - intros z ->. apply opt_inv in E2 as (j & _ & E2). by apply (de_int_inv 64 j).
  - intros l x -> Hx. apply opt_inv in E3 as (j & _ & E3). apply de_list_inv in E3.
    destruct (proj1 (Forall_forall _ _) E3 x Hx) as [j' Hj]. revert Hj. unfold de_authorized_detail.
    destruct j' as [| | | | |m']; try done. cbn [obj]. destruct (de_detail_entries m') as [y|] eqn:E; [|done].
    destruct (req _ _ m'); [|done]. intros [= <-]. by apply (de_detail_entries_readable m').
Qed.
Lemma de_issuance_record_readable cx j r : de_issuance_record cx j = Some r → readable_issuance_record r.
Proof.
  unfold de_issuance_record. destruct j as [| | | | |m]; try done. cbn [obj]. intros H. taken H. injection H as <-.
  unfold readable_issuance_record. cbn [ri_offer ri_issuer ri_accepted ri_token ri_deferred ri_credentials]. split_and!.
  - match goal with E : req de_offer _ m = _ |- _ => apply req_inv in E as (j & _ & HE) end. by apply (de_offer_readable j).
  - match goal with E : req de_issuer_metadata _ m = _ |- _ => apply req_inv in E as (j & _ & HE) end.
    by apply (de_issuer_metadata_readable j).
  - intros l' x -> Hx. match goal with E : opt (de_list de_detail) _ m = _ |- _ => apply opt_inv in E as (j & _ & HE) end.
    by apply (de_details_readable j l').
  - match goal with E : req de_token_response _ m = _ |- _ => apply req_inv in E as (j & _ & HE) end. by apply (de_token_response_readable j).
  - match goal with E : req (de_map _) _ m = _ |- _ => apply req_inv in E as (j & _ & HE) end. by apply de_map_inv in HE as [? _].
  - match goal with E : req (de_list _) _ m = _ |- _ => apply req_inv in E as (j & _ & HE) end. by apply (de_credentials_readable cx j).
Qed.
Lemma de_presentation_record_readable cx j r : de_presentation_record cx j = Some r → readable_presentation_record r.
Proof.
  unfold de_presentation_record. destruct j as [| | | | |m]; try done. cbn [obj]. intros H. taken H. injection H as <-.
  split; cbn [rp_request rp_credentials].
  - match goal with E : req de_vp_request _ m = _ |- _ => apply req_inv in E as (j & _ & HE) end. by apply (de_vp_request_readable j).
  - match goal with E : req (de_list _) _ m = _ |- _ => apply req_inv in E as (j & _ & HE) end. by apply (de_credentials_readable cx j).
Qed.
Lemma issuance_record_exact cx r : dates_read cx →
  de_issuance_record cx (ser_issuance_record cx r) = Some r ↔ readable_issuance_record r.
Proof. intros Hd. split; [apply de_issuance_record_readable|by apply de_issuance_record_ser]. Qed.
Lemma presentation_record_exact cx r : dates_read cx →
  de_presentation_record cx (ser_presentation_record cx r) = Some r ↔ readable_presentation_record r.
Proof. intros Hd. split; [apply de_presentation_record_readable|by apply de_presentation_record_ser]. Qed.

(** ** As text *)
Lemma fine_credential cx n c : shallow n (vc_values (kc_vc c)) → fine (4 + n) (ser_credential cx c).
Proof.
  intros H. unfold ser_credential. apply (fine_obj (3 + n)). fns.
  - by apply fine_vc.
  - apply (fine_list (2 + n)). intros d _. apply (fine_display n).
  - apply (fine_obj (2 + n)). fns.
Qed.
Lemma fine_credentials cx n l : (∀ c, c ∈ l → shallow n (vc_values (kc_vc c))) → fine (5 + n) (ser_list (ser_credential cx) l).
Proof. intros H. apply (fine_list (4 + n)). intros c Hc. by apply fine_credential, H. Qed.
Lemma fine_token n t : claims_within n (details_claims (token_details t)) → fine (5 + n) (ser_token_response t).
Proof.
  intros H. unfold ser_token_response. apply (fine_obj (4 + n)). fns; try apply fine_int.
  apply (fine_list (3 + n)). intros d Hd. apply (fine_obj (2 + n)). apply fines_app; [|fns]. apply fines_detail.
  intros c Hc. apply H. unfold token_details. match goal with E : trs_authorization_details t = _ |- _ => rewrite E end. simpl.
  apply elem_of_list_bind. exists (atd_detail d). split; [done|]. apply elem_of_list_fmap. by exists d.
Qed.
Lemma fine_issuance_record cx n r : within_issuance n r → fine (7 + n) (ser_issuance_record cx r).
Proof.
  intros (Hi & Ha & Ht & Hc). unfold ser_issuance_record. apply (fine_obj (6 + n)). fns;
    try (match goal with |- fine _ (null_or JStr ?o) => destruct o; [apply fine_str|apply fine_null] end).
  - destruct (ri_status r); try apply fine_str. apply (fine_obj (5 + n)). fns.
  - apply (fine_offer (2 + n)).
  - by apply fine_issuer_metadata.
  - apply (fine_mono 2); [lia|apply fine_server_metadata].
  - destruct (ri_accepted r) as [l|] eqn:E; [|apply fine_null]. apply (fine_details (2 + n)). intros c Hl. specialize (Ha c).
    etransitivity; [by apply Ha|lia].
  - apply (fine_mono (5 + n)); [lia|by apply fine_token].
  - apply (fine_map (5 + n)). intros. apply fine_str.
  - apply (fine_mono (5 + n)); [lia|by apply fine_credentials].
Qed.
Lemma fine_presentation_record cx n r : readable_metadata (vo_client_metadata (rp_request r)) → within_presentation n r →
  fine (9 + n) (ser_presentation_record cx r).
Proof.
  intros Hm Hc. unfold ser_presentation_record. apply (fine_obj (8 + n)). fns.
  - destruct (rp_status r); try apply fine_str. apply (fine_obj (7 + n)). fns.
  - by apply fine_vp_request.
  - apply (fine_mono (5 + n)); [lia|by apply fine_credentials].
  - apply (fine_obj (7 + n)). fns. apply (fine_list (6 + n)). intros f _. apply (fine_obj (5 + n)). fns. apply (fine_obj (4 + n)). fns.
    destruct (fl_value _); apply Forall_singleton, fine_str.
  - apply (fine_submission (4 + n)).
Qed.

(** ** One kind of record is not read as the other *)
Lemma issuance_not_presentation cx r : de_presentation_record cx (ser_issuance_record cx r) = None.
Proof.
  unfold de_presentation_record, ser_issuance_record. cbn [obj].
  destruct (req de_str "id" _); [|done]. cbn [mbind option_bind]. destruct (req de_presentation_status "status" _); [|done]. cbn [mbind option_bind].
  by unfold req.
Qed.
Lemma presentation_not_issuance cx r : de_issuance_record cx (ser_presentation_record cx r) = None.
Proof.
  unfold de_issuance_record, ser_presentation_record. cbn [obj].
  destruct (req de_str "id" _); [|done]. cbn [mbind option_bind]. by unfold req.
Qed.
