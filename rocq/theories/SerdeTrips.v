(** The messages and the saved state survive being written and read. *)
From Coq Require Import Lia.
From Verif Require Import Base StringSpec Json MatcherModel JsonParse JsonText CoreModel VcModel Prog IssuerTypes
  IssuerClaims SerdeSpec SerdeModel SerdeFacts.
Local Arguments String.append : simpl never.

Ltac ro f o := rewrite (opt_of _ f _ _ o); [|by lk|try (intros ? _; split; [done|done])].
Ltac rq := erewrite req_of by (by lk).
Ltac ds s := rewrite (dflt_str _ _ s) by (by lk).
Ltac df := erewrite dflt_of by (by lk).

Lemma de_grant_type_ser g : de_grant_type (ser_grant_type g) = Some g.
Proof. by destruct g. Qed.
Lemma de_response_type_ser r : de_response_type (ser_response_type r) = Some r.
Proof. by destruct r. Qed.
Lemma de_method_ser c : de_method (ser_method c) = Some c.
Proof. by destruct c. Qed.
Lemma de_send_type_ser s : de_send_type (ser_send_type s) = Some s.
Proof. by destruct s. Qed.

Lemma de_create_offer_ser r : de_create_offer (ser_create_offer r) = Some r.
Proof.
  destruct r as [i s c g t st]. unfold ser_create_offer, de_create_offer. cbn [obj co_credential_issuer co_subject_id
    co_configuration_ids co_grant_types co_tx_code_required co_send_type].
  ds i. ro JStr s. rq. rewrite de_strs_ser. ro (ser_list ser_grant_type) g.
  { rq. simpl. rq. by rewrite de_send_type_ser. }
  intros l _. split; [|done]. apply de_list_ser. apply Forall_forall. intros x _. apply de_grant_type_ser.
Qed.

(** ** Offers *)
Lemma de_tx_code_ser t : (∀ n, tc_length t = Some n → fits 32 n) → de_tx_code (ser_tx_code t) = Some t.
Proof.
  intros H. destruct t as [i n d]. unfold ser_tx_code, de_tx_code. cbn [obj tc_input_mode tc_length tc_description].
  ro JStr i. ro ser_int n; [by ro JStr d|]. intros z ->. split; [|done]. apply de_int_ser. by apply H.
Qed.
Lemma de_tx_code_fits j t n : de_tx_code j = Some t → tc_length t = Some n → fits 32 n.
Proof.
  destruct j as [| | | | |m]; try done. unfold de_tx_code. cbn [obj]. destruct (opt de_str "input_mode" m); [|done].
  destruct (opt (de_int 32) "length" m) as [l|] eqn:E; [|done]. destruct (opt de_str "description" m); [|done].
  intros [= <-] E'. simpl in E'. subst. apply opt_inv in E as (j & _ & E). by apply (de_int_inv 32 j).
Qed.
Lemma de_pre_grant_ser g : (∀ t n, pg_tx_code g = Some t → tc_length t = Some n → fits 32 n) →
  de_pre_grant (ser_pre_grant g) = Some g.
Proof.
  intros H. destruct g as [c t a]. unfold ser_pre_grant, de_pre_grant. cbn [obj pg_code pg_tx_code pg_authorization_server].
  rq. simpl. ro ser_tx_code t; [by ro JStr a|]. intros x ->. split; [|done]. apply de_tx_code_ser. intros n. by apply H.
Qed.
Lemma de_code_grant_ser g : de_code_grant (ser_code_grant g) = Some g.
Proof.
  destruct g as [i a]. unfold ser_code_grant, de_code_grant. cbn [obj ag_issuer_state ag_authorization_server].
  ro JStr i. by ro JStr a.
Qed.
Lemma de_grants_ser g : (∀ p t n, gr_pre_authorized_code g = Some p → pg_tx_code p = Some t → tc_length t = Some n → fits 32 n) →
  de_grants (ser_grants g) = Some g.
Proof.
  intros H. destruct g as [a p]. unfold ser_grants, de_grants. cbn [obj gr_authorization_code gr_pre_authorized_code].
  ro ser_code_grant a. { ro ser_pre_grant p; [done|]. intros x ->. split; [|done]. apply de_pre_grant_ser. intros t n. by apply H. }
  intros x _. split; [apply de_code_grant_ser|done].
Qed.
Lemma de_offer_ser o : readable_offer o → de_offer (ser_offer o) = Some o.
Proof.
  intros H. destruct o as [i c g]. unfold ser_offer, de_offer. cbn [obj of_credential_issuer of_configuration_ids of_grants].
  ds i. rq. rewrite de_strs_ser. ro ser_grants g; [done|]. intros x ->. split; [|done]. apply de_grants_ser.
  intros p t n. by apply H.
Qed.
Lemma de_offer_readable j o : de_offer j = Some o → readable_offer o.
Proof.
  destruct j as [| | | | |m]; try done. unfold de_offer. cbn [obj]. destruct (dflt de_str _ _ m); [|done].
  destruct (req de_strs _ m); [|done]. destruct (opt de_grants _ m) as [g'|] eqn:E; [|done].
  intros [= <-] g p t n. simpl. intros -> Hp Ht Hn. apply opt_inv in E as (j & _ & E).
  destruct j as [| | | | |mg]; try done. unfold de_grants in E. cbn [obj] in E.
  destruct (opt de_code_grant _ mg); [|done]. destruct (opt de_pre_grant _ mg) as [p'|] eqn:Ep; [|done].
  injection E as <-. simpl in Hp. subst. apply opt_inv in Ep as (j & _ & E).
  destruct j as [| | | | |mp]; try done. unfold de_pre_grant in E. cbn [obj] in E.
  destruct (req de_str _ mp); [|done]. destruct (opt de_tx_code _ mp) as [t'|] eqn:Et; [|done].
  destruct (opt de_str _ mp); [|done]. injection E as <-. simpl in Ht. subst. apply opt_inv in Et as (j & _ & E).
  by apply (de_tx_code_fits j t).
Qed.
Lemma de_create_offer_response_ser r : (∀ o, cor_offer r = OfferObject o → readable_offer o) →
  de_create_offer_response (ser_create_offer_response r) = Some r.
Proof.
  intros H. destruct r as [[o|u] t]; unfold ser_create_offer_response, de_create_offer_response; cbn [obj cor_offer cor_tx_code].
  - simpl first_of. cbn match. ro JStr t. rewrite bool_decide_true by done. rewrite de_offer_ser; [done|by apply H].
  - simpl first_of. cbn match. by ro JStr t.
Qed.

(** ** Authorization *)
Lemma de_request_ser r : readable_request r → de_request (ser_request r) = Some r.
Proof.
  intros H. destruct r as [i rt c ru st cc cm ad sc su is]. unfold ser_request, de_request. cbn [obj].
  unfold ser_request_entries, de_request_entries. cbn [ro_credential_issuer ro_response_type ro_client_id ro_redirect_uri
    ro_state ro_code_challenge ro_code_challenge_method ro_authorization_details ro_scope ro_subject_id ro_issuer_state].
  ds i. df. rewrite de_response_type_ser. df. cbn [de_str]. ro JStr ru. ro JStr st. df. cbn [de_str]. df. rewrite de_method_ser.
  ro (ser_list ser_detail) ad.
  { ro JStr sc. df. cbn [de_str]. by ro JStr is. }
  intros l ->. split; [|done]. apply de_details_ser. intros d. by apply H.
Qed.
Lemma de_request_readable j r : de_request j = Some r → readable_request r.
Proof.
  destruct j as [| | | | |m]; try done. unfold de_request. cbn [obj]. unfold de_request_entries. intros H.
  repeat match type of H with match ?x with Some _ => _ | None => _ end = _ => destruct x eqn:?; [|done] end.
  injection H as <-. intros l d. simpl. intros -> Hd.
  match goal with E : opt (de_list de_detail) _ m = _ |- _ => apply opt_inv in E as (j & _ & E) end.
  by apply (de_details_readable j l).
Qed.

(** ** Token *)
Lemma lookups_token_grant k g : k ∉ ["grant_type"; "code"; "redirect_uri"; "code_verifier"; "pre-authorized_code"; "tx_code"] →
  lookups k (ser_token_grant g) = [].
Proof.
  intros H. apply (foreign_lookups [k]); [|by apply elem_of_list_singleton].
  assert (∀ k', k' ∈ ["grant_type"; "code"; "redirect_uri"; "code_verifier"; "pre-authorized_code"; "tx_code"] → k' ∉ [k]) as Hk.
  { intros k' Hk' Hin. apply elem_of_list_singleton in Hin as ->. done. }
  destruct g; simpl;
    repeat first [apply foreign_app | apply foreign_some; [apply Hk; notin] | apply foreign_cons; [apply Hk; notin|] | constructor].
Qed.
Ltac lkg := rewrite !lookups_app; rewrite ?lookups_token_grant by notin; by lk.
Lemma de_token_request_ser r : readable_details (tr_authorization_details r) →
  de_token_request (ser_token_request r) = Some r.
Proof.
  intros H. destruct r as [i c g d]. unfold ser_token_request, de_token_request.
  cbn [obj tr_credential_issuer tr_client_id tr_grant tr_authorization_details] in *.
  rewrite (dflt_str _ _ i) by lkg.
  assert (∀ b, opt de_str "client_id" (str_entry "credential_issuer" i ++ [("client_id", null_or JStr c)]
      ++ ser_token_grant g ++ some_entry "authorization_details" b d) = Some c) as ->.
  { intros b. unfold opt. replace (lookups _ _) with [null_or JStr c] by (symmetry; lkg). by destruct c. }
  rewrite (opt_of _ (ser_list ser_detail) _ _ d); [|by lkg|].
  2:{ intros l ->. split; [|done]. apply de_details_ser. intros x. by apply H. }
  unfold de_token_grant. destruct g as [co ru cv|co tx]; simpl ser_token_grant.
  - rq. simpl. rq. cbn [de_str]. ro JStr ru. by ro JStr cv.
  - rq. simpl. rq. cbn [de_str]. by ro JStr tx.
Qed.
Lemma de_authorized_detail_ser d : readable_detail (atd_detail d) → de_authorized_detail (ser_authorized_detail d) = Some d.
Proof.
  intros H. destruct d as [d l]. unfold ser_authorized_detail, de_authorized_detail. cbn [obj atd_detail atd_identifiers] in *.
  rewrite de_detail_entries_ser; [|done|foreign].
  rewrite (req_of _ _ _ (ser_strs l)); [by rewrite de_strs_ser|].
  unfold ser_detail_entries. rewrite !lookups_app. rewrite lookups_authorization by notin. by lk.
Qed.
Lemma de_token_response_ser r : fits 64 (trs_expires_in r) → (∀ n, trs_c_nonce_expires_in r = Some n → fits 64 n) →
  (∀ l d, trs_authorization_details r = Some l → d ∈ l → readable_detail (atd_detail d)) →
  de_token_response (ser_token_response r) = Some r.
Proof.
  destruct r as [a e n ne d]. unfold ser_token_response, de_token_response.
  cbn [obj trs_access_token trs_expires_in trs_c_nonce trs_c_nonce_expires_in trs_authorization_details]. intros He Hn Hd.
  rq. cbn [de_str]. rq. change (unit_variant _ (JStr "Bearer")) with (Some ()). cbn match.
  rq. rewrite de_int_ser by done. ro JStr n. ro ser_int ne.
  { ro (ser_list ser_authorized_detail) d; [done|]. intros l ->. split; [|done]. apply de_list_ser. apply Forall_forall.
    intros x Hx. apply de_authorized_detail_ser. by apply (Hd l). }
  intros z ->. split; [|done]. apply de_int_ser. by apply Hn.
Qed.
Lemma de_authorization_response_ser r : de_authorization_response (ser_authorization_response r) = Some r.
Proof.
  destruct r as [c s u]. unfold ser_authorization_response, de_authorization_response.
  cbn [obj ar_code ar_state ar_redirect_uri]. rq. cbn [de_str]. ro JStr s. by rq.
Qed.
Lemma de_par_response_ser r : fits 64 (pr_expires_in r) → de_par_response (ser_par_response r) = Some r.
Proof.
  destruct r as [u e]. unfold ser_par_response, de_par_response. cbn [obj pr_request_uri pr_expires_in]. intros H.
  rq. cbn [de_str]. rq. by rewrite de_int_ser.
Qed.

(** ** Credential *)
Lemma lookups_format k f : k ∉ format_keys → lookups k (ser_format f) = [].
Proof.
  intros H. apply (foreign_lookups [k]); [|by apply elem_of_list_singleton].
  assert (∀ k', k' ∈ format_keys → k' ∉ [k]) as Hk.
  { intros k' Hk' Hin. apply elem_of_list_singleton in Hin as ->. done. }
  destruct f; simpl;
    repeat first [apply foreign_app | apply foreign_some; [apply Hk; notin] | apply foreign_cons; [apply Hk; notin|] | constructor].
Qed.
Lemma first_format ks f : (∀ k, k ∈ format_keys → k ∉ ks) → first_of ks (ser_format f) = None.
Proof.
  intros Hk. apply (foreign_first ks); [|done].
  destruct f; simpl;
    repeat first [apply foreign_app | apply foreign_some; [apply Hk; notin] | apply foreign_cons; [apply Hk; notin|] | constructor].
Qed.
Lemma de_credential_request_ser r : readable_credential_request r → de_credential_request (ser_credential_request r) = Some r.
Proof.
  intros H. destruct r as [i a c p]. unfold ser_credential_request, de_credential_request.
  cbn [obj cr_credential_issuer cr_access_token cr_credential cr_proof].
  set (pe := match p with Some p => ser_proof p | None => [] end).
  assert (foreign (["credential_issuer"; "access_token"; "credential_identifier"] ++ format_keys) pe) as Hp.
  { destruct p as [[]|]; foreign. }
  assert (∀ k, k ∈ ["credential_issuer"; "access_token"; "proof"; "proofs"] → lookups k (ser_issuance c) = []) as Hc.
  { intros k Hk. destruct c as [id|f]; cbn [ser_issuance].
    - rewrite lookups_ne; [done|]. intros <-. revert Hk. notin.
    - apply lookups_format. intros Hin. unfold format_keys in Hin. set_solver. }
  assert (first_of ["proof"; "proofs"] (ser_issuance c) = None) as Hf.
  { destruct c as [id|f]; [done|]. apply first_format. intros k Hk Hin. unfold format_keys in Hk. set_solver. }
  rewrite (dflt_str _ _ i). 2:{ rewrite !lookups_app, Hc by notin. rewrite (foreign_lookups _ pe _ Hp) by notin. by lk. }
  rewrite (dflt_str _ _ a). 2:{ rewrite !lookups_app, Hc by notin. rewrite (foreign_lookups _ pe _ Hp) by notin. by lk. }
  assert (de_issuance (str_entry "credential_issuer" i ++ str_entry "access_token" a ++ ser_issuance c ++ pe) = Some c) as ->.
  { unfold de_issuance. rewrite (app_assoc (str_entry _ _)).
    assert (foreign ("credential_identifier" :: format_keys) (str_entry "credential_issuer" i ++ str_entry "access_token" a)) as Ha by foreign.
    assert (foreign ("credential_identifier" :: format_keys) pe) as Hb.
    { eapply Forall_impl; [exact Hp|]. intros kv Hn Hin. apply Hn. set_solver. }
    unfold req. rewrite (lookups_mid ("credential_identifier" :: format_keys)); [|done|done|notin].
    rewrite (format_mid ("credential_identifier" :: format_keys)); [|done|done|set_solver].
    destruct c as [id|f]; [done|]. cbn [ser_issuance]. rewrite lookups_format by notin. rewrite de_format_ser; done. }
  assert (de_proof (str_entry "credential_issuer" i ++ str_entry "access_token" a ++ ser_issuance c ++ pe) = p) as ->; [|done].
  unfold de_proof. rewrite !first_of_app. rewrite Hf.
  rewrite (foreign_first ["proof"; "proofs"] _ (str_entry "credential_issuer" i)); [|foreign|done].
  rewrite (foreign_first ["proof"; "proofs"] _ (str_entry "access_token" a)); [|foreign|done].
  unfold pe. destruct p as [[jwt|jwts]|]; [done| |done]. simpl. by rewrite de_strs_ser.
Qed.
Lemma de_credential_request_readable j r : de_credential_request j = Some r → readable_credential_request r.
Proof.
  destruct j as [| | | | |m]; try done. unfold de_credential_request. cbn [obj]. destruct (dflt de_str _ "credential_issuer" m); [|done].
  destruct (dflt de_str _ _ m); [|done]. destruct (de_issuance m) as [c|] eqn:E; [|done]. intros [= <-].
  unfold readable_credential_request. simpl. unfold de_issuance in E. destruct (req de_str _ m); [by injection E as <-|].
  destruct (de_format m) eqn:Ef; [|done]. injection E as <-. by apply (de_format_readable m).
Qed.
Lemma de_deferred_request_ser r : de_deferred_request (ser_deferred_request r) = Some r.
Proof.
  destruct r as [i a t]. unfold ser_deferred_request, de_deferred_request.
  cbn [obj dr_credential_issuer dr_access_token dr_transaction_id]. ds i. ds a. by rq.
Qed.

(** ** Saved state *)
Lemma de_item_ser i : readable_item i → de_item (ser_item i) = Some i.
Proof.
  intros H. destruct i as [[d|s] c l]; unfold ser_item, de_item; cbn [obj ai_item ai_configuration_id ai_identifiers] in *.
  - simpl first_of. cbn match. rq. cbn [de_str]. rq. rewrite de_strs_ser. rewrite bool_decide_true by done. by rewrite de_detail_ser.
  - simpl first_of. cbn match. rq. cbn [de_str]. rq. rewrite de_strs_ser. by rewrite bool_decide_false by done.
Qed.
Lemma de_item_readable j i : de_item j = Some i → readable_item i.
Proof.
  destruct j as [| | | | |m]; try done. unfold de_item. cbn [obj]. destruct (first_of _ m) as [[k v]|]; [|done].
  destruct (req de_str _ m); [|done]. destruct (req de_strs _ m); [|done]. case_bool_decide.
  - destruct (de_detail v) eqn:E; [|done]. intros [= <-]. by apply (de_detail_readable v).
  - destruct (de_str v); [|done]. by intros [= <-].
Qed.
Lemma de_items_ser l : (∀ i, i ∈ l → readable_item i) → de_list de_item (ser_list ser_item l) = Some l.
Proof. intros H. apply de_list_ser. apply Forall_forall. intros d Hd. apply de_item_ser. by apply H. Qed.
Lemma de_items_readable j l i : de_list de_item j = Some l → i ∈ l → readable_item i.
Proof.
  intros H Hd. apply de_list_inv in H. destruct (proj1 (Forall_forall _ _) H _ Hd) as (j' & Hj). by apply (de_item_readable j').
Qed.
Lemma de_authorized_ser a : de_authorized (ser_authorized a) = Some a.
Proof.
  destruct a as [i c l]. unfold ser_authorized, de_authorized. cbn [obj au_identifier au_configuration_id au_claim_ids].
  rq. cbn [de_str]. rq. cbn [de_str]. ro ser_strs l; [done|]. intros x _. split; [apply de_strs_ser|done].
Qed.
Lemma de_authz_ser a : (∀ i, i ∈ az_items a → readable_item i) → de_authz (ser_authz a) = Some a.
Proof.
  destruct a as [c u cc cm l]. unfold ser_authz, de_authz.
  cbn [obj az_client_id az_redirect_uri az_code_challenge az_code_challenge_method az_items]. intros H.
  rq. cbn [de_str]. ro JStr u. rq. cbn [de_str]. rq. rewrite de_method_ser. rq. by rewrite de_items_ser.
Qed.
Lemma de_offered_ser o : (∀ l i, off_items o = Some l → i ∈ l → readable_item i) → de_offered (ser_offered o) = Some o.
Proof.
  destruct o as [l t]. unfold ser_offered, de_offered. cbn [obj off_items off_tx_code]. intros H.
  ro JStr t. unfold opt. replace (lookups _ _) with [null_or (ser_list ser_item) l] by (symmetry; by lk).
  destruct l as [l|]; [|done]. cbn [null_or]. rewrite de_items_ser; [done|]. intros i. by apply H.
Qed.
Definition dates_read (cx : codecs) : Prop := ∀ t, date_of cx (date_text cx t) = Some t.
Definition vcs_read (cx : codecs) : Prop := ∀ c, vc_of cx (vc_json cx c) = Some c.
Ltac pick := repeat (rewrite bool_decide_false by discriminate); rewrite bool_decide_true by reflexivity.
Lemma de_stage_ser cx s : dates_read cx → (∀ c, s = Issued c → vc_of cx (vc_json cx c) = Some c) →
  readable_stage s → de_stage cx (ser_stage cx s) = Some s.
Proof.
  intros Hd Hv H. destruct s as [|o|o|r e|a|t|c|t r]; unfold de_stage; cbn [ser_stage variant]; [done|..].
  - pick. by rewrite de_offer_ser.
  - pick. cbn [ser_offered]. by rewrite de_offered_ser.
  - pick. cbn [obj].
    rq. rewrite de_request_ser by done. rq. unfold de_date, ser_date. by rewrite Hd.
  - pick. cbn [ser_authz]. by rewrite de_authz_ser.
  - pick.
    destruct t as [a n e cr]. unfold ser_token, de_token. cbn [obj tk_access_token tk_c_nonce tk_c_nonce_expires_at tk_credentials].
    rq. cbn [de_str]. rq. cbn [de_str]. rq. unfold de_date at 1, ser_date at 1. rewrite Hd. rq.
    rewrite de_map_ser; [done| |exact H]. intros k x _. apply de_authorized_ser.
  - pick. cbn [obj]. rq. by rewrite Hv.
  - pick. cbn [obj]. rq. cbn [de_str]. rq.
    by rewrite de_credential_request_ser.
Qed.
Lemma de_state_ser cx s : dates_read cx → (∀ c, s_stage s = Issued c → vc_of cx (vc_json cx c) = Some c) →
  readable_state s → de_state cx (ser_state cx s) = Some s.
Proof.
  intros Hd Hv H. destruct s as [su st e]. unfold ser_state, de_state. cbn [obj s_subject_id s_stage s_expires_at] in *.
  ro JStr su. rq. rewrite de_stage_ser by done. rq. unfold de_date, ser_date. by rewrite Hd.
Qed.
Lemma de_stage_readable cx j s : de_stage cx j = Some s → readable_stage s.
Proof.
  unfold de_stage. destruct (variant j) as [[k [v|]]|]; [|by case_bool_decide; intros [= <-]|done].
  intros H. assert (v = JNull ∧ s = Unauthorized ∨
    (if bool_decide (k = "pending") then Pending <$> de_offer v
      else if bool_decide (k = "offered") then Offered <$> de_offered v
      else if bool_decide (k = "pushed_authorization") then
        obj (λ m, match req de_request "request" m, req (de_date cx) "expires_at" m with
                  | Some r, Some e => Some (PushedAuthorization r e) | _, _ => None end) v
      else if bool_decide (k = "authorized") then StAuthorized <$> de_authz v
      else if bool_decide (k = "validated") then Validated <$> de_token cx v
      else if bool_decide (k = "issued") then obj (λ m, Issued <$> req (vc_of cx) "credential" m) v
      else if bool_decide (k = "deferred") then
        obj (λ m, match req de_str "transaction_id" m, req de_credential_request "credential_request" m with
                  | Some t, Some r => Some (Deferred t r) | _, _ => None end) v
      else None) = Some s) as [[-> ->]|H'].
  { destruct v; try (right; exact H). left. case_bool_decide; [|done]. by injection H as <-. }
  { done. }
  clear H. repeat case_bool_decide; try done.
  - destruct (de_offer v) eqn:E; [|done]. injection H' as <-. by apply (de_offer_readable v).
  - destruct (de_offered v) as [o|] eqn:E; [|done]. injection H' as <-. destruct v as [| | | | |m]; try done.
    unfold de_offered in E. cbn [obj] in E. destruct (opt (de_list de_item) _ m) eqn:Ei; [|done].
    destruct (opt de_str _ m); [|done]. injection E as <-. intros l i. simpl. intros -> Hi.
    apply opt_inv in Ei as (j' & _ & Ei). by apply (de_items_readable j' l).
  - destruct v as [| | | | |m]; try done. cbn [obj] in H'. destruct (req de_request _ m) eqn:E; [|done].
    destruct (req (de_date cx) _ m); [|done]. injection H' as <-. apply req_inv in E as (j' & _ & E).
    by apply (de_request_readable j').
  - destruct (de_authz v) as [a|] eqn:E; [|done]. injection H' as <-. destruct v as [| | | | |m]; try done.
    unfold de_authz in E. cbn [obj] in E. destruct (req de_str _ m); [|done]. destruct (opt de_str _ m); [|done].
    destruct (req de_str "code_challenge" m); [|done]. destruct (req de_method _ m); [|done].
    destruct (req (de_list de_item) _ m) as [l|] eqn:Ei; [|done]. injection E as <-. intros i. simpl. intros Hi.
    apply req_inv in Ei as (j' & _ & Ei). by apply (de_items_readable j' l).
  - destruct (de_token cx v) as [t|] eqn:E; [|done]. injection H' as <-. destruct v as [| | | | |m]; try done.
    unfold de_token in E. cbn [obj] in E. destruct (req de_str _ m); [|done]. destruct (req de_str "c_nonce" m); [|done].
    destruct (req (de_date cx) _ m); [|done]. destruct (req (de_map de_authorized) _ m) as [l|] eqn:Ei; [|done].
    injection E as <-. simpl. apply req_inv in Ei as (j' & _ & Ei). by apply de_map_inv in Ei as [? _].
  - destruct v as [| | | | |m]; try done. cbn [obj] in H'. destruct (req (vc_of cx) _ m); [|done]. by injection H' as <-.
  - destruct v as [| | | | |m]; try done. cbn [obj] in H'. destruct (req de_str _ m); [|done].
    destruct (req de_credential_request _ m) eqn:E; [|done]. injection H' as <-. apply req_inv in E as (j' & _ & E).
    by apply (de_credential_request_readable j').
Qed.
Lemma de_state_readable cx j s : de_state cx j = Some s → readable_state s.
Proof.
  destruct j as [| | | | |m]; try done. unfold de_state. cbn [obj]. destruct (opt de_str _ m); [|done].
  destruct (req (de_stage cx) _ m) eqn:E; [|done]. destruct (req (de_date cx) _ m); [|done]. intros [= <-].
  apply req_inv in E as (j' & _ & E). by apply (de_stage_readable cx j').
Qed.

