(** Talking in JSON is talking. *)
From Coq Require Import Lia DecimalString.
From Verif Require Import Base StringSpec Json MatcherModel JsonParse JsonText JsonDeep CoreModel VcModel Prog ProgFacts ExecSpec ExecFacts
  IssuerTypes IssuerModel IssuerSpec IssuerFacts IssuerWp IssuerExec IssuerToken IssuerOffer VerifierModel HolderModel HolderSpec ComposeSpec ComposeFacts
  SerdeSpec SerdeModel SerdeFacts SerdeTrips SerdeText SerdeStore SerdeRequest SerdeProps VcSpec VcSerde AnswerSerde AnswerSpec AnswerFacts
  RecordSpec SentSpec SentExec TextSpec.

(** ** Token responses *)
Lemma items_retained iss its ds items : Forall2 (detail_matched iss its) ds items → ∀ i, i ∈ items → i ∈ its.
Proof.
  induction 1 as [|d it ds items H _ IH]; intros i Hi; [by apply elem_of_nil in Hi|].
  apply elem_of_cons in Hi as [->|Hi]; [|by apply IH]. destruct H as [H _]. by eapply find_item_elem.
Qed.
Lemma token_answer_read n (ci : iconfig) i r x : ireach ci → issuer_supplied n ci → n ≤ 122 → answered ci i (QToken r) (Ok (RToken x)) →
  read de_token_response (write ser_token_response x) = Some x.
Proof.
  intros Hr Hs Hn Ha. apply answered_runs in Ha; [|done]. cbn [ihandler] in Ha.
  apply handler_outcome in Ha as ([a|e|w] & Hrun & Heq); try done. injection Heq as <-.
  apply token_ok in Hrun as (st & t & srv & gts & id & cl & items & es_i & tok & nonce & t2 & Hes & _ & _ & _ & _ & _ & Hit & ->).
  assert (Get (token_state_key (tr_grant r)) (Some st) ∈ calls_of i (take (length (c_log ci)) (c_log ci))) as Hg
    by (rewrite firstn_all, Hes; set_solver).
  apply (read_pos _ _ _ _ _ Hr) in Hg as (g & m & en & y & o & _ & Hm & He).
  destruct (saved_readable ci Hr (λ i q p H, proj1 (Hs i q p H)) m en _ _ _ _ Hm He) as [Hread _].
  pose proof (saved_shallow n ci Hr (λ i q p l H, proj2 (Hs i q p H) l) m en _ _ _ _ Hm He) as Hdeep.
  assert (∀ it, it ∈ items → readable_item it ∧ ∀ d l, ai_item it = ItemDetail d → l ∈ authorization_claims (ad_credential d) → claims_depth l ≤ n) as Hi.
  { unfold token_items in Hit. unfold readable_state in Hread. destruct (tr_grant r).
    - destruct Hit as (az & Est & -> & _). rewrite Est in Hread, Hdeep. cbn in Hread, Hdeep. intros it Hin. split; [by apply Hread|].
      intros d l Ed Hl. apply Hdeep. apply elem_of_list_bind. exists it. by rewrite Ed.
    - destruct Hit as (of & its & Est & Eof & Hit). rewrite Est in Hread, Hdeep. cbn in Hread, Hdeep. rewrite Eof in Hdeep.
      assert (∀ it, it ∈ items → it ∈ its) as Hsub.
      { destruct (tr_authorization_details r); [|by destruct Hit as [_ ->]]. destruct Hit as (iss & _ & H). by apply (items_retained _ _ _ _ H). }
      intros it Hin%Hsub. split; [by apply (Hread its)|]. intros d l Ed Hl. apply Hdeep. apply elem_of_list_bind. exists it. by rewrite Ed. }
  assert (∀ l d, authorized_details items = Some l → d ∈ l → ∃ it, it ∈ items ∧ ai_item it = ItemDetail (atd_detail d)) as Hd.
  { intros l d. unfold authorized_details. destruct (omap _ items) as [|d0 l0] eqn:E; [done|]. intros [= <-] Hin. rewrite <-E in Hin.
    apply elem_of_list_omap in Hin as (it & Hin & H). exists it. split; [done|]. destruct (ai_item it); [|done]. by injection H as <-. }
  apply token_response_text; cbn [trs_expires_in trs_c_nonce_expires_in trs_authorization_details].
  - split; lia.
  - intros z [= <-]. split; lia.
  - intros l d El Hdl. destruct (Hd l d El Hdl) as (it & Hin & Ed). destruct (Hi it Hin) as [H _]. unfold readable_item in H. by rewrite Ed in H.
  - intros l d cl' El Hdl Hcl. destruct (Hd l d El Hdl) as (it & Hin & Ed). destruct (Hi it Hin) as [_ H]. specialize (H _ _ Ed Hcl). lia.
Qed.

(** ** Credential responses *)
Lemma answer_kinds_of (ci : iconfig) i q rep resp : ireach ci → answered ci i q (Ok rep) → (rep = RCredential resp ∨ rep = RDeferred resp) →
  ∀ v, crs_response resp ≠ CRCredential (KObject v).
Proof.
  intros Hr Ha Hrep. apply answered_runs in Ha; [|done].
  destruct q; cbn [ihandler] in Ha; apply handler_outcome in Ha as ([a|e|w] & Hrun & Heq); try done; injection Heq as ->;
    destruct Hrep as [[=]|[=]]; subst.
  - by eapply answer_kinds.
  - apply deferred_ok in Hrun as (? & ? & ? & ? & es & k & _ & _ & _ & _ & Hrun). by eapply answer_kinds.
Qed.
Lemma int_fits n z z' : de_int n (ser_int z) = Some z' → fits n z.
Proof.
  intros H. enough (z' = z) as -> by (by eapply de_int_inv). revert H. unfold ser_int, de_int. rewrite int_text_inv, DecimalZ.of_to.
  rewrite bool_decide_true by done. cbv zeta. destruct (int_range n z); simpl andb; cbn iota; congruence.
Qed.
Lemma read_text {A B} (f : A → json) (d : json → option B) a n : fine n (f a) → n < depth_limit → read d (write f a) = d (f a).
Proof. intros [H1 H2] Hn. unfold read, write. rewrite parse_json_text; [done|done|]. lia. Qed.
Lemma read_lifetime cx r a z : de_answer cx (ser_answer cx r) = Some a → wr_c_nonce_expires_in r = Some z → fits 64 z.
Proof.
  destruct r as [t nn x i]. intros H Ez. cbn in Ez. subst x. unfold de_answer, ser_answer in H. cbn [obj wr_response wr_c_nonce wr_c_nonce_expires_in wr_notification_id] in H.
  assert (∀ k, first_of answer_names ([ser_answer_type cx t] ++ k) = Some (ser_answer_type cx t)) as Hf by (intros; by destruct t).
  rewrite Hf in H. destruct (ser_answer_type cx t) as [k v] eqn:Et. destruct (de_answer_type cx k v); [|done].
  assert (lookups "c_nonce_expires_in" ([(k, v)] ++ some_entry "c_nonce" JStr nn ++ some_entry "c_nonce_expires_in" ser_int (Some z) ++
    some_entry "notification_id" JStr i) = [ser_int z]) as El.
  { rewrite !lookups_app, lookups_some_eq, !lookups_some_ne by done. destruct t; injection Et as <- <-; by rewrite lookups_ne. }
  unfold opt at 2 in H. rewrite El in H. destruct (opt de_str "c_nonce" _); [|done].
  change (ser_int z) with (JNum (int_text z)) in H. cbn iota in H.
  destruct (de_int 64 (JNum (int_text z))) as [z'|] eqn:Ed; [|done]. by eapply int_fits.
Qed.
Lemma answer_fits cx resp a : (∀ v, crs_response resp ≠ CRCredential (KObject v)) →
  read (de_answer cx) (write (ser_answer cx) (to_wallet resp)) = Some a → ∀ z, crs_c_nonce_expires_in resp = Some z → fits 64 z.
Proof.
  intros Hv H z Ez. rewrite (read_text _ _ _ (5 + 0)) in H.
  - by eapply read_lifetime.
  - apply (fine_answer cx 0). intros v. unfold to_wallet. cbn [wr_response]. destruct (crs_response resp) as [k|] eqn:E; cbn [answer_credentials].
    + intros Hin%elem_of_list_singleton. subst k. by destruct (Hv v).
    + by intros ?%elem_of_nil.
  - unfold depth_limit. lia.
Qed.

(** ** Both ways *)
Section both.
Context (cx : codecs) (n : nat) (c : hconfig) (ci : iconfig) (f : nat → nat).
Context (Hd : dates_read cx) (Hr : hreach c) (Hri : ireach ci) (Hs : wallet_supplied n c) (Hmd : metadata_supplied n c)
  (Hsi : issuer_supplied n ci) (Hn : n ≤ 122) (Hno : no_sd_jwt_requests c).
Lemma delivered_text_value m i e k q r : made c m i e → answered ci k q (Ok r) → delivered_as_text cx q r e → delivered q r e.
Proof.
  intros Hm Ha H. destruct e as [| | |[]]; try done; pose proof (Hno _ _ _ Hm) as Hno'; cbn [delivered delivered_as_text] in H |- *; cbn iota beta in Hno';
    match goal with o : option _ |- _ => destruct o as [a|]; [|done] end; destruct r; try done.
  - destruct H as (strict & ar & H1 & -> & H2). rewrite (authorization_sent strict n c m i _ _ Hr Hs Hmd Hn Hm) in H1.
    rewrite authorization_response_text in H2. injection H1 as <-. injection H2 as <-. split; [|done]. by rewrite (proj2 (request_same_iff _)).
  - destruct H as (tr & H1 & -> & H2). rewrite (token_sent n c Hr Hs m i _ _ Hn Hm) in H1. injection H1 as <-.
    rewrite (token_answer_read n ci k _ _ Hri Hsi Hn Ha) in H2. injection H2 as <-. split; [|done]. by rewrite (proj2 (token_same_iff _)).
  - destruct H as (cr & H1 & -> & H2). assert (n ≤ 124) as Hn' by lia. rewrite (credential_sent n c Hr Hmd m i _ _ Hn' Hm) in H1. injection H1 as <-.
    split; [done|]. rewrite (issuer_answers cx ci k _ _ _ Hd Hri Ha (or_introl eq_refl)) in H2; [by injection H2|].
    eapply answer_fits; [|exact H2]. eapply answer_kinds_of; [exact Hri|exact Ha|by left].
  - destruct H as (dr & H1 & -> & H2). rewrite deferred_request_text in H1. injection H1 as <-.
    split; [done|]. rewrite (issuer_answers cx ci k _ _ _ Hd Hri Ha (or_intror eq_refl)) in H2; [by injection H2|].
    eapply answer_fits; [|exact H2]. eapply answer_kinds_of; [exact Hri|exact Ha|by right].
Qed.
Lemma delivered_value_text m i e k q r : lifetimes_fit ci → made c m i e → answered ci k q (Ok r) → delivered q r e → delivered_as_text cx q r e.
Proof.
  intros Hl Hm Ha H. destruct e as [| | |[]]; try done; pose proof (Hno _ _ _ Hm) as Hno'; cbn [delivered delivered_as_text] in H |- *; cbn iota beta in Hno';
    match goal with o : option _ |- _ => destruct o as [a|]; [|done] end; destruct r; try done.
  - destruct H as [-> ->]. exists true. eexists. split; [apply (authorization_sent true n c m i _ _ Hr Hs Hmd Hn Hm)|].
    rewrite (proj2 (request_same_iff _)) by done. split; [done|]. apply authorization_response_text.
  - destruct H as [-> ->]. eexists. split; [apply (token_sent n c Hr Hs m i _ _ Hn Hm)|]. rewrite (proj2 (token_same_iff _)) by done.
    split; [done|]. by apply (token_answer_read n ci k _ _ Hri Hsi Hn Ha).
  - destruct H as [-> ->]. assert (n ≤ 124) as Hn' by lia. eexists. split; [exact (credential_sent n c Hr Hmd m i _ _ Hn' Hm)|]. split; [done|].
    apply (issuer_answers cx ci k _ _ _ Hd Hri Ha (or_introl eq_refl)). intros z. by apply (Hl _ _ _ _ _ Ha (or_introl eq_refl)).
  - destruct H as [-> ->]. eexists. split; [apply deferred_request_text|]. split; [done|].
    apply (issuer_answers cx ci k _ _ _ Hd Hri Ha (or_intror eq_refl)). intros z. by apply (Hl _ _ _ _ _ Ha (or_intror eq_refl)).
Qed.
Lemma text_coupled : coupled_by_text cx c ci f → coupled c ci f.
Proof.
  intros [Ha Ho]. split; [|exact Ho]. intros m i e Hm Hf. destruct (Ha m i e Hm Hf) as (q & r & H1 & H2). exists q, r. split; [done|].
  by eapply delivered_text_value.
Qed.
Lemma coupled_text : lifetimes_fit ci → coupled c ci f → coupled_by_text cx c ci f.
Proof.
  intros Hl [Ha Ho]. split; [|exact Ho]. intros m i e Hm Hf. destruct (Ha m i e Hm Hf) as (q & r & H1 & H2). exists q, r. split; [done|].
  by eapply delivered_value_text.
Qed.
End both.

(** ** Without conditions *)

(** What is read of a text that was written, however deep. *)
Lemma read_some {A B} (f : A → json) (d : json → option B) a b : jnumbers (f a) → read d (write f a) = Some b → d (f a) = Some b.
Proof.
  intros Hn. unfold read, write. destruct (decide (jdepth (f a) < depth_limit)) as [Hl|Hl].
  - by rewrite parse_json_text.
  - rewrite parse_json_deep; [done|done|lia].
Qed.
Lemma deep_enough l : ∀ c, c ∈ l → claims_depth c ≤ list_max (map claims_depth l).
Proof. exact (list_max_all 0 l). Qed.
Lemma request_numbers r : jnumbers (ser_request r).
Proof. apply (fine_request (list_max (map claims_depth (details_claims (ro_authorization_details r))))). apply deep_enough. Qed.
Lemma credential_request_numbers r : jnumbers (ser_credential_request r).
Proof. apply (fine_credential_request (list_max (map claims_depth (issuance_claims (cr_credential r))))). apply deep_enough. Qed.
Lemma token_request_numbers r : jnumbers (ser_token_request r).
Proof.
  pose (n := list_max (map claims_depth (details_claims (tr_authorization_details r)))). apply (fine_obj (4 + n)). fns.
  - destruct (tr_client_id r); [apply fine_str|by split; [|cbn; lia]].
  - destruct (tr_grant r); cbn [ser_token_grant]; fns.
  - apply SerdeText.fine_details. intros c Hc. apply deep_enough. by rewrite H.
Qed.
Lemma token_response_numbers r : jnumbers (ser_token_response r).
Proof.
  pose (l := match trs_authorization_details r with Some l => l ≫= (λ d, authorization_claims (ad_credential (atd_detail d))) | None => [] end).
  pose (n := list_max (map claims_depth l)). apply (fine_obj (4 + n)). fns; try apply fine_int.
  apply fine_list. intros d Hd. apply (fine_obj (2 + n)). apply fines_app; [|fns]. apply fines_detail. intros c Hc. apply deep_enough.
  unfold l. rewrite H. apply elem_of_list_bind. by exists d.
Qed.
Lemma answer_numbers cx resp : (∀ v, crs_response resp ≠ CRCredential (KObject v)) → jnumbers (ser_answer cx (to_wallet resp)).
Proof.
  intros Hv. apply (fine_answer cx 0). intros v. unfold to_wallet. cbn [wr_response]. destruct (crs_response resp) as [k|] eqn:E; cbn [answer_credentials].
  - intros Hin%elem_of_list_singleton. subst k. by destruct (Hv v).
  - by intros ?%elem_of_nil.
Qed.

(** What remains of requests and responses, whatever the details. *)
Lemma token_request_same r r' : de_token_request (ser_token_request r) = Some r' → same_token_request r r'.
Proof.
  destruct r as [i c g d]. unfold ser_token_request, de_token_request.
  cbn [obj tr_credential_issuer tr_client_id tr_grant tr_authorization_details] in *.
  rewrite (dflt_str _ _ i) by lkg.
  assert (∀ b, opt de_str "client_id" (str_entry "credential_issuer" i ++ [("client_id", null_or JStr c)]
      ++ ser_token_grant g ++ some_entry "authorization_details" b d) = Some c) as ->.
  { intros b. unfold opt. replace (lookups _ _) with [null_or JStr c] by (symmetry; lkg). by destruct c. }
  destruct (opt (de_list de_detail) _ _) as [d'|]; [|by destruct (de_token_grant _)].
  unfold de_token_grant. destruct g as [co ru cv|co tx]; simpl ser_token_grant.
  - rq. simpl. rq. cbn [de_str]. ro JStr ru. ro JStr cv. by intros [= <-].
  - rq. simpl. rq. cbn [de_str]. ro JStr tx. by intros [= <-].
Qed.
Lemma token_response_same r r' : de_token_response (ser_token_response r) = Some r' →
  trs_access_token r' = trs_access_token r ∧ trs_c_nonce r' = trs_c_nonce r.
Proof.
  destruct r as [a e n ne d]. unfold ser_token_response, de_token_response.
  cbn [obj trs_access_token trs_expires_in trs_c_nonce trs_c_nonce_expires_in trs_authorization_details].
  rq. cbn [de_str]. rq. change (unit_variant _ (JStr "Bearer")) with (Some ()). cbn match.
  destruct (req (de_int 64) _ _); [|done]. ro JStr n. destruct (opt (de_int 64) _ _); [|done].
  destruct (opt (de_list de_authorized_detail) _ _); [|done]. by intros [= <-].
Qed.
Lemma credential_request_same r r' : de_credential_request (ser_credential_request r) = Some r' →
  cr_access_token r' = cr_access_token r ∧ cr_proof r' = cr_proof r.
Proof.
  destruct r as [i a c p]. unfold ser_credential_request, de_credential_request.
  cbn [obj cr_credential_issuer cr_access_token cr_credential cr_proof].
  set (pe := match p with Some p => ser_proof p | None => [] end).
  assert (foreign (["credential_issuer"; "access_token"; "credential_identifier"] ++ format_keys) pe) as Hp.
  { destruct p as [[]|]; foreign. }
  assert (∀ k, k ∈ ["credential_issuer"; "access_token"; "proof"; "proofs"] → lookups k (ser_issuance c) = []) as Hc.
  { intros k Hk. destruct c as [id|f]; cbn [ser_issuance].
    - rewrite lookups_ne; [done|]. intros <-. revert Hk. notin.
    - apply lookups_format. intros Hin. unfold format_keys in Hin. set_solver. }
  assert (first_of ["proof"; "proofs"] (ser_issuance c) = None) as Hf.
  { destruct c as [id|f]; [done|]. apply first_format. intros k Hk Hin. unfold format_keys in Hk. set_solver. }
  destruct (dflt de_str "" "credential_issuer" _); [|done].
  rewrite (dflt_str _ _ a). 2:{ rewrite !lookups_app, Hc by notin. rewrite (foreign_lookups _ pe _ Hp) by notin. by lk. }
  destruct (de_issuance _); [|done].
  assert (de_proof (str_entry "credential_issuer" i ++ str_entry "access_token" a ++ ser_issuance c ++ pe) = p) as ->; [|by intros [= <-]].
  unfold de_proof. rewrite !first_of_app. rewrite Hf.
  rewrite (foreign_first ["proof"; "proofs"] _ (str_entry "credential_issuer" i)); [|foreign|done].
  rewrite (foreign_first ["proof"; "proofs"] _ (str_entry "access_token" a)); [|foreign|done].
  unfold pe. destruct p as [[jwt|jwts]|]; [done| |done]. simpl. by rewrite de_strs_ser.
Qed.
Lemma authorization_request_same strict r a : de_authorization_request strict (ser_request r) = Some a →
  ∃ r', a = ARObject r' ∧ ro_subject_id r' = ro_subject_id r.
Proof.
  destruct r as [i rt c ru st cc cm ad sc su is]. unfold de_authorization_request, ser_request, ser_request_entries, empty_request.
  cbn [obj ro_credential_issuer ro_response_type ro_client_id ro_redirect_uri ro_state ro_code_challenge
    ro_code_challenge_method ro_authorization_details ro_scope ro_subject_id ro_issuer_state].
  stp (str_entry "credential_issuer" i) (RequestObject i RTCode "" None None "" S256 None None "" None).
  2:{ unfold str_entry. case_bool_decide; [by subst|done]. }
  stp [("response_type", ser_response_type rt); ("client_id", JStr c)] (RequestObject i rt c None None "" S256 None None "" None).
  2:{ by destruct rt. }
  stp (some_entry "redirect_uri" JStr ru) (RequestObject i rt c ru None "" S256 None None "" None).
  2:{ by destruct ru. }
  stp (some_entry "state" JStr st) (RequestObject i rt c ru st "" S256 None None "" None).
  2:{ by destruct st. }
  stp [("code_challenge", JStr cc); ("code_challenge_method", ser_method cm)] (RequestObject i rt c ru st cc cm None None "" None).
  2:{ by destruct cm. }
  rewrite read_keys_app.
  assert (∀ x, read_keys strict (some_entry "authorization_details" (ser_list ser_detail) ad) (RequestObject i rt c ru st cc cm None None "" None) "" = Some x →
    ∃ ad', x = (RequestObject i rt c ru st cc cm ad' None "" None, "")) as Had.
  { intros x. destruct ad as [l|]; [|intros [= <-]; by eexists]. unfold some_entry. cbn [read_keys]. unfold read_key.
    repeat (rewrite bool_decide_false by discriminate). rewrite bool_decide_true by done.
    destruct (de_list de_detail (ser_list ser_detail l)) as [l'|]; [|done]. intros [= <-]. by eexists. }
  destruct (read_keys strict (some_entry "authorization_details" _ ad) _ _) as [x|]; [|done]. destruct (Had x eq_refl) as [ad' ->]. cbn match.
  stp (some_entry "scope" JStr sc) (RequestObject i rt c ru st cc cm ad' sc "" None).
  2:{ by destruct sc. }
  stp [("subject_id", JStr su)] (RequestObject i rt c ru st cc cm ad' sc su None).
  replace (read_keys _ _ _ _) with (Some (RequestObject i rt c ru st cc cm ad' sc su is, "")) by (by destruct is).
  rewrite bool_decide_true by done. intros [= <-]. by eexists.
Qed.

Lemma text_details cx (c : hconfig) (ci : iconfig) f : dates_read cx → ireach ci → coupled_by_text cx c ci f → coupled_but_details c ci f.
Proof.
  intros Hd Hri [Ha Ho]. split; [|exact Ho]. intros m i e Hm Hf. destruct (Ha m i e Hm Hf) as (q & r & H1 & H). exists q, r. split; [done|].
  clear Ha Ho Hf Hm. destruct e as [| | |[]]; try done; cbn [delivered_but_details delivered delivered_as_text] in H |- *;
    match goal with o : option _ |- _ => destruct o as [a|]; [|done] end; destruct r; try done.
  - destruct H as (strict & ar & H2 & -> & H3). apply read_some in H2; [|apply request_numbers].
    apply authorization_request_same in H2 as (req' & -> & Hs). rewrite authorization_response_text in H3. injection H3 as <-.
    split; [by exists req'|done].
  - destruct H as (tr & H2 & -> & H3). apply read_some in H2; [|apply token_request_numbers]. apply token_request_same in H2.
    apply read_some in H3; [|apply token_response_numbers]. apply token_response_same in H3. split; [by exists tr|done].
  - destruct H as (cr & H2 & -> & H3). apply read_some in H2; [|apply credential_request_numbers]. apply credential_request_same in H2.
    split; [by exists cr|]. rewrite (issuer_answers cx ci (f m) _ _ _ Hd Hri H1 (or_introl eq_refl)) in H3; [by injection H3|].
    eapply answer_fits; [|exact H3]. eapply answer_kinds_of; [exact Hri|exact H1|by left].
  - destruct H as (dr & H2 & -> & H3). rewrite deferred_request_text in H2. injection H2 as <-.
    split; [done|]. rewrite (issuer_answers cx ci (f m) _ _ _ Hd Hri H1 (or_intror eq_refl)) in H3; [by injection H3|].
    eapply answer_fits; [|exact H3]. eapply answer_kinds_of; [exact Hri|exact H1|by right].
Qed.
