(** Saved states and messages as JSON text: the pieces put together. *)
From Coq Require Import Lia DecimalString.
From Verif Require Import Base StringSpec Json MatcherModel JsonParse JsonText JsonDeep CoreModel VcModel Prog ProgFacts ExecSpec ExecFacts
  IssuerTypes ClaimsModel IssuerModel IssuerSpec IssuerWp IssuerExec SerdeSpec SerdeModel SerdeFacts SerdeTrips SerdeText SerdeStore SerdeRequest.

(** ** Saved states *)

(** The request was read from JSON. *)
Definition was_read (q : irequest) : Prop :=
  match q with
  | QAuthorize a => ∃ strict j, de_authorization_request strict j = Some a
  | QPar r => ∃ j, de_request j = Some r
  | QCredential r => ∃ j, de_credential_request j = Some r
  | _ => True
  end.
(** The claims a request asks for. *)
Definition request_claims (q : irequest) : list claimset :=
  match q with
  | QAuthorize (ARObject r) | QPar r => details_claims (ro_authorization_details r)
  | QCredential r => issuance_claims (cr_credential r)
  | _ => []
  end.

Lemma saved_readable (c : iconfig) : ireach c →
  (∀ i q p, c_pool c !! i = Some (q, p) → was_read q) →
  ∀ n en k v x o, c_log c !! n = Some en → e_ev en = Put k v x o →
  readable_state v ∧ (∀ vc, s_stage v ≠ Issued vc).
Proof.
  intros Hr Hq n en k v x o Hn He.
  pose proof (saved_over readable_detail readable_issuance (λ _, I) c Hr) as H.
  specialize (λ Hp, H Hp n en k v x o Hn He).
  assert (stage_over readable_detail readable_issuance (s_stage v)) as Ho.
  { apply H. intros i q p Hi. specialize (Hq i q p Hi). destruct q; try done; simpl in *.
    - destruct r as [u|r]; [done|]. destruct Hq as (s & j & Hq). by apply de_authorization_request_readable in Hq.
    - destruct Hq as (j & Hq). by apply de_request_readable in Hq.
    - destruct Hq as (j & Hq). by apply de_credential_request_readable in Hq. }
  clear H. unfold readable_state. destruct (s_stage v) as [ |of|of|r e|a|t|vc|t r]; simpl in *; try done.
  - split; [|done]. intros l i E Hi. unfold readable_item. specialize (Ho l i E Hi). unfold item_over in Ho.
    destruct (ai_item i); [by apply Ho|done].
  - split; [|done]. intros i Hi. unfold readable_item. specialize (Ho i Hi). unfold item_over in Ho.
    destruct (ai_item i); [by apply Ho|done].
Qed.
Lemma saved_shallow m (c : iconfig) : ireach c →
  (∀ i q p l, c_pool c !! i = Some (q, p) → l ∈ request_claims q → claims_depth l ≤ m) →
  ∀ n en k v x o, c_log c !! n = Some en → e_ev en = Put k v x o →
  ∀ l, l ∈ stage_claims (s_stage v) → claims_depth l ≤ m.
Proof.
  intros Hr Hq n en k v x o Hn He.
  pose (D := λ d, ∀ l, l ∈ authorization_claims (ad_credential d) → claims_depth l ≤ m).
  pose (F := λ i, ∀ l, l ∈ issuance_claims i → claims_depth l ≤ m).
  assert (∀ id, D (AuthorizationDetail (ByConfigurationId id None) None)) as HD by (intros id l Hl; by apply elem_of_nil in Hl).
  assert (stage_over D F (s_stage v)) as Ho.
  { refine (saved_over D F HD c Hr _ n en k v x o Hn He). intros i q p Hi. specialize (Hq i q p). destruct q; try done; simpl in *.
    - destruct r as [u|r]; [done|]. intros ld d Hl Hd l Hc. apply Hq; [done|]. rewrite Hl. simpl. apply elem_of_list_bind. by exists d.
    - intros ld d Hl Hd l Hc. apply Hq; [done|]. rewrite Hl. simpl. apply elem_of_list_bind. by exists d.
    - intros l Hc. by apply Hq. }
  destruct (s_stage v) as [ |of|of|r e|a|t|vc|t r]; simpl in *; try (intros l Hl; by apply elem_of_nil in Hl).
  - intros l Hl. destruct (off_items of) as [li|] eqn:E; [|by apply elem_of_nil in Hl].
    unfold items_claims in Hl. apply elem_of_list_bind in Hl as (i & Hl & Hi). specialize (Ho li i eq_refl Hi). unfold item_over in Ho.
    destruct (ai_item i) as [d|]; [by apply (Ho d)|by apply elem_of_nil in Hl].
  - intros l Hl. unfold details_claims in Hl. destruct (ro_authorization_details r) as [ld|] eqn:E; [|by apply elem_of_nil in Hl].
    apply elem_of_list_bind in Hl as (d & Hl & Hd). by apply (Ho ld d).
  - intros l Hl. unfold items_claims in Hl. apply elem_of_list_bind in Hl as (i & Hl & Hi). specialize (Ho i Hi). unfold item_over in Ho.
    destruct (ai_item i) as [d|]; [by apply (Ho d)|by apply elem_of_nil in Hl].
  - exact Ho.
Qed.
Lemma saved_value cx (c : iconfig) : dates_read cx → ireach c →
  (∀ i q p, c_pool c !! i = Some (q, p) → was_read q) →
  ∀ n en k v x o, c_log c !! n = Some en → e_ev en = Put k v x o → de_state cx (ser_state cx v) = Some v.
Proof.
  intros Hd Hr Hq n en k v x o Hn He. destruct (saved_readable c Hr Hq n en k v x o Hn He) as [H1 H2].
  apply de_state_ser; [done| |done]. intros vc E. by destruct (H2 vc).
Qed.
Lemma saved_text cx (c : iconfig) : dates_read cx → ireach c →
  (∀ i q p, c_pool c !! i = Some (q, p) → was_read q ∧ ∀ l, l ∈ request_claims q → claims_depth l ≤ 119) →
  ∀ n en k v x o, c_log c !! n = Some en → e_ev en = Put k v x o → read (de_state cx) (write (ser_state cx) v) = Some v.
Proof.
  intros Hd Hr Hq n en k v x o Hn He.
  assert (∀ i q p, c_pool c !! i = Some (q, p) → was_read q) as Hq1 by (intros i q p Hi; by apply (Hq i q p Hi)).
  destruct (saved_readable c Hr Hq1 n en k v x o Hn He) as [H1 H2].
  apply (read_write _ _ _ (8 + 119)).
  - apply fine_state; [intros vc E; by destruct (H2 vc)|].
    apply (saved_shallow 119 c Hr) with (2 := Hn) (3 := He). intros i q p l Hi. by apply (Hq i q p Hi).
  - unfold depth_limit. lia.
  - by eapply saved_value.
Qed.

Lemma state_exact cx s : dates_read cx → vcs_read cx → de_state cx (ser_state cx s) = Some s ↔ readable_state s.
Proof. intros Hd Hv. split; [apply de_state_readable|]. intros H. apply de_state_ser; [done| |done]. intros c _. apply Hv. Qed.
Lemma list_max_all (P : nat) (l : list claimset) : (∀ c, c ∈ l → claims_depth c ≤ list_max (map claims_depth l)).
Proof.
  induction l as [|c' l IH]; [by intros c ?%elem_of_nil|]. intros c [->|H]%elem_of_cons; cbn; [lia|].
  specialize (IH c H). unfold list_max in IH. lia.
Qed.
Lemma state_numbers cx s : (∀ c, s_stage s = Issued c → jnumbers (vc_json cx c)) → jnumbers (ser_state cx s).
Proof.
  intros Hv.
  pose (m := list_max (map claims_depth (stage_claims (s_stage s)))).
  pose (m' := m + match s_stage s with Issued c => jdepth (vc_json cx c) | _ => 0 end).
  apply (fine_state cx m' s).
  - intros c Hc. split; [by apply Hv|]. unfold m'. rewrite Hc. lia.
  - intros c Hc. etransitivity; [by apply list_max_all|]. unfold m', m. lia.
Qed.
Lemma text_exact cx s : dates_read cx → vcs_read cx → (∀ c, s_stage s = Issued c → jnumbers (vc_json cx c)) →
  read (de_state cx) (write (ser_state cx) s) = Some s ↔ readable_state s ∧ jdepth (ser_state cx s) < depth_limit.
Proof.
  intros Hd Hv Hn. apply state_numbers in Hn. unfold read, write. split.
  - intros H. destruct (decide (jdepth (ser_state cx s) < depth_limit)) as [Hl|Hl].
    + rewrite parse_json_text in H by done. split; [by eapply de_state_readable|done].
    + rewrite parse_json_deep in H; [done|done|lia].
  - intros [H Hl]. rewrite parse_json_text by done. by apply state_exact.
Qed.

(** ** Messages *)
Lemma lt_limit n : n ≤ 127 → n < depth_limit. Proof. unfold depth_limit. lia. Qed.
Ltac rw n := apply (read_write _ _ _ n); [|apply lt_limit; lia|].
Lemma fine_grant_type n g : fine n (ser_grant_type g). Proof. apply fine_str. Qed.
Lemma create_offer_text r : read de_create_offer (write ser_create_offer r) = Some r.
Proof.
  rw 2; [|apply de_create_offer_ser]. apply fine_obj. fns. apply fine_list. intros ? _. apply fine_grant_type.
Qed.
Lemma offer_text o : readable_offer o → read de_offer (write ser_offer o) = Some o.
Proof. intros H. rw 4; [apply (fine_offer 0)|by apply de_offer_ser]. Qed.
Lemma create_offer_response_text r : (∀ o, cor_offer r = OfferObject o → readable_offer o) →
  read de_create_offer_response (write ser_create_offer_response r) = Some r.
Proof.
  intros H. rw 5; [|by apply de_create_offer_response_ser]. apply fine_obj. destruct (cor_offer r); fns. apply (fine_offer 0).
Qed.
Lemma request_text r : readable_request r → (∀ c, c ∈ details_claims (ro_authorization_details r) → claims_depth c ≤ 122) →
  read de_request (write ser_request r) = Some r.
Proof. intros H Hc. rw (5 + 122); [by apply fine_request|by apply de_request_ser]. Qed.
Lemma token_request_text r : readable_details (tr_authorization_details r) →
  (∀ c, c ∈ details_claims (tr_authorization_details r) → claims_depth c ≤ 122) →
  read de_token_request (write ser_token_request r) = Some r.
Proof.
  intros H Hc. rw (5 + 122); [|by apply de_token_request_ser]. apply fine_obj. fns.
  - destruct (tr_client_id r); apply fine_null || apply fine_str.
  - destruct (tr_grant r); unfold ser_token_grant; fns.
  - apply fine_details. by rewrite <-H0.
Qed.
Lemma token_response_text r : fits 64 (trs_expires_in r) → (∀ n, trs_c_nonce_expires_in r = Some n → fits 64 n) →
  (∀ l d, trs_authorization_details r = Some l → d ∈ l → readable_detail (atd_detail d)) →
  (∀ l d c, trs_authorization_details r = Some l → d ∈ l → c ∈ authorization_claims (ad_credential (atd_detail d)) → claims_depth c ≤ 122) →
  read de_token_response (write ser_token_response r) = Some r.
Proof.
  intros H1 H2 H3 Hc. rw (5 + 122); [|by apply de_token_response_ser]. apply fine_obj. fns; try apply fine_int.
  apply fine_list. intros d Hd. apply (fine_obj (2 + 122)). apply fines_app; [|fns]. apply fines_detail. intros c. by apply (Hc a d c).
Qed.
Lemma authorization_response_text r : read de_authorization_response (write ser_authorization_response r) = Some r.
Proof. rw 1; [|apply de_authorization_response_ser]. apply fine_obj. fns. Qed.
Lemma par_response_text r : fits 64 (pr_expires_in r) → read de_par_response (write ser_par_response r) = Some r.
Proof. intros H. rw 1; [|by apply de_par_response_ser]. apply fine_obj. fns. apply fine_int. Qed.
Lemma credential_request_text r : readable_credential_request r → (∀ c, c ∈ issuance_claims (cr_credential r) → claims_depth c ≤ 124) →
  read de_credential_request (write ser_credential_request r) = Some r.
Proof. intros H Hc. rw (3 + 124); [by apply fine_credential_request|by apply de_credential_request_ser]. Qed.
Lemma deferred_request_text r : read de_deferred_request (write ser_deferred_request r) = Some r.
Proof. rw 1; [|apply de_deferred_request_ser]. apply fine_obj. fns. Qed.
Lemma authorization_request_text strict a :
  match a with
  | ARUri u => u ≠ ""
  | ARObject r => readable_request r ∧ ∀ c, c ∈ details_claims (ro_authorization_details r) → claims_depth c ≤ 122 end →
  read (de_authorization_request strict) (write ser_authorization_request a) = Some a.
Proof.
  intros H. destruct a as [u|r].
  - rw 1; [apply fine_obj; fns|]. by apply de_authorization_request_ser.
  - destruct H as [H Hc]. rw (5 + 122); [by apply fine_request|by apply de_authorization_request_ser].
Qed.

(** Requests that were read can be sent on. *)
Lemma request_again j r : de_request j = Some r → de_request (ser_request r) = Some r.
Proof. intros H. eapply de_request_ser, de_request_readable, H. Qed.
Lemma authorization_request_again strict strict' j a : de_authorization_request strict j = Some a →
  de_authorization_request strict' (ser_authorization_request a) = Some a.
Proof. intros H. apply de_authorization_request_ser. by eapply de_authorization_request_readable. Qed.
Lemma credential_request_again j r : de_credential_request j = Some r → de_credential_request (ser_credential_request r) = Some r.
Proof. intros H. eapply de_credential_request_ser, de_credential_request_readable, H. Qed.
Lemma state_again cx j s : dates_read cx → vcs_read cx → de_state cx j = Some s → de_state cx (ser_state cx s) = Some s.
Proof. intros Hd Hv H. apply state_exact; [done..|]. by eapply de_state_readable. Qed.
Lemma claims_exact l : de_claimset (ser_claimset l) = Some l ↔ readable_claims l.
Proof. split; [apply de_claimset_readable|apply de_claimset_ser]. Qed.

(** ** Claims *)
Lemma mandatory_lost b k c : k ∉ reserved → readable_claim c →
  de_claim (JObj [("mandatory", JBool b); (k, ser_claim c)]) = Some (CSet [(k, c)]).
Proof.
  intros Hk Hc. unfold reserved in Hk. simpl. rewrite bool_decide_false by set_solver. rewrite bool_decide_false by set_solver.
  rewrite bool_decide_false by set_solver. by rewrite de_claim_ser.
Qed.
(** A description with nested claims is not checked as mandatory, whatever it says. *)
Lemma container_not_required b k c name : k ∉ reserved → readable_claim c → claim_required c None = true →
  ∃ l, de_claimset (JObj [(name, JObj [("mandatory", JBool b); (k, ser_claim c)])]) = Some l ∧ claims_required [] l = true.
Proof.
  intros Hk Hc Hr. exists [(name, CSet [(k, c)])]. split.
  - unfold de_claimset, de_map. cbn [obj]. cbn [de_entries]. rewrite mandatory_lost by done. done.
  - unfold claims_required. simpl. by rewrite Hr.
Qed.
Lemma entry_required name : ∃ l, de_claimset (JObj [(name, JObj [("mandatory", JBool true)])]) = Some l ∧ claims_required [] l = false.
Proof. exists [(name, CEntry (Some true))]. split; [|done]. reflexivity. Qed.
Lemma reserved_unread : ∀ k, k ∈ reserved → ∀ c, de_claim (ser_claim (CSet [(k, c)])) = None ∨
  ∃ c', de_claim (ser_claim (CSet [(k, c)])) = Some c' ∧ c' ≠ CSet [(k, c)].
Proof.
  intros k Hk c. destruct (de_claim (ser_claim (CSet [(k, c)]))) as [c'|] eqn:E; [|by left]. right. exists c'. split; [done|].
  intros ->. apply de_claim_readable in E. simpl in E. destruct E as (_ & _ & [[H _] _]). done.
Qed.
Lemma empty_set_entry : de_claim (ser_claim (CSet [])) = Some (CEntry None).
Proof. reflexivity. Qed.

(** ** Requests that say two things *)
Lemma identifier_wins m r id : lookups "credential_identifier" m = [JStr id] → de_credential_request (JObj m) = Some r →
  cr_credential r = CIIdentifier id.
Proof.
  intros H. unfold de_credential_request. cbn [obj]. destruct (dflt _ _ _ m); [|done]. destruct (dflt _ _ "access_token" m); [|done].
  assert (de_issuance m = Some (CIIdentifier id)) as ->; [|by intros [= <-]]. unfold de_issuance, req. by rewrite H.
Qed.
Lemma configuration_wins m d id : lookups "credential_configuration_id" m = [JStr id] → de_detail (JObj m) = Some d →
  ∃ o, ad_credential d = ByConfigurationId id o.
Proof.
  intros H. unfold de_detail. cbn [obj]. unfold de_detail_entries. destruct (req _ "type" m); [|done].
  destruct (opt _ "locations" m); [|done].
  assert (de_authorization m = Some (ByConfigurationId id (de_profile_claims m))) as ->; [|intros [= <-]; by eexists].
  unfold de_authorization, req. by rewrite H.
Qed.
Lemma sd_jwt_claims id l loc : readable_claims l →
  de_detail (ser_detail (AuthorizationDetail (ByConfigurationId id (Some (PCSdJwt l))) loc)) =
  Some (AuthorizationDetail (ByConfigurationId id (Some (PCIsoMdl l))) loc).
Proof. intros H. by apply (de_detail_ser (AuthorizationDetail (ByConfigurationId id (Some (PCIsoMdl l))) loc)). Qed.
