(** Proofs about the remaining messages of the issuer. *)
From Coq Require Import Lia DecimalString.
From Verif Require Import Base StringSpec Json MatcherModel JsonParse JsonText CoreModel VcModel Prog ExecSpec ProgFacts ExecFacts IssuerTypes IssuerModel IssuerSpec
  IssuerOffer IssuerExec VerifierModel HolderModel SerdeStore
  SerdeSpec SerdeModel SerdeFacts SerdeTrips SerdeText SerdeProps VcSpec VcSerde DifSpec DifSerde DifTrips DifFacts MetaSpec MetaSerde MetaTrips
  MetaFacts WireSpec WireFacts MessageSerde MessageSpec.
Local Arguments String.append : simpl never.

(** ** Notifications *)
Lemma de_notice_ser n : de_notice (ser_notice n) = Some n.
Proof.
  destruct n as [[i t x] e d]. unfold de_notice, ser_notice.
  cbn [obj nc_request nc_event nc_description nr_credential_issuer nr_access_token nr_notification_id].
  ds i. ds t. rq. cbn [de_str]. rq. ro JStr d. by destruct e.
Qed.
Lemma notice_text n : read de_notice (write ser_notice n) = Some n.
Proof. rw 3; [|apply de_notice_ser]. apply fine_obj. fns. Qed.
Lemma notice_values n : exactly
  [("credential_issuer", given (nr_credential_issuer (nc_request n))); ("access_token", given (nr_access_token (nc_request n)));
   ("notification_id", Some (JStr (nr_notification_id (nc_request n)))); ("event", Some (ser_event (nc_event n)));
   ("event_description", option_map JStr (nc_description n))] (ser_notice n).
Proof. exact_members. Qed.
Lemma text_some k m : is_Some (req de_str k m) ↔ ∃ s, values_of k m = [JStr s].
Proof.
  unfold req. rewrite values_lookups. destruct (lookups k m) as [|j [|]].
  - split; [by intros [? ?]|by intros [? ?]].
  - rewrite de_str_some. split; intros [s H]; exists s; [by rewrite H|by injection H].
  - split; [by intros [? ?]|by intros [? ?]].
Qed.
Lemma text_default k m : is_Some (dflt de_str "" k m) ↔ text_or_nothing k m.
Proof.
  unfold dflt, text_or_nothing. rewrite values_lookups. destruct (lookups k m) as [|j [|]].
  - split; [by left|by eexists].
  - rewrite de_str_some. split.
    + intros [s ->]. right. by exists s.
    + intros [?|[s [= ->]]]; [done|]. by exists s.
  - split; [by intros [? ?]|by intros [?|[? ?]]].
Qed.
Lemma event_some k m : is_Some (req de_event k m) ↔
  ∃ v, values_of k m = [v] ∧ name_value ["credential_accepted"; "credential_failure"; "credential_deleted"] v.
Proof.
  unfold req. rewrite values_lookups. destruct (lookups k m) as [|j [|]].
  - split; [by intros [? ?]|by intros (? & ? & _)].
  - unfold de_event. rewrite unit_variant_some. split; [intros H; by exists j|by intros (v & [= ->] & H)].
  - split; [by intros [? ?]|by intros (? & ? & _)].
Qed.
Lemma notice_iff j : is_Some (de_notice j) ↔ ∃ m, j = JObj m ∧ notice_members m.
Proof.
  destruct j as [| | | | |m]; try (split; [by intros [? ?]|by intros (? & ? & _)]).
  unfold de_notice, notice_members. cbn [obj]. split.
  - intros H. exists m. split; [done|].
    rewrite <-!text_default, <-text_some, <-event_some, <-(kind_text "event_description" m).
    destruct (dflt de_str "" "credential_issuer" m); [|by destruct H].
    destruct (dflt de_str "" "access_token" m); [|by destruct H]. destruct (req de_str "notification_id" m); [|by destruct H].
    destruct (req de_event "event" m); [|by destruct H]. destruct (opt de_str "event_description" m); [|by destruct H]. eauto.
  - intros (m' & [= <-] & H). rewrite <-!text_default, <-text_some, <-event_some, <-(kind_text "event_description" m) in H.
    destruct H as ([? ->] & [? ->] & [? ->] & [? ->] & [? ->]). by eexists.
Qed.

(** ** Registration *)
Lemma flattened_app ks m m' : flattened ks (m ++ m') = flattened ks m ++ flattened ks m'.
Proof. apply List.filter_app. Qed.
Lemma flattened_some ks {A} k (f : A → json) o : k ∉ ks → flattened ks (some_entry k f o) = some_entry k f o.
Proof. intros H. destruct o; [|done]. unfold flattened. simpl. by rewrite bool_decide_true. Qed.
Lemma flattened_gone ks {A} k (f : A → json) o : k ∈ ks → flattened ks (some_entry k f o) = [].
Proof. intros H. destruct o; [|done]. unfold flattened. simpl. rewrite bool_decide_false by tauto. done. Qed.
Lemma flattened_str ks k s : k ∈ ks → flattened ks (str_entry k s) = [].
Proof. intros H. unfold str_entry. case_bool_decide; [done|]. unfold flattened. simpl. rewrite bool_decide_false by tauto. done. Qed.
Lemma flattened_one ks k v : k ∉ ks → flattened ks [(k, v)] = [(k, v)].
Proof. intros H. unfold flattened. simpl. by rewrite bool_decide_true. Qed.
Ltac flat := repeat first [rewrite flattened_app | rewrite flattened_some by notin | rewrite flattened_gone by notin
  | rewrite flattened_str by notin | rewrite flattened_one by notin].
Lemma flattened_client c : mt_vp_formats (ic_oauth c) = None →
  flattened ["credential_offer_endpoint"; "vp_formats"] (ser_client_entries c) = entries (ser_client_metadata (no_endpoint (ic_oauth c))).
Proof.
  intros H. unfold ser_client_entries, ser_client_metadata. cbn [entries]. flat. unfold no_endpoint.
  cbn [mt_client_id mt_issued_at mt_secret_expires_at mt_redirect_uris mt_endpoint_auth mt_grant_types mt_response_types mt_pushed
    mt_secret mt_name mt_uri mt_logo mt_scope mt_contacts mt_tos mt_policy mt_jwks_uri mt_jwks mt_software_id mt_software_version
    mt_offer_endpoint mt_vp_formats]. rewrite H. cbn [some_entry]. by rewrite !app_nil_r.
Qed.
Lemma flattened_tokens c : flattened ["credential_issuer"; "access_token"] (ser_client_entries c) = ser_client_entries c.
Proof. unfold ser_client_entries, ser_client_metadata. cbn [entries]. by flat. Qed.
Lemma no_endpoint_fits c : dates_fit c → dates_fit (no_endpoint c).
Proof. done. Qed.
Lemma endpoints c : lookups "credential_offer_endpoint" (ser_client_entries c) =
  match mt_offer_endpoint (ic_oauth c) with Some e => [JStr e] | None => [] end ++
  match ic_offer_endpoint c with Some e => [JStr e] | None => [] end.
Proof.
  unfold ser_client_entries, ser_client_metadata. cbn [entries]. lk.
Qed.
Definition read_client (c : issuers_client) : option issuers_client :=
  match mt_offer_endpoint (ic_oauth c), ic_offer_endpoint c with
  | Some _, Some _ => None
  | Some e, None => Some (IssuersClient (no_endpoint (ic_oauth c)) (Some e))
  | None, _ => Some c
  end.
Lemma de_client_ser c : possible_client c → de_client_entries (ser_client_entries c) = read_client c.
Proof.
  intros [Hv Hd]. unfold de_client_entries. rewrite flattened_client by done.
  change (JObj (entries (ser_client_metadata (no_endpoint (ic_oauth c))))) with (ser_client_metadata (no_endpoint (ic_oauth c))).
  rewrite de_client_metadata_ser by done. unfold opt. rewrite endpoints. unfold read_client.
  destruct c as [o e]. cbn [ic_oauth ic_offer_endpoint] in *. destruct (mt_offer_endpoint o) as [e'|] eqn:E, e as [e|]; simpl; try done.
  - f_equal. f_equal. destruct o. simpl in E. by subst.
  - f_equal. f_equal. destruct o. simpl in E. by subst.
Qed.
Lemma de_registration_ser r : possible_client (rg_client r) → de_registration (ser_registration r) =
  (λ c, Registration (rg_credential_issuer r) (rg_access_token r) c) <$> read_client (rg_client r).
Proof.
  intros H. destruct r as [i t c]. unfold de_registration, ser_registration. cbn [obj rg_credential_issuer rg_access_token rg_client] in *.
  assert (∀ k, k ∈ ["credential_issuer"; "access_token"] → lookups k (ser_client_entries c) = []) as Hl.
  { intros k Hk. unfold ser_client_entries, ser_client_metadata. cbn [entries].
    apply elem_of_cons in Hk as [->|[->|[]%elem_of_nil]%elem_of_cons]; by lk. }
  rewrite (dflt_str "credential_issuer" _ i).
  2:{ rewrite !lookups_app, Hl by set_solver. by lk. }
  rewrite (dflt_str "access_token" _ t).
  2:{ rewrite !lookups_app, Hl by set_solver. by lk. }
  flat. rewrite flattened_tokens, !app_nil_l, de_client_ser by done. by destruct (read_client c).
Qed.
Lemma fine_client c : possible_client c → fines 3 (ser_client_entries c).
Proof.
  intros [Hv _]. unfold ser_client_entries, ser_client_metadata. cbn [entries]. rewrite Hv. cbn [some_entry]. fns; try apply fine_int.
  - apply fine_list. intros x _. apply fine_str.
  - apply fine_list. intros x _. apply fine_str.
Qed.
Lemma read_value {A B} (f : A → json) (d : json → option B) a n : fine n (f a) → n < depth_limit → read d (write f a) = d (f a).
Proof. intros [H1 H2] Hn. unfold read, write. rewrite parse_json_text; [done|done|]. lia. Qed.
Lemma registration_text r : possible_client (rg_client r) → read de_registration (write ser_registration r) =
  (λ c, Registration (rg_credential_issuer r) (rg_access_token r) c) <$> read_client (rg_client r).
Proof.
  intros H. rewrite <-de_registration_ser by done. apply (read_value _ _ _ 4); [|apply lt_limit; lia].
  apply fine_obj. unfold ser_registration. repeat (apply fines_app; [apply fines_entry|]). by apply fine_client.
Qed.
Lemma registered_text c : possible_client c → read de_registered (write ser_registered c) = read_client c.
Proof.
  intros H. rewrite <-de_client_ser by done. apply (read_value ser_registered de_registered c 4); [|apply lt_limit; lia].
  apply fine_obj. by apply fine_client.
Qed.
Lemma read_client_same c : read_client c = Some c ↔ mt_offer_endpoint (ic_oauth c) = None.
Proof.
  unfold read_client. destruct (mt_offer_endpoint (ic_oauth c)) as [e|] eqn:E; [|done]. split; [|done].
  destruct (ic_offer_endpoint c); [done|]. intros [= H]. rewrite <-H in E. done.
Qed.
Lemma registration_same r : possible_client (rg_client r) →
  read de_registration (write ser_registration r) = Some r ↔ mt_offer_endpoint (ic_oauth (rg_client r)) = None.
Proof.
  intros H. rewrite registration_text by done. rewrite <-read_client_same. destruct r as [i t c]. cbn [rg_client rg_credential_issuer rg_access_token].
  destruct (read_client c); simpl; split; congruence.
Qed.

(** ** Answers *)
Lemma offer_request_text r : read de_offer_request (write ser_offer_request r) = Some r.
Proof.
  rw 3; [apply fine_obj; fns|]. destruct r as [i d]. unfold de_offer_request, ser_offer_request. cbn [obj cof_credential_issuer cof_id].
  rq. cbn [de_str]. rq. done.
Qed.
Lemma lookup_text name r : name ≠ "credential_issuer" → read (de_lookup name) (write (ser_lookup name) r) = Some r.
Proof.
  intros Hn. rw 3; [apply fine_obj; fns|]. destruct r as [i x]. unfold de_lookup, ser_lookup. cbn [obj fst snd].
  rewrite (dflt_str _ _ i).
  2:{ rewrite lookups_app, lookups_str_eq, lookups_some_ne by done. by rewrite app_nil_r. }
  rewrite (opt_of _ JStr _ _ x); [done| |by intros].
  rewrite lookups_app, lookups_str_ne, lookups_some_eq by done. done.
Qed.
Lemma offer_answer_text o : readable_offer o → read de_offer_answer (write ser_offer_answer o) = Some o.
Proof.
  intros H. rw 5; [apply fine_obj; fns; apply (fine_offer 0)|]. unfold de_offer_answer, ser_offer_answer. cbn [obj]. rq. by apply de_offer_ser.
Qed.
Lemma offer_answer_other o : read de_offer (write ser_offer_answer o) = None.
Proof.
  rewrite (read_value ser_offer_answer de_offer o 5); [|apply fine_obj; fns; apply (fine_offer 0)|apply lt_limit; lia].
  unfold ser_offer_answer, de_offer. cbn [obj]. unfold dflt, req. by lk.
Qed.
Lemma server_answer_text s : read de_server_answer (write ser_server_answer s) = Some s.
Proof.
  rw 3; [apply fine_obj, fines_cons; [apply fine_server_metadata|by constructor]|].
  unfold de_server_answer, ser_server_answer. cbn [obj]. rq. apply de_server_metadata_ser.
Qed.
Lemma server_answer_other s : read de_server_metadata (write ser_server_answer s) = None.
Proof.
  rewrite (read_value ser_server_answer de_server_metadata s 3); [|apply fine_obj, fines_cons; [apply fine_server_metadata|by constructor]|apply lt_limit; lia].
  apply (server_needs _ "issuer"); [left|]. cbn [keys map fst]. notin.
Qed.
Lemma offers_readable (c : iconfig) i r o : ireach c → answered c i (QCredentialOffer r) (Ok (RCredentialOffer o)) → readable_offer o.
Proof.
  intros Hr Ha. destruct (credential_offer_source c i r o Hr Ha) as (j & r' & p & t & _ & _ & (b & Hput) & _).
  apply calls_of_elem_pos in Hput as (n & en & Hn & _ & He).
  assert (stage_over (λ _, True) (λ _, True) (s_stage (State (co_subject_id r') (Pending o) (t + minutes 5)%Z))) as H; [|exact H].
  refine (saved_over _ _ (λ _, I) c Hr _ n en _ _ _ _ Hn He). intros i' q p' _. destruct q as [|?|[?|?]| | | | | | | |]; try done.
Qed.
