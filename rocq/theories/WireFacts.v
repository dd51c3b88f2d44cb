(** The members of the messages as they are written. *)
From Verif Require Import Base Json JsonParse CoreModel VcModel Prog IssuerTypes SerdeSpec SerdeModel SerdeFacts WireSpec.

Lemma keys_app' {A} (a b : list (string * A)) : keys (a ++ b) = keys a ++ keys b.
Proof. unfold keys. by rewrite map_app. Qed.
Lemma sub_some {A} k (f : A → json) o : sublist (keys (some_entry k f o)) [k].
Proof. destruct o; simpl; [done|apply sublist_nil_l]. Qed.
Lemma sub_str k s : sublist (keys (str_entry k s)) [k].
Proof. unfold str_entry. case_bool_decide; simpl; [apply sublist_nil_l|done]. Qed.
Lemma sub_app (a b : list (string * json)) k l : sublist (keys a) [k] → sublist (keys b) l → sublist (keys (a ++ b)) (k :: l).
Proof. intros H1 H2. rewrite keys_app'. by apply (sublist_app _ [k]). Qed.
Lemma sub_cons k v (b : list (string * json)) l : sublist (keys b) l → sublist (keys ((k, v) :: b)) (k :: l).
Proof. intros H. simpl. by apply sublist_skip. Qed.
Lemma sublist_nodup {A} (l k : list A) : sublist l k → NoDup k → NoDup l.
Proof.
  induction 1 as [|x l k H IH|x l k H IH]; intros Hn; [done| |].
  - apply NoDup_cons in Hn as [Hx Hn]. apply NoDup_cons. split; [|by apply IH]. intros Hl. apply Hx.
    eapply elem_of_submseteq; [done|by apply sublist_submseteq].
  - apply NoDup_cons in Hn as [_ Hn]. by apply IH.
Qed.
Lemma members_intro req opt names m :
  sublist (keys m) names → bool_decide (NoDup names) = true →
  bool_decide (Forall (λ k, k ∈ req ∨ k ∈ opt) names) = true →
  Forall (λ k, k ∈ keys m) req → has_members req opt (JObj m).
Proof.
  intros Hs Hn%bool_decide_eq_true Ha%bool_decide_eq_true Hr. exists m. split; [done|]. split; [by eapply sublist_nodup|]. split.
  - intros k Hk. by apply (proj1 (Forall_forall _ _) Hr).
  - intros k Hk. apply (proj1 (Forall_forall _ _) Ha). eapply elem_of_submseteq; [done|by apply sublist_submseteq].
Qed.
Ltac sub := repeat first
  [ apply sub_cons | apply sub_app; [apply sub_some || apply sub_str|] | apply sublist_nil_l | apply sub_some | apply sub_str ].
Lemma in_here k v (m : list (string * json)) : k ∈ keys ((k, v) :: m).
Proof. by left. Qed.
Lemma in_cons k k' v (m : list (string * json)) : k ∈ keys m → k ∈ keys ((k', v) :: m).
Proof. by right. Qed.
Lemma in_right k (a b : list (string * json)) : k ∈ keys b → k ∈ keys (a ++ b).
Proof. rewrite keys_app', elem_of_app. by right. Qed.
Ltac inkey := cbn [app]; repeat first [apply in_here | apply in_cons | apply in_right].
Ltac mem names := apply (members_intro _ _ names);
  [cbn [app]; sub|reflexivity|reflexivity|repeat (apply Forall_cons; split; [inkey|]); apply Forall_nil_2].

Lemma create_offer_members r : has_members ["credential_configuration_ids"; "tx_code_required"; "send_type"]
  ["credential_issuer"; "subject_id"; "grant_types"] (ser_create_offer r).
Proof. mem ["credential_issuer"; "subject_id"; "credential_configuration_ids"; "grant_types"; "tx_code_required"; "send_type"]. Qed.
Lemma tx_code_members t : has_members [] ["input_mode"; "length"; "description"] (ser_tx_code t).
Proof. mem ["input_mode"; "length"; "description"]. Qed.
Lemma pre_grant_members g : has_members ["pre-authorized_code"] ["tx_code"; "authorization_server"] (ser_pre_grant g).
Proof. mem ["pre-authorized_code"; "tx_code"; "authorization_server"]. Qed.
Lemma code_grant_members g : has_members [] ["issuer_state"; "authorization_server"] (ser_code_grant g).
Proof. mem ["issuer_state"; "authorization_server"]. Qed.
Lemma grants_members g : has_members [] ["authorization_code"; "urn:ietf:params:oauth:grant-type:pre-authorized_code"] (ser_grants g).
Proof. mem ["authorization_code"; "urn:ietf:params:oauth:grant-type:pre-authorized_code"]. Qed.
Lemma offer_members o : of_credential_issuer o ≠ "" →
  has_members ["credential_issuer"; "credential_configuration_ids"] ["grants"] (ser_offer o).
Proof.
  intros H. unfold ser_offer, str_entry. rewrite bool_decide_false by done.
  mem ["credential_issuer"; "credential_configuration_ids"; "grants"].
Qed.
Lemma offer_response_members r :
  match cor_offer r with
  | OfferObject _ => has_members ["credential_offer"] ["tx_code"] (ser_create_offer_response r)
  | OfferUri _ => has_members ["credential_offer_uri"] ["tx_code"] (ser_create_offer_response r)
  end.
Proof.
  destruct r as [[o|u] t]; unfold ser_create_offer_response; cbn [cor_offer cor_tx_code].
  - mem ["credential_offer"; "tx_code"].
  - mem ["credential_offer_uri"; "tx_code"].
Qed.
Lemma request_members r : has_members ["response_type"; "client_id"; "code_challenge"; "code_challenge_method"; "subject_id"]
  ["credential_issuer"; "redirect_uri"; "state"; "authorization_details"; "scope"; "issuer_state"] (ser_request r).
Proof.
  unfold ser_request, ser_request_entries.
  mem ["credential_issuer"; "response_type"; "client_id"; "redirect_uri"; "state"; "code_challenge"; "code_challenge_method";
       "authorization_details"; "scope"; "subject_id"; "issuer_state"].
Qed.
Lemma detail_members d :
  has_members ("type" :: (authorization_members (ad_credential d)).1) ("locations" :: (authorization_members (ad_credential d)).2)
    (ser_detail d).
Proof.
  destruct d as [c l]. unfold ser_detail, ser_detail_entries. cbn [ad_credential ad_locations].
  destruct c as [id [[]|]|[]]; cbn [authorization_members fst snd ser_authorization ser_profile_claims ser_format app].
  - mem ["type"; "credential_configuration_id"; "credential_definition"; "locations"].
  - mem ["type"; "credential_configuration_id"; "claims"; "locations"].
  - mem ["type"; "credential_configuration_id"; "claims"; "locations"].
  - mem ["type"; "credential_configuration_id"; "locations"].
  - mem ["type"; "format"; "credential_definition"; "locations"].
  - mem ["type"; "format"; "credential_definition"; "locations"].
  - mem ["type"; "format"; "credential_definition"; "locations"].
  - mem ["type"; "format"; "doctype"; "claims"; "locations"].
  - mem ["type"; "format"; "vct"; "claims"; "locations"].
Qed.
Lemma authorized_detail_members d :
  has_members ("type" :: "credential_identifiers" :: (authorization_members (ad_credential (atd_detail d))).1)
    ("locations" :: (authorization_members (ad_credential (atd_detail d))).2) (ser_authorized_detail d).
Proof.
  destruct d as [[c l] ids]. unfold ser_authorized_detail, ser_detail_entries. cbn [atd_detail atd_identifiers ad_credential ad_locations].
  destruct c as [id [[]|]|[]]; cbn [authorization_members fst snd ser_authorization ser_profile_claims ser_format app]; rewrite <-?app_assoc.
  - mem ["type"; "credential_configuration_id"; "credential_definition"; "locations"; "credential_identifiers"].
  - mem ["type"; "credential_configuration_id"; "claims"; "locations"; "credential_identifiers"].
  - mem ["type"; "credential_configuration_id"; "claims"; "locations"; "credential_identifiers"].
  - mem ["type"; "credential_configuration_id"; "locations"; "credential_identifiers"].
  - mem ["type"; "format"; "credential_definition"; "locations"; "credential_identifiers"].
  - mem ["type"; "format"; "credential_definition"; "locations"; "credential_identifiers"].
  - mem ["type"; "format"; "credential_definition"; "locations"; "credential_identifiers"].
  - mem ["type"; "format"; "doctype"; "claims"; "locations"; "credential_identifiers"].
  - mem ["type"; "format"; "vct"; "claims"; "locations"; "credential_identifiers"].
Qed.
Lemma authorization_response_members r : has_members ["code"; "redirect_uri"] ["state"] (ser_authorization_response r).
Proof. mem ["code"; "state"; "redirect_uri"]. Qed.
Lemma par_response_members r : has_members ["request_uri"; "expires_in"] [] (ser_par_response r).
Proof. mem ["request_uri"; "expires_in"]. Qed.
Lemma token_request_members r :
  match tr_grant r with
  | TGAuthorizationCode _ _ _ =>
      has_members ["client_id"; "grant_type"; "code"] ["credential_issuer"; "redirect_uri"; "code_verifier"; "authorization_details"]
        (ser_token_request r)
  | TGPreAuthorizedCode _ _ =>
      has_members ["client_id"; "grant_type"; "pre-authorized_code"] ["credential_issuer"; "tx_code"; "authorization_details"]
        (ser_token_request r)
  end.
Proof.
  destruct r as [i c [code u v|code tx] d]; unfold ser_token_request; cbn [tr_credential_issuer tr_client_id tr_grant tr_authorization_details ser_token_grant];
    rewrite <-?app_assoc.
  - mem ["credential_issuer"; "client_id"; "grant_type"; "code"; "redirect_uri"; "code_verifier"; "authorization_details"].
  - mem ["credential_issuer"; "client_id"; "grant_type"; "pre-authorized_code"; "tx_code"; "authorization_details"].
Qed.
Lemma token_response_members r : has_members ["access_token"; "token_type"; "expires_in"]
  ["c_nonce"; "c_nonce_expires_in"; "authorization_details"] (ser_token_response r).
Proof. mem ["access_token"; "token_type"; "expires_in"; "c_nonce"; "c_nonce_expires_in"; "authorization_details"]. Qed.
Lemma credential_request_members r :
  has_members ((issuance_members (cr_credential r)).1 ++ proof_members (cr_proof r))
    (["credential_issuer"; "access_token"] ++ (issuance_members (cr_credential r)).2) (ser_credential_request r).
Proof.
  destruct r as [i a c p]. unfold ser_credential_request. cbn [cr_credential_issuer cr_access_token cr_credential cr_proof].
  destruct c as [id|[]], p as [[]|]; cbn [issuance_members proof_members fst snd ser_issuance ser_format ser_proof app];
    rewrite <-?app_assoc, ?app_nil_r; cbn [app w3c_members mdl_members sd_jwt_members];
    cbn [app].
  all: try solve [lazymatch goal with |- has_members ?r _ _ => mem ("credential_issuer" :: "access_token" :: r) end].
  all: try solve [lazymatch goal with |- has_members (?a :: ?b :: ?r) _ _ =>
    mem ("credential_issuer" :: "access_token" :: a :: b :: "claims" :: r) end].
  - mem ["credential_issuer"; "access_token"; "format"; "doctype"; "claims"].
  - mem ["credential_issuer"; "access_token"; "format"; "vct"; "claims"].
Qed.
Lemma deferred_request_members r : has_members ["transaction_id"] ["credential_issuer"; "access_token"] (ser_deferred_request r).
Proof. mem ["credential_issuer"; "access_token"; "transaction_id"]. Qed.

(** crates/openid/src/issuer.rs 789-799, [Display for Format]. *)
Definition format_display (f : format) : string :=
  match f with
  | FJwtVcJson _ => "jwt_vc_json"
  | FLdpVc _ => "ldp_vc"
  | FJwtVcJsonLd _ => "jwt_vc_json-ld"
  | FIsoMdl _ _ => "mso_mdoc"
  | FVcSdJwt _ _ => "vc+sd-jwt"
  end.
Lemma format_named f : (∀ d, f ≠ FLdpVc d) → lookups "format" (ser_format f) = [JStr (format_display f)].
Proof.
  intros H. destruct f as [d|d|d|t [c|]|t [c|]]; try reflexivity. by destruct (H d).
Qed.
Lemma ldp_misnamed d : lookups "format" (ser_format (FLdpVc d)) = [JStr "ldp-vc"] ∧ format_display (FLdpVc d) = "ldp_vc" ∧
  de_format [("format", JStr "ldp_vc"); ("credential_definition", ser_definition d)] = None.
Proof. split; [reflexivity|]. split; [reflexivity|]. unfold de_format, req. simpl lookups. reflexivity. Qed.
Lemma format_read f j : de_format [("format", JStr f); ("credential_definition", j)] ≠ None → f ∈ ["jwt_vc_json"; "ldp-vc"; "jwt_vc_json-ld"].
Proof.
  unfold de_format, req. simpl lookups. cbn [de_str].
  repeat (case_bool_decide; [subst; intros _; set_solver|]). case_bool_decide; [done|]. case_bool_decide; done.
Qed.

(** ** Members with their values *)
Definition present (l : list (string * option json)) : list (string * json) :=
  omap (λ ko, match ko.2 with Some v => Some (ko.1, v) | None => None end) l.
Lemma present_elem l k v : (k, v) ∈ present l ↔ (k, Some v) ∈ l.
Proof.
  unfold present. rewrite elem_of_list_omap. split.
  - intros ([k' [v'|]] & Hin & H); [|done]. by injection H as -> ->.
  - intros H. by exists (k, Some v).
Qed.
Lemma present_keys l : sublist (keys (present l)) (keys l).
Proof.
  induction l as [|[k [v|]] l IH]; simpl; [done| |]; [by apply sublist_skip|by apply sublist_cons].
Qed.
Lemma exactly_intro l m : m = present l → bool_decide (NoDup (keys l)) = true → exactly l (JObj m).
Proof.
  intros -> Hn%bool_decide_eq_true. exists (present l). split; [done|]. split; [|intros; apply present_elem].
  exact (sublist_nodup _ _ (present_keys l) Hn).
Qed.
Lemma present_cons k v m l : m = present l → (k, v) :: m = present ((k, Some v) :: l).
Proof. by intros ->. Qed.
Lemma present_some {A} k (f : A → json) o m l : m = present l → some_entry k f o ++ m = present ((k, option_map f o) :: l).
Proof. intros ->. by destruct o. Qed.
Lemma present_last {A} k (f : A → json) o : some_entry k f o = present [(k, option_map f o)].
Proof. by destruct o. Qed.
Lemma present_given k s m l : m = present l → str_entry k s ++ m = present ((k, given s) :: l).
Proof. intros ->. unfold str_entry, given. by case_bool_decide. Qed.
Ltac exact_members := apply exactly_intro; [cbn [app]; repeat first
  [ apply present_cons | apply present_some | apply present_given | apply present_last | reflexivity ] | reflexivity ].

Lemma create_offer_values r : exactly
  [("credential_issuer", given (co_credential_issuer r)); ("subject_id", option_map JStr (co_subject_id r));
   ("credential_configuration_ids", Some (ser_strs (co_configuration_ids r)));
   ("grant_types", option_map (ser_list ser_grant_type) (co_grant_types r));
   ("tx_code_required", Some (JBool (co_tx_code_required r))); ("send_type", Some (ser_send_type (co_send_type r)))]
  (ser_create_offer r).
Proof. exact_members. Qed.
Lemma offer_values o : exactly
  [("credential_issuer", given (of_credential_issuer o));
   ("credential_configuration_ids", Some (ser_strs (of_configuration_ids o))); ("grants", option_map ser_grants (of_grants o))]
  (ser_offer o).
Proof. exact_members. Qed.
Lemma grants_values g : exactly
  [("authorization_code", option_map ser_code_grant (gr_authorization_code g));
   ("urn:ietf:params:oauth:grant-type:pre-authorized_code", option_map ser_pre_grant (gr_pre_authorized_code g))] (ser_grants g).
Proof. exact_members. Qed.
Lemma pre_grant_values g : exactly
  [("pre-authorized_code", Some (JStr (pg_code g))); ("tx_code", option_map ser_tx_code (pg_tx_code g));
   ("authorization_server", option_map JStr (pg_authorization_server g))] (ser_pre_grant g).
Proof. exact_members. Qed.
Lemma code_grant_values g : exactly
  [("issuer_state", option_map JStr (ag_issuer_state g)); ("authorization_server", option_map JStr (ag_authorization_server g))]
  (ser_code_grant g).
Proof. exact_members. Qed.
Lemma tx_code_values t : exactly
  [("input_mode", option_map JStr (tc_input_mode t)); ("length", option_map ser_int (tc_length t));
   ("description", option_map JStr (tc_description t))] (ser_tx_code t).
Proof. exact_members. Qed.
Lemma offer_response_values r : exactly
  [("credential_offer", match cor_offer r with OfferObject o => Some (ser_offer o) | OfferUri _ => None end);
   ("credential_offer_uri", match cor_offer r with OfferObject _ => None | OfferUri u => Some (JStr u) end);
   ("tx_code", option_map JStr (cor_tx_code r))] (ser_create_offer_response r).
Proof. unfold ser_create_offer_response. destruct (cor_offer r), (cor_tx_code r); by apply exactly_intro. Qed.
Lemma request_values r : exactly
  [("credential_issuer", given (ro_credential_issuer r)); ("response_type", Some (ser_response_type (ro_response_type r)));
   ("client_id", Some (JStr (ro_client_id r))); ("redirect_uri", option_map JStr (ro_redirect_uri r));
   ("state", option_map JStr (ro_state r)); ("code_challenge", Some (JStr (ro_code_challenge r)));
   ("code_challenge_method", Some (ser_method (ro_code_challenge_method r)));
   ("authorization_details", option_map (ser_list ser_detail) (ro_authorization_details r));
   ("scope", option_map JStr (ro_scope r)); ("subject_id", Some (JStr (ro_subject_id r)));
   ("issuer_state", option_map JStr (ro_issuer_state r))] (ser_request r).
Proof. exact_members. Qed.
Lemma authorization_response_values r : exactly
  [("code", Some (JStr (ar_code r))); ("state", option_map JStr (ar_state r)); ("redirect_uri", Some (JStr (ar_redirect_uri r)))]
  (ser_authorization_response r).
Proof. exact_members. Qed.
Lemma par_response_values r : exactly
  [("request_uri", Some (JStr (pr_request_uri r))); ("expires_in", Some (ser_int (pr_expires_in r)))] (ser_par_response r).
Proof. exact_members. Qed.
Lemma token_request_values r : exactly
  ([("credential_issuer", given (tr_credential_issuer r)); ("client_id", Some (null_or JStr (tr_client_id r)))] ++
   match tr_grant r with
   | TGAuthorizationCode code uri verifier =>
       [("grant_type", Some (JStr "authorization_code")); ("code", Some (JStr code)); ("redirect_uri", option_map JStr uri);
        ("code_verifier", option_map JStr verifier)]
   | TGPreAuthorizedCode code pin =>
       [("grant_type", Some (JStr "urn:ietf:params:oauth:grant-type:pre-authorized_code"));
        ("pre-authorized_code", Some (JStr code)); ("tx_code", option_map JStr pin)]
   end ++ [("authorization_details", option_map (ser_list ser_detail) (tr_authorization_details r))]) (ser_token_request r).
Proof.
  unfold ser_token_request. destruct (tr_grant r); cbn [ser_token_grant]; rewrite <-?app_assoc; exact_members.
Qed.
Lemma token_response_values r : exactly
  [("access_token", Some (JStr (trs_access_token r))); ("token_type", Some (JStr "Bearer"));
   ("expires_in", Some (ser_int (trs_expires_in r))); ("c_nonce", option_map JStr (trs_c_nonce r));
   ("c_nonce_expires_in", option_map ser_int (trs_c_nonce_expires_in r));
   ("authorization_details", option_map (ser_list ser_authorized_detail) (trs_authorization_details r))] (ser_token_response r).
Proof. exact_members. Qed.
Lemma format_values f : exactly
  match f with
  | FJwtVcJson d => [("format", Some (JStr "jwt_vc_json")); ("credential_definition", Some (ser_definition d))]
  | FLdpVc d => [("format", Some (JStr "ldp-vc")); ("credential_definition", Some (ser_definition d))]
  | FJwtVcJsonLd d => [("format", Some (JStr "jwt_vc_json-ld")); ("credential_definition", Some (ser_definition d))]
  | FIsoMdl t c => [("format", Some (JStr "mso_mdoc")); ("doctype", Some (JStr t)); ("claims", option_map ser_claimset c)]
  | FVcSdJwt t c => [("format", Some (JStr "vc+sd-jwt")); ("vct", Some (JStr t)); ("claims", option_map ser_claimset c)]
  end (JObj (ser_format f)).
Proof. destruct f; cbn [ser_format]; exact_members. Qed.
Lemma definition_values d : exactly
  [("@context", option_map ser_strs (cd_context d)); ("type", option_map ser_strs (cd_type d));
   ("credentialSubject", option_map ser_claimset (cd_subject d))] (ser_definition d).
Proof. exact_members. Qed.
Lemma credential_request_values r : exactly
  ([("credential_issuer", given (cr_credential_issuer r)); ("access_token", given (cr_access_token r))] ++
   match cr_credential r with
   | CIIdentifier id => [("credential_identifier", Some (JStr id))]
   | CIFormat f => map (λ kv, (kv.1, Some kv.2)) (ser_format f)
   end ++
   match cr_proof r with
   | Some (PSingle jwt) => [("proof", Some (JObj [("proof_type", JStr "jwt"); ("jwt", JStr jwt)]))]
   | Some (PMultiple jwts) => [("proofs", Some (JObj [("jwt", ser_strs jwts)]))]
   | None => []
   end) (ser_credential_request r).
Proof.
  unfold ser_credential_request, given, str_entry.
  destruct (cr_credential r) as [id|f]; [|destruct f as [d|d|d|t [c|]|t [c|]]];
    destruct (cr_proof r) as [[jwt|jwts]|]; do 2 case_bool_decide; by apply exactly_intro.
Qed.
Lemma deferred_request_values r : exactly
  [("credential_issuer", given (dr_credential_issuer r)); ("access_token", given (dr_access_token r));
   ("transaction_id", Some (JStr (dr_transaction_id r)))] (ser_deferred_request r).
Proof. exact_members. Qed.
