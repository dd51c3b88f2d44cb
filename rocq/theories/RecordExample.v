(** Concrete records of the wallet. *)
From Coq Require Import Lia.
From Verif Require Import Base StringSpec Json MatcherModel JsonParse JsonText CoreModel VcModel Prog ExecSpec ExecFacts Sched Sha256 IssuerTypes
  SerdeSpec SerdeModel SerdeFacts SerdeTrips SerdeText VcSpec VcSerde VcTrips VerifierModel DifSerde DifSpec DifTrips MetaSerde MetaSpec MetaFacts
  HolderModel HolderSpec HolderExample RecordSerde RecordSpec RecordTrips RecordExec.
From Verif Require IssuerExample SerdeExample.

(** Metadata with nothing in them but what the endpoints use. *)
Definition full_display (d : credential_display) : display_metadata :=
  DisplayMetadata (dsp_name d) (dsp_locale d) None (dsp_description d) None None None.
Definition full_configuration (c : credential_configuration) : configuration_metadata :=
  ConfigurationMetadata (cc_format c) (cc_scope c) None None (option_map (map (λ k, (k, ["EdDSA"]))) (cc_proof_types c))
    (option_map (map full_display) (cc_display c)).
Definition full_issuer (i : issuer) : issuer_metadata :=
  IssuerMetadata (is_credential_issuer i) (is_authorization_servers i) "http://issuer/credential" (Some "http://issuer/deferred") None None
    (Some 10%Z) None (Some (IssuerDisplay "An issuer" (Some "en"))) (map (λ kc, (kc.1, full_configuration kc.2)) (is_configurations i)).
Definition full_server (s : server) : server_metadata :=
  ServerMetadata "http://issuer" "http://issuer/auth" "http://issuer/token" None None (sv_scopes_supported s) (sv_response_types_supported s)
    None (sv_grant_types_supported s) None None None None None None None None None None None None (sv_code_challenge_methods_supported s)
    None None (sv_require_par s) (sv_anonymous_access s).
Definition full_credential (c : wcredential) : kept_credential :=
  KeptCredential (wc_id c) (wc_issuer c) (wc_vc c) (wc_issued c) (wc_issuance_date c * nanos) (option_map (map full_display) (wc_display c))
    (option_map (λ l, EncodedLogo l "image/png") (wc_logo c)).
Definition full_issuance (i : issuance) : issuance_record :=
  IssuanceRecord (hi_id i) (hi_client_id i) (hi_subject_id i) (hi_status i) (hi_offer i) (full_issuer (hi_issuer i)) (full_server (hi_server i))
    (hi_accepted i) (hi_pin i) (hi_code_verifier i) (hi_code_challenge i) (hi_token i) (hi_scope i) (hi_deferred i)
    (hi_notification_id i) (map full_credential (hi_credentials i)).
Definition full_presentation (p : presentation) : presentation_record :=
  PresentationRecord (hp_id p) (hp_status p) (hp_request p) (map full_credential (hp_credentials p)) (hp_filter p)
    (PresentationSubmission "" "" []).

(** A credential is accepted in part, and received. *)
Definition ex_accept : option (list auth_spec) := Some [AuthSpec "EmployeeID_JWT" (Some [("email", CEntry None); ("family_name", CEntry None)])].
Definition kept : hconfig :=
  hafter hw0 (hserially [HOffer "client" "sub" (ex_offer true ["EmployeeID_JWT"; "Developer_JWT"]); HAccept "id0" ex_accept;
    HPin "id0" "123456"; HToken "id0"; HCredentials (CredentialsRequest "id0" (Some ["EmployeeID_JWT_1"]) None)]).
Definition kept_events : list hevent := Eval vm_compute in map e_ev (c_log kept).
Definition kept_issuance : issuance := Eval vm_compute in
  match last kept_events with Some (EPut _ (HSIssuance i) _ _) => i | _ => issuance_new "" "" "" end.
(** Claims of an SD-JWT credential are accepted. *)
Definition sd_accept : option (list auth_spec) := Some [AuthSpec "Badge_SD" (Some [("email", CEntry None)])].
Definition sd_offer : credential_offer :=
  CredentialOffer "http://issuer" ["Badge_SD"] (Some (Grants (Some (AuthorizationCodeGrant (Some "state") None)) None)).
Definition sd_kept : hconfig :=
  hafter (HWorld (Issuer "http://issuer" None [("Badge_SD", CredentialConfiguration (FVcSdJwt "badge" (Some [("email", CEntry (Some true))])) None None None)])
            IssuerExample.ex_server (λ _ _, None) [] (ex_vprequest []) (λ _ _, None))
    (hserially [HOffer "client" "sub" sd_offer; HAccept "id0" sd_accept]).
Definition sd_events : list hevent := Eval vm_compute in map e_ev (c_log sd_kept).
Definition sd_issuance : issuance := Eval vm_compute in
  match last sd_events with Some (EPut _ (HSIssuance i) _ _) => i | _ => issuance_new "" "" "" end.
(** A presentation is asked for and agreed to. *)
Definition shown_metadata : client_metadata :=
  ClientMetadata "http://verifier" (Some 1700000000%Z) None (Some ["http://verifier/callback"]) (Some AuthPrivateKeyJwt)
    (Some [AuthorizationCode; PreAuthorizedCode]) (Some [RTVpToken; RTIdToken]) (Some true) None (Some "A verifier") None None None None None None
    (Some "http://verifier/jwks") None None None None (Some (Some (ClaimFormat (Some ["EdDSA"; "ES256"]) None))).
Definition shown_request : vp_request :=
  VpRequest VpToken "http://verifier" None (Some "direct_post") (Some "http://verifier/post") None "nonce3"
    (Some "uri1") (KObject (PresentationDefinition "def0" ex_consts None None None)) None (ser_client_metadata shown_metadata).
Definition shown : hconfig :=
  hafter (HWorld IssuerExample.ex_issuer IssuerExample.ex_server (λ _ _, None) [ex_wcredential "vc"] shown_request (λ _ _, None))
    (hserially [HRequest "request_uri"; HConsent "id1"]).
Definition shown_events : list hevent := Eval vm_compute in map e_ev (c_log shown).
Definition shown_presentation : option presentation := Eval vm_compute in
  match last shown_events with Some (EPut _ (HSPresentation p) _ _) => Some p | _ => None end.

(** ** They are executions with readable values *)
Lemma events_made (c : hconfig) m i e : made c m i e → e ∈ map e_ev (c_log c).
Proof. intros [eff H]. apply elem_of_list_fmap. exists (Entry i e eff). split; [done|]. by eapply elem_of_list_lookup_2. Qed.
Lemma asked_requests (c : hconfig) i q : asked c i q → q ∈ map fst (c_pool c).
Proof. intros [p H]. apply elem_of_list_fmap. exists (q, p). split; [done|]. by eapply elem_of_list_lookup_2. Qed.
Lemma last_made (c : hconfig) i e eff : last (c_log c) = Some (Entry i e eff) → made c (pred (length (c_log c))) i e.
Proof. intros H. exists eff. rewrite <-last_lookup. exact H. Qed.
Lemma shallow_values n l : Forall (λ j, jnumbers j ∧ jdepth j ≤ n) l → shallow n l.
Proof. intros H j Hj. exact (proj1 (Forall_forall _ _) H j Hj). Qed.
Lemma supplied_by n (c : hconfig) qs es : map fst (c_pool c) = qs → map e_ev (c_log c) = es →
  Forall (readable_hrequest n) qs → Forall (readable_answer n) es → wallet_supplied n c.
Proof.
  intros <- <- Hq He. split.
  - intros i q H%asked_requests. exact (proj1 (Forall_forall _ _) Hq q H).
  - intros m i e H%events_made. exact (proj1 (Forall_forall _ _) He e H).
Qed.
Lemma ex_vc_fine : readable_vc (VerifierExample.ex_vc "did:holder" None) ∧ shallow 8 (vc_values (VerifierExample.ex_vc "did:holder" None)).
Proof.
  split.
  - apply (de_vc_readable SerdeExample.ex_cx (ser_vc SerdeExample.ex_cx (VerifierExample.ex_vc "did:holder" None))). vm_compute. reflexivity.
  - apply shallow_values. cbn. apply Forall_cons. split; [split; [exact I|cbn; lia]|constructor].
Qed.

Lemma kept_reach : hreach kept.
Proof. apply hafter_reach. Qed.
Lemma kept_saved : made kept (pred (length (c_log kept))) 4 (HPut "id0" (HSIssuance kept_issuance) max_utc true).
Proof. apply (last_made _ _ _ true). vm_compute. reflexivity. Qed.
Lemma kept_supplied : wallet_supplied 8 kept.
Proof.
  apply (supplied_by 8 kept [HOffer "client" "sub" (ex_offer true ["EmployeeID_JWT"; "Developer_JWT"]); HAccept "id0" ex_accept;
      HPin "id0" "123456"; HToken "id0"; HCredentials (CredentialsRequest "id0" (Some ["EmployeeID_JWT_1"]) None)] kept_events);
    [vm_compute; reflexivity|vm_compute; reflexivity| |].
  - repeat (apply Forall_cons; split); try exact I; [| |constructor].
    + apply (de_offer_readable (ser_offer (ex_offer true ["EmployeeID_JWT"; "Developer_JWT"]))). vm_compute. reflexivity.
    + intros l s [= <-] ->%elem_of_list_singleton cl [= <-]. split; [|vm_compute; lia].
      split; [apply (bool_decide_unpack _); vm_compute; exact I|]. intros k c Hc. revert Hc.
      rewrite !elem_of_cons, elem_of_nil. intros [[= -> ->]|[[= -> ->]|[]]]; done.
  - unfold kept_events. repeat (apply Forall_cons; split); try exact I; [..|constructor]; cbn [readable_answer].
    + split; [|intros cl Hcl; by apply elem_of_nil in Hcl].
      match goal with |- readable_token ?t => apply (de_token_response_readable (ser_token_response t)) end. vm_compute. reflexivity.
    + intros z [= <-]. vm_compute. split; congruence.
    + exact ex_vc_fine.
Qed.
Lemma kept_readable : readable_issuer (full_issuer (hi_issuer kept_issuance)) ∧
  claims_within 8 (issuer_claims (full_issuer (hi_issuer kept_issuance))).
Proof.
  split.
  - apply (de_issuer_metadata_readable (ser_issuer_metadata (full_issuer (hi_issuer kept_issuance)))). vm_compute. reflexivity.
  - intros cl Hcl. revert cl Hcl. apply Forall_forall. vm_compute. repeat constructor.
Qed.

Lemma sd_reach : hreach sd_kept.
Proof. apply hafter_reach. Qed.
Lemma sd_saved : made sd_kept (pred (length (c_log sd_kept))) 1 (HPut "id0" (HSIssuance sd_issuance) max_utc true).
Proof. apply (last_made _ _ _ true). vm_compute. reflexivity. Qed.
Lemma sd_supplied : wallet_supplied 8 sd_kept.
Proof.
  apply (supplied_by 8 sd_kept [HOffer "client" "sub" sd_offer; HAccept "id0" sd_accept] sd_events);
    [vm_compute; reflexivity|vm_compute; reflexivity| |].
  - repeat (apply Forall_cons; split); try exact I; [| |constructor].
    + apply (de_offer_readable (ser_offer sd_offer)). vm_compute. reflexivity.
    + intros l s [= <-] ->%elem_of_list_singleton cl [= <-]. split; [|vm_compute; lia].
      split; [apply (bool_decide_unpack _); vm_compute; exact I|]. intros k c Hc%elem_of_list_singleton. by simplify_eq.
  - unfold sd_events. repeat (apply Forall_cons; split); try exact I; constructor.
Qed.
Lemma sd_readable : readable_issuer (full_issuer (hi_issuer sd_issuance)) ∧ claims_within 8 (issuer_claims (full_issuer (hi_issuer sd_issuance))).
Proof.
  split.
  - apply (de_issuer_metadata_readable (ser_issuer_metadata (full_issuer (hi_issuer sd_issuance)))). vm_compute. reflexivity.
  - intros cl Hcl. revert cl Hcl. apply Forall_forall. vm_compute. repeat constructor.
Qed.

Lemma shown_reach : hreach shown.
Proof. apply hafter_reach. Qed.
Lemma shown_saved p : shown_presentation = Some p → made shown (pred (length (c_log shown))) 1 (HPut "id1" (HSPresentation p) max_utc true).
Proof. intros [= <-]. apply (last_made _ _ _ true). vm_compute. reflexivity. Qed.
Lemma shown_supplied : wallet_supplied 8 shown.
Proof.
  apply (supplied_by 8 shown [HRequest "request_uri"; HConsent "id1"] shown_events);
    [vm_compute; reflexivity|vm_compute; reflexivity|repeat constructor|].
  unfold shown_events. repeat (apply Forall_cons; split); try exact I; [..|constructor]; cbn [readable_answer].
  all: match goal with
       | |- readable_vp_request ?r => apply (de_vp_request_readable (ser_vp_request r)); vm_compute; reflexivity
       | |- _ => intros c ->%elem_of_list_singleton; exact ex_vc_fine
       end.
Qed.
Lemma sd_not_same : ∃ cx n (c : hconfig) m j k x b r, dates_read cx ∧ hreach c ∧ wallet_supplied n c ∧ n + 7 < depth_limit ∧
  made c m j (HPut k (HSIssuance (issuance_of r)) x b) ∧ readable_issuer (ri_issuer r) ∧ claims_within n (issuer_claims (ri_issuer r)) ∧
  read (de_issuance_record cx) (write (ser_issuance_record cx) r) ≠ Some r.
Proof.
  destruct sd_readable as [H1 H2].
  assert (issuance_of (full_issuance sd_issuance) = sd_issuance) as E by (vm_compute; reflexivity).
  exists SerdeExample.ex_cx, 8, sd_kept, (pred (length (c_log sd_kept))), 1, "id0", max_utc, true, (full_issuance sd_issuance).
  split; [exact SerdeExample.ex_dates|]. split; [exact sd_reach|]. split; [exact sd_supplied|]. split; [vm_compute; lia|].
  rewrite E. split; [exact sd_saved|]. split; [exact H1|]. split; [exact H2|].
  rewrite (issuance_text_iff _ 8 sd_kept _ _ _ _ _ _ _ SerdeExample.ex_dates sd_reach sd_supplied ltac:(vm_compute; lia) sd_saved E H1 H2).
  intros H. apply H. do 4 eexists. split; [reflexivity|]. split; [by left|]. reflexivity.
Qed.
