(** What the wallet's endpoints call and save, on every path. *)
From Verif Require Import Base Json CoreModel VcModel Prog ProgFacts ExecSpec ExecFacts Sha256 IssuerTypes
  MatcherModel VerifierModel HolderModel HolderSpec.

Global Arguments bind : simpl never.
Global Arguments runs : simpl never.
Global Arguments wp : simpl never.
Global Arguments ok : simpl never.
Global Arguments fail : simpl never.
Global Arguments panic : simpl never.
Global Arguments ensure : simpl never.
Global Arguments of_opt : simpl never.
Global Arguments lift : simpl never.

Notation hhist := (list hevent).

Section rules.
Context (Φ : hhist → hevent → Prop).
Implicit Types h : hhist.
Lemma hwp_call {A} (Q : hhist → A → Prop) (c : call HSig) k h :
  (∀ r, Φ h (mkev c r) ∧ wp Φ Q (k r) (h ++ [mkev c r])) → wp Φ Q (Call c k) h.
Proof. done. Qed.
Lemma hwp_ok {A} (Q : hhist → outcome string A → Prop) a h : Q h (Ok a) → wp Φ Q (ok a) h.
Proof. done. Qed.
Lemma hwp_fail {A} (Q : hhist → outcome string A → Prop) e h : Q h (Err e) → wp Φ Q (fail e) h.
Proof. done. Qed.
Lemma hwp_panic {A} (Q : hhist → outcome string A → Prop) w h : Q h (Panic w) → wp Φ Q (panic w) h.
Proof. done. Qed.
Lemma hwp_lift {A} (Q : hhist → outcome string A → Prop) o h : Q h o → wp Φ Q (lift o) h.
Proof. done. Qed.
Lemma hwp_ensure (Q : hhist → outcome string unit → Prop) b e h :
  (b = true → Q h (Ok tt)) → (b = false → Q h (Err e)) → wp Φ Q (ensure b e) h.
Proof. intros E1 E2. destruct b; [by apply E1|by apply E2]. Qed.
Lemma hwp_of_opt {A} (Q : hhist → outcome string A → Prop) o e h :
  (∀ a, o = Some a → Q h (Ok a)) → (o = None → Q h (Err e)) → wp Φ Q (of_opt o e) h.
Proof. intros E1 E2. destruct o; [by apply E1|by apply E2]. Qed.
Lemma hwp_zcall x (Q : hhist → outcome string (hans x) → Prop) h :
  (∀ r : hans x, Φ h (HX (hmk x r)) ∧ Q (h ++ [HX (hmk x r)]) (Ok r)) → wp Φ Q (zcall x) h.
Proof. done. Qed.
Lemma hwp_get k (Q : hhist → outcome string (option hstate) → Prop) h :
  (∀ r, Φ h (HGet k r) ∧ Q (h ++ [HGet k r]) (Ok r)) → wp Φ Q (hget k) h.
Proof. done. Qed.
Lemma hwp_put k v x (Q : hhist → outcome string unit → Prop) h :
  (∀ r, Φ h (HPut k v x r)) → Q (h ++ [HPut k v x true]) (Ok tt) →
  Q (h ++ [HPut k v x false]) (Err "state store") → wp Φ Q (hput k v x) h.
Proof. intros E1 E2 E3. apply hwp_call. intros r. split; [apply E1|]. by destruct r. Qed.
Lemma hwp_purge k (Q : hhist → outcome string unit → Prop) h :
  (∀ r, Φ h (HPurge k r)) → Q (h ++ [HPurge k true]) (Ok tt) →
  Q (h ++ [HPurge k false]) (Err "state store") → wp Φ Q (hpurge k) h.
Proof. intros E1 E2 E3. apply hwp_call. intros r. split; [apply E1|]. by destruct r. Qed.
Lemma hwp_try {A} (m : hprog (option A)) e (Q : hhist → outcome string A → Prop) h :
  wp Φ (bindQ Φ Q (λ r, of_opt r e)) m h → wp Φ Q (ztry m e) h.
Proof. intros H. unfold ztry. by apply wp_bind. Qed.
Lemma hwp_get_issuance id (Q : hhist → outcome string issuance → Prop) h :
  (∀ r, Φ h (HGet id r)) →
  (∀ i, Q (h ++ [HGet id (Some (HSIssuance i))]) (Ok i)) →
  (∀ r, (∀ i, r ≠ Some (HSIssuance i)) → Q (h ++ [HGet id r]) (Err "state store")) →
  wp Φ Q (get_issuance id) h.
Proof.
  intros E1 E2 E3. unfold get_issuance. apply wp_bind, hwp_get. intros r. split; [apply E1|].
  unfold bindQ. destruct r as [[i|p]|]; [apply E2|apply E3; done..].
Qed.
Lemma hwp_get_presentation id (Q : hhist → outcome string presentation → Prop) h :
  (∀ r, Φ h (HGet id r)) →
  (∀ p, Q (h ++ [HGet id (Some (HSPresentation p))]) (Ok p)) →
  (∀ r, (∀ p, r ≠ Some (HSPresentation p)) → Q (h ++ [HGet id r]) (Err "unable to retrieve presentation state")) →
  wp Φ Q (get_presentation id) h.
Proof.
  intros E1 E2 E3. unfold get_presentation. apply wp_bind, hwp_get. intros r. split; [apply E1|].
  unfold bindQ. destruct r as [[i|p]|]; [apply E3; done|apply E2|apply E3; done].
Qed.
End rules.

Ltac hwp1 :=
  lazymatch goal with
  | |- wp _ _ (bind _ _) _ => apply wp_bind
  | |- wp _ _ (ok _) _ => apply hwp_ok
  | |- wp _ _ (fail _) _ => apply hwp_fail
  | |- wp _ _ (panic _) _ => apply hwp_panic
  | |- wp _ _ (lift _) _ => apply hwp_lift
  | |- wp _ _ (ensure _ _) _ => apply hwp_ensure; intros ?
  | |- wp _ _ (of_opt _ _) _ => apply hwp_of_opt; [intros ? ?|intros ?]; try subst
  | |- wp _ _ (ztry _ _) _ => apply hwp_try
  | |- wp _ _ (zcall _) _ => apply hwp_zcall; cbn [hans hmk]; intros ?; split
  | |- wp _ _ (get_issuance _) _ => apply hwp_get_issuance; [intros ?|intros ?|intros ? ?]
  | |- wp _ _ (get_presentation _) _ => apply hwp_get_presentation; [intros ?|intros ?|intros ? ?]
  | |- wp _ _ (put_issuance _) _ => unfold put_issuance
  | |- wp _ _ (put_presentation _) _ => unfold put_presentation
  | |- wp _ _ (hput _ _ _) _ => apply hwp_put; [intros ?| |]
  | |- wp _ _ (hpurge _) _ => apply hwp_purge; [intros ?| |]
  | |- wp _ _ (match ?x with _ => _ end) _ => destruct x eqn:?
  | |- wp _ _ (if ?x then _ else _) _ => destruct x eqn:?
  | |- bindQ _ _ _ _ _ => unfold bindQ
  end.
Ltac hwp := repeat (hwp1; try done).

(** Membership in a history. *)
Ltac hhin :=
  solve [repeat first [ assumption
               | apply elem_of_app; right; apply elem_of_list_singleton; reflexivity
               | apply elem_of_app; left ]].

(** ** Who calls what *)

(** The issuance [authorize] works on. *)
Definition started (r : authorize_request) (h : hhist) (i : issuance) : Prop :=
  match hz_initiator r with
  | ByIssuer id => HGet id (Some (HSIssuance i)) ∈ h ∧ hi_status i = SAccepted ∧ allows_code i = Some true
  | ByWallet cl iss scope sb => ∃ id md srv,
      HX (EUuid id) ∈ h ∧ HX (EMetadata iss (Some md)) ∈ h ∧ HX (EServer iss (Some srv)) ∈ h ∧
      i = Issuance id cl sb SInactive (CredentialOffer "" [] None) md srv None None None None
            (TokenResponse "" 0 None None None) scope [] None []
  end.

(** A credential taken from a response of the issuer and verified. *)
Definition received (h : hhist) (c : wcredential) : Prop :=
  HX (EVerifyVc (wc_issued c) (Some (wc_vc c, wc_issuance_date c))) ∈ h ∧
  ∃ resp, contains_token resp (wc_issued c) ∧
    ((∃ q, HX (ECredential q (Some resp)) ∈ h) ∨ (∃ q, HX (EDeferred q (Some resp)) ∈ h)).

(** [v] is [i] after some more credentials and transactions were received. *)
Definition grown (h : hhist) (i v : issuance) : Prop :=
  ∃ l d t, v = set_token t (set_deferred d (set_credentials (hi_credentials i ++ l) i)) ∧
    trs_access_token t = trs_access_token (hi_token i) ∧
    trs_authorization_details t = trs_authorization_details (hi_token i) ∧
    (trs_c_nonce t = trs_c_nonce (hi_token i) ∨
     ∃ q resp n, HX (ECredential q (Some resp)) ∈ h ∧ wr_c_nonce resp = Some n ∧ trs_c_nonce t = Some n) ∧
    Forall (received h) l.

Definition issuance_put (q : hrequest) (h : hhist) (k : string) (v : issuance) : Prop :=
  match q with
  | HOffer cl sb o => ∃ md srv,
      HX (EUuid k) ∈ h ∧ HX (EMetadata (of_credential_issuer o) (Some md)) ∈ h ∧
      HX (EServer (of_credential_issuer o) (Some srv)) ∈ h ∧ of_configuration_ids o ≠ [] ∧
      v = Issuance k cl sb SReady o md srv None None None None (TokenResponse "" 0 None None None) None [] None []
  | HAccept id a => ∃ i d,
      HGet id (Some (HSIssuance i)) ∈ h ∧ hi_status i = SReady ∧ a ≠ Some [] ∧
      narrow_scope (is_configurations (hi_issuer i)) a = Some d ∧ k = hi_id i ∧
      v = set_status (if needs_pin (hi_offer i) then SPendingPin else SAccepted) (set_accepted d i)
  | HPin id p => ∃ i,
      HGet id (Some (HSIssuance i)) ∈ h ∧ hi_status i = SPendingPin ∧ k = hi_id i ∧
      v = set_status SAccepted (set_pin p i)
  | HToken id => ∃ i g d tok,
      HGet id (Some (HSIssuance i)) ∈ h ∧ hi_status i = SAccepted ∧
      HX (EToken (TokenRequest (is_credential_issuer (hi_issuer i)) (Some (hi_client_id i)) g d) (Some tok)) ∈ h ∧
      k = hi_id i ∧ v = set_status STokenReceived (set_token tok i)
  | HAuthorize r => ∃ i verifier g d tok,
      started r h i ∧
      HX (EToken (TokenRequest (is_credential_issuer (hi_issuer i)) (Some (hi_client_id i)) g d) (Some tok)) ∈ h ∧ k = hi_id i ∧
      v = set_status STokenReceived
            (set_token tok (set_pkce verifier (code_challenge verifier) (set_accepted (hz_details r) i)))
  | HCredentials r => ∃ i,
      HGet (hc_issuance_id r) (Some (HSIssuance i)) ∈ h ∧ hi_status i = STokenReceived ∧ k = hi_id i ∧
      grown h i v
  | HDeferred id tx cfg => ∃ i,
      HGet id (Some (HSIssuance i)) ∈ h ∧ hi_status i = STokenReceived ∧ k = hi_id i ∧
      grown h (set_deferred (aremove tx (hi_deferred i)) i) v
  | _ => False
  end.

Definition presentation_put (q : hrequest) (h : hhist) (k : string) (v : presentation) : Prop :=
  match q with
  | HRequest url => ∃ req creds filter,
      HX (EUuid k) ∈ h ∧ build_filter req = Some filter ∧ HX (EFind filter (Some creds)) ∈ h ∧
      (HX (EParseRequest url (Some req)) ∈ h ∨ ∃ jwt, HX (EDecodeRequest jwt (Some req)) ∈ h) ∧
      v = Presentation k PRequested req creds filter
  | HConsent id => ∃ p,
      HGet id (Some (HSPresentation p)) ∈ h ∧ hp_status p = PRequested ∧ k = hp_id p ∧
      v = Presentation (hp_id p) PAuthorized (hp_request p) (hp_credentials p) (hp_filter p)
  | _ => False
  end.

(** The authorization request of [authorize]. *)
Definition authorization_call (r : authorize_request) (h : hhist) (i : issuance) (verifier : string)
    (req : request_object) : Prop :=
  started r h i ∧ HX (EVerifier verifier) ∈ h ∧
  ro_credential_issuer req = is_credential_issuer (hi_issuer i) ∧ ro_client_id req = hi_client_id i ∧
  ro_redirect_uri req = hz_redirect_uri r ∧ ro_state req = Some (hi_id i) ∧
  ro_code_challenge req = code_challenge verifier ∧ ro_subject_id req = hi_subject_id i ∧
  ro_scope req = initiator_scope r ∧
  (match initiator_scope r with
   | Some _ => ro_authorization_details req = None
   | None => ∃ ds, ro_authorization_details req = Some ds ∧
       wanted_details (set_accepted (hz_details r) i) r = Some ds
   end) ∧
  ro_issuer_state req =
    match hz_initiator r with
    | ByIssuer _ => match of_grants (hi_offer i) with
                    | Some g => match gr_authorization_code g with Some a => ag_issuer_state a | None => None end
                    | None => None
                    end
    | ByWallet _ _ _ _ => None
    end.

Definition token_call (q : hrequest) (h : hhist) (tr : token_request) : Prop :=
  match q with
  | HToken id => ∃ i g,
      HGet id (Some (HSIssuance i)) ∈ h ∧ hi_status i = SAccepted ∧ pre_authorized (hi_offer i) = Some g ∧
      tr = TokenRequest (is_credential_issuer (hi_issuer i)) (Some (hi_client_id i))
             (TGPreAuthorizedCode (pg_code g) (hi_pin i)) (hi_accepted i)
  | HAuthorize r => ∃ i verifier req resp,
      authorization_call r h i verifier req ∧ HX (EAuthorization req (Some resp)) ∈ h ∧
      tr = TokenRequest (is_credential_issuer (hi_issuer i)) (Some (hi_client_id i))
             (TGAuthorizationCode (ar_code resp) (hz_redirect_uri r) (Some verifier)) (hz_details r)
  | _ => False
  end.

Definition present_call (id : string) (h : hhist) (uri : option string) (rr : response_request) : Prop :=
  ∃ p d u1 kid u2 v t1 t2 t3 jwt,
    HGet id (Some (HSPresentation p)) ∈ h ∧ hp_status p = PAuthorized ∧
    vo_definition (hp_request p) = KObject d ∧ HX (EKid kid) ∈ h ∧
    create_vp u2 (before_char "#" kid) d (hp_credentials p) = Ok v ∧
    HX (ESignVp (vp_claims_from v (vo_client_id (hp_request p)) (vo_nonce (hp_request p)) t1 t2 t3) (Some jwt)) ∈ h ∧
    uri = option_map (trim_end "/") (vo_response_uri (hp_request p)) ∧
    rr = ResponseRequest (Some [KString jwt]) (Some (create_submission u1 d)) (vo_state (hp_request p)).

(** The presentation that is signed. *)
Definition sign_call (id : string) (h : hhist) (claims : vp_claims) : Prop :=
  ∃ p d kid u v t1 t2 t3,
    HGet id (Some (HSPresentation p)) ∈ h ∧ hp_status p = PAuthorized ∧
    vo_definition (hp_request p) = KObject d ∧ HX (EKid kid) ∈ h ∧ HX (EUuid u) ∈ h ∧
    create_vp u (before_char "#" kid) d (hp_credentials p) = Ok v ∧
    HX (ENow t1) ∈ h ∧ HX (ENow t2) ∈ h ∧ HX (ENow t3) ∈ h ∧
    claims = vp_claims_from v (vo_client_id (hp_request p)) (vo_nonce (hp_request p)) t1 t2 t3.

(** Everything that is said below about the calls of request [q], made after calls [h]. *)
Definition hsays (q : hrequest) (h : hhist) (e : hevent) : Prop :=
  match e with
  | EPut k (HSIssuance v) x _ => x = max_utc ∧ issuance_put q h k v
  | EPut k (HSPresentation v) x _ => x = max_utc ∧ presentation_put q h k v
  | EPurge k _ => ∃ i id, HGet id (Some (HSIssuance i)) ∈ h ∧
      ((q = HSave id ∨ q = HCancel id) ∧ k = id ∨ (∃ tx cfg, q = HDeferred id tx cfg) ∧ k = hi_id i)
  | EExt (EAuthorization req _) => ∃ r i verifier, q = HAuthorize r ∧ authorization_call r h i verifier req
  | EExt (EToken tr _) => token_call q h tr
  | EExt (ESignProof pc _) => ∃ r i t, q = HCredentials r ∧
      HGet (hc_issuance_id r) (Some (HSIssuance i)) ∈ h ∧ hi_status i = STokenReceived ∧
      pc = ProofClaims (Some (hi_client_id i)) (of_credential_issuer (hi_offer i)) (timestamp t)
             (trs_c_nonce (hi_token i))
  | EExt (ECredential cr _) => ∃ r i t jwt, q = HCredentials r ∧
      HGet (hc_issuance_id r) (Some (HSIssuance i)) ∈ h ∧ hi_status i = STokenReceived ∧
      HX (ESignProof (ProofClaims (Some (hi_client_id i)) (of_credential_issuer (hi_offer i)) (timestamp t)
            (trs_c_nonce (hi_token i))) (Some jwt)) ∈ h ∧
      cr_credential_issuer cr = is_credential_issuer (hi_issuer i) ∧
      cr_access_token cr = trs_access_token (hi_token i) ∧ cr_proof cr = Some (PSingle jwt)
  | EExt (EDeferred dr _) => ∃ id tx cfg i, q = HDeferred id tx cfg ∧
      HGet id (Some (HSIssuance i)) ∈ h ∧ hi_status i = STokenReceived ∧
      dr = DeferredRequest (is_credential_issuer (hi_issuer i)) (trs_access_token (hi_token i)) tx
  | EExt (ESave c _) => ∃ id i, q = HSave id ∧ HGet id (Some (HSIssuance i)) ∈ h ∧ c ∈ hi_credentials i
  | EExt (ENotify _ _ _) => ∃ id i n, HGet id (Some (HSIssuance i)) ∈ h ∧ hi_notification_id i = Some n
  | EExt (ESignVp claims _) => ∃ id, q = HPresent id ∧ sign_call id h claims
  | EExt (EPresent uri rr _) => ∃ id, q = HPresent id ∧ present_call id h uri rr
  | _ => True
  end.

(** ** Proofs, endpoint by endpoint *)

Lemma Forall_received_app h h' l : Forall (received h) l → Forall (received (h ++ h')) l.
Proof.
  intros Hl. eapply Forall_impl; [exact Hl|]. simpl. intros c [H (resp & Hc & Hr)]. split; [apply elem_of_app; by left|].
  exists resp. split; [done|]. destruct Hr as [[q Hr]|[q Hr]]; [left|right]; exists q; apply elem_of_app; by left.
Qed.
Lemma started_app r h h' i : started r h i → started r (h ++ h') i.
Proof.
  unfold started. destruct (hz_initiator r).
  - intros (id & md & srv & E1 & E2 & E3 & E4). exists id, md, srv.
    split_and!; try (apply elem_of_app; by left). done.
  - intros (E1 & E2). split; [apply elem_of_app; by left|done].
Qed.
Lemma grown_refl h i : grown h i i.
Proof.
  exists [], (hi_deferred i), (hi_token i). rewrite app_nil_r. split; [by destruct i|]. auto 6.
Qed.
Lemma grown_app h h' i v : grown h i v → grown (h ++ h') i v.
Proof.
  intros (l & d & t & E1 & E2 & E3 & E4 & E5). exists l, d, t. split_and!; try done.
  - destruct E4 as [E4|(q & resp & n & E4 & E6)]; [by left|right]. exists q, resp, n. split; [set_solver|done].
  - by apply Forall_received_app.
Qed.
Lemma grown_trans h i j v : grown h i j → grown h j v → grown h i v.
Proof.
  intros (l & d & t & -> & E2 & E3 & E4 & E5) (l' & d' & t' & -> & E2' & E3' & E4' & E5').
  exists (l ++ l'), d', t'. rewrite app_assoc. split; [done|]. simpl in *.
  split_and!; [congruence..| |by apply Forall_app].
  destruct E4' as [->|E4']; [done|by right].
Qed.

Definition anyQ {A} : hhist → A → Prop := λ _ _, True.

Lemma offer_says cl sb o h : wp (hsays (HOffer cl sb o)) anyQ (h_offer cl sb o) h.
Proof.
  unfold h_offer, fetch_issuer. hwp.
  split; [done|]. simpl. do 2 eexists. split_and!; try hhin; try done. by intros Hn; rewrite Hn in *.
Qed.
Lemma accept_says id a h : wp (hsays (HAccept id a)) anyQ (h_accept id a) h.
Proof.
  unfold h_accept. hwp. apply bool_decide_eq_true in H.
  split; [done|]. do 2 eexists. split_and!; try hhin; try done. by intros Hn; rewrite Hn in *.
Qed.
Lemma pin_says id p h : wp (hsays (HPin id p)) anyQ (h_pin id p) h.
Proof.
  unfold h_pin. hwp. apply bool_decide_eq_true in H.
  split; [done|]. eexists. split_and!; try hhin; done.
Qed.
Lemma token_says id h : wp (hsays (HToken id)) anyQ (h_token id) h.
Proof.
  unfold h_token. hwp; case_bool_decide; try done.
  - do 2 eexists. split_and!; try hhin; done.
  - split; [done|]. do 4 eexists. split_and!; try hhin; done.
  - split; [done|]. do 4 eexists. split_and!; try hhin; done.
Qed.

Lemma start_says r h (Q : hhist → outcome string issuance → Prop) :
  (∀ h' i, started r (h ++ h') i → Q (h ++ h') (Ok i)) →
  (∀ h' e, Q (h ++ h') (Err e)) →
  wp (hsays (HAuthorize r)) Q (start_authorize r) h.
Proof.
  intros E1 E2. unfold start_authorize, fetch_issuer. destruct (hz_initiator r) as [cl iss scope sb|id] eqn:Hi.
  - hwp; try (rewrite <-?app_assoc; apply E2).
    + rewrite <-!app_assoc. apply E1. unfold started. rewrite Hi. exists r0, a, a0. simpl. split_and!; [set_solver..|done].
    + rewrite <-(app_nil_r h). apply E2.
  - hwp; try (rewrite <-?app_assoc; apply E2). apply E1. unfold started. rewrite Hi.
    apply andb_true_iff in H0 as [-> E3%bool_decide_eq_true]. split_and!; [set_solver|done..].
Qed.
Lemma make_request_says r h i verifier (Q : hhist → outcome string request_object → Prop) :
  started r h i → HX (EVerifier verifier) ∈ h →
  (∀ req, authorization_call r h i verifier req → Q h (Ok req)) →
  (∀ e, Q h (Err e)) → (∀ w, Q h (Panic w)) →
  wp (hsays (HAuthorize r)) Q
    (make_authorization_request (set_pkce verifier (code_challenge verifier) (set_accepted (hz_details r) i)) r) h.
Proof.
  intros Hs Hv E1 E2 E3. unfold make_authorization_request. hwp; try apply E2; try apply E3.
  - apply E1. simpl in H. injection H as <-.
    unfold authorization_call. simpl. rewrite Heqo. split_and!; done.
  - apply E1. simpl in H. injection H as <-.
    unfold authorization_call. simpl. rewrite Heqo. split_and!; try done. eexists. split; [done|]. done.
Qed.
Lemma authorize_says r h : wp (hsays (HAuthorize r)) anyQ (h_authorize r) h.
Proof.
  unfold h_authorize. apply wp_bind, start_says; [|done]. intros h1 i Hs. unfold bindQ.
  apply wp_bind, hwp_zcall. cbn [hmk]. intros verifier. split; [done|]. unfold bindQ.
  set (h2 := (h ++ h1) ++ [_]). assert (started r h2 i) as Hs2 by by apply started_app.
  assert (HX (EVerifier verifier) ∈ h2) as Hv2 by (unfold h2; hhin). clearbody h2. clear Hs h h1.
  apply wp_bind, make_request_says; [done..| |done|done]. intros req Hreq. unfold bindQ.
  hwp.
  - exists r, i, verifier. done.
  - exists i, verifier, req. eexists. split; [|split; [hhin|done]].
    destruct Hreq as (E1 & E2 & E3). split; [by apply started_app|split; [hhin|exact E3]].
  - split; [done|]. exists i, verifier. do 3 eexists. split_and!; [|hhin|done..]. by do 2 apply started_app.
  - split; [done|]. exists i, verifier. do 3 eexists. split_and!; [|hhin|done..]. by do 2 apply started_app.
  - split; [done|]. exists i, verifier. do 3 eexists. split_and!; [|hhin|done..]. by do 2 apply started_app.
Qed.

(** Taking credentials from a response. *)
Definition quiet (e : hevent) : Prop :=
  match e with
  | EExt (EUuid _) | EExt (ELogo _ _) | EExt (EVerifyVc _ _) => True
  | _ => False
  end.
Lemma quiet_says q h e : quiet e → hsays q h e.
Proof. by destruct e as [| | |[]]. Qed.
Lemma take_credential_says q cfg k h (Q : hhist → outcome string wcredential → Prop) :
  (∀ h' c, HX (EVerifyVc (wc_issued c) (Some (wc_vc c, wc_issuance_date c))) ∈ h' →
     k = KString (wc_issued c) → Q (h ++ h') (Ok c)) →
  (∀ h' e, Q (h ++ h') (Err e)) → (∀ h' w, Q (h ++ h') (Panic w)) →
  wp (hsays q) Q (take_credential cfg k) h.
Proof.
  intros E1 E2 E3. unfold take_credential. hwp;
    try (rewrite <-?app_assoc; first [apply E2 | apply E3]); try (rewrite <-(app_nil_r h); apply E2).
  all: rewrite <-?app_assoc; apply E1; simpl; [destruct a; set_solver|done].
Qed.
Lemma take_credentials_says q cfg l h (Q : hhist → outcome string (list wcredential) → Prop) :
  (∀ h' cs, Forall (λ c, HX (EVerifyVc (wc_issued c) (Some (wc_vc c, wc_issuance_date c))) ∈ h' ∧
                      KString (wc_issued c) ∈ l) cs → Q (h ++ h') (Ok cs)) →
  (∀ h' e, Q (h ++ h') (Err e)) → (∀ h' w, Q (h ++ h') (Panic w)) →
  wp (hsays q) Q (take_credentials cfg l) h.
Proof.
  revert h Q. induction l as [|k l IH]; intros h Q E1 E2 E3; simpl.
  - apply hwp_ok. rewrite <-(app_nil_r h). by apply E1.
  - apply wp_bind, take_credential_says; [|apply E2|apply E3]. intros h1 c Hc Hk. unfold bindQ.
    apply wp_bind, IH; unfold bindQ; [|intros; rewrite <-app_assoc; apply E2|intros; rewrite <-app_assoc; apply E3].
    intros h2 cs Hcs. apply hwp_ok. rewrite <-app_assoc. apply E1. constructor.
    + split; [set_solver|]. subst k. by left.
    + eapply Forall_impl; [exact Hcs|]. simpl. intros c' [E4 E5]. split; [set_solver|by right].
Qed.
Lemma take_response_says q cfg_id cfg resp i h (Q : hhist → outcome string issuance → Prop) :
  ((∃ r, HX (ECredential r (Some resp)) ∈ h) ∨ (∃ r, HX (EDeferred r (Some resp)) ∈ h)) →
  (∀ h' v, grown (h ++ h') i v → Q (h ++ h') (Ok v)) →
  (∀ h' e, Q (h ++ h') (Err e)) → (∀ h' w, Q (h ++ h') (Panic w)) →
  wp (hsays q) Q (take_response cfg_id cfg resp i) h.
Proof.
  intros Hresp E1 E2 E3. unfold take_response. destruct (wr_response resp) as [k|l|id] eqn:Hr.
  - apply wp_bind, take_credential_says; [|apply E2|apply E3]. intros h1 c Hc Hk. unfold bindQ.
    apply hwp_ok, E1. exists [c], (hi_deferred i), (hi_token i). do 3 (split; [done|]). split; [by left|].
    constructor; [|done]. split; [set_solver|]. exists resp. unfold contains_token. rewrite Hr. split; [done|].
    destruct Hresp as [[r' ?]|[r' ?]]; [left|right]; exists r'; set_solver.
  - apply wp_bind, take_credentials_says; [|apply E2|apply E3]. intros h1 cs Hcs. unfold bindQ.
    apply hwp_ok, E1. exists cs, (hi_deferred i), (hi_token i). do 3 (split; [done|]). split; [by left|].
    eapply Forall_impl; [exact Hcs|]. simpl. intros c [E4 E5]. split; [set_solver|]. exists resp.
    unfold contains_token. rewrite Hr. split; [done|].
    destruct Hresp as [[r' ?]|[r' ?]]; [left|right]; exists r'; set_solver.
  - apply hwp_ok. rewrite <-(app_nil_r h). apply E1. exists [], (ainsert id cfg_id (hi_deferred i)), (hi_token i).
    rewrite app_nil_r. split; [by destruct i|]. auto 6.
Qed.

(** The credential requests of [credentials]. *)
Definition ready_to_ask (r : credentials_request) (jwt : string) (h : hhist) (i : issuance) : Prop :=
  HGet (hc_issuance_id r) (Some (HSIssuance i)) ∈ h ∧ hi_status i = STokenReceived ∧
  ∃ t, HX (ESignProof (ProofClaims (Some (hi_client_id i)) (of_credential_issuer (hi_offer i)) (timestamp t)
            (trs_c_nonce (hi_token i))) (Some jwt)) ∈ h.
Lemma ready_app r jwt h h' i : ready_to_ask r jwt h i → ready_to_ask r jwt (h ++ h') i.
Proof. intros (E1 & E2 & t & E3). split_and!; [set_solver|done|]. exists t. set_solver. Qed.
Lemma ask_says r jwt h i v x b : ready_to_ask r jwt h i → grown h i v →
  hsays (HCredentials r) h (HX (ECredential (CredentialRequest (is_credential_issuer (hi_issuer v))
    (trs_access_token (hi_token v)) x (Some (PSingle jwt))) b)).
Proof.
  intros (E1 & E2 & t & E3) (l & d & t' & -> & E4 & _). exists r, i, t, jwt. simpl. split_and!; done.
Qed.
Lemma keep_nonce_grown h q resp i v : HX (ECredential q (Some resp)) ∈ h → grown h i v → grown h i (keep_nonce resp v).
Proof.
  intros Hin (l & d & t & -> & E1 & E2 & E3 & E4). unfold keep_nonce. simpl.
  eexists l, d, _. split; [reflexivity|]. simpl. do 2 (split; [done|]). split; [|done].
  destruct (wr_c_nonce resp) as [n|] eqn:Hn; [|done]. right. exists q, resp, n. done.
Qed.
Lemma by_identifiers_says r jwt cfg_id cfg ids h i v (Q : hhist → outcome string issuance → Prop) :
  ready_to_ask r jwt h i → grown h i v →
  (∀ h' v', grown (h ++ h') i v' → Q (h ++ h') (Ok v')) →
  (∀ h' e, Q (h ++ h') (Err e)) → (∀ h' w, Q (h ++ h') (Panic w)) →
  wp (hsays (HCredentials r)) Q (by_identifiers r jwt cfg_id cfg ids v) h.
Proof.
  revert h v Q. induction ids as [|id ids IH]; intros h v Q Hr Hg E1 E2 E3; cbn [by_identifiers].
  { apply hwp_ok. rewrite <-(app_nil_r h). apply E1. by rewrite app_nil_r. }
  destruct (match hc_identifiers r with Some l => contains l id | None => true end).
  2:{ by apply IH. }
  apply wp_bind, hwp_try, hwp_zcall. cbn [hmk hans]. intros resp. split; [by eapply ask_says|].
  unfold bindQ. apply hwp_of_opt; [|intros _; apply E2]. intros resp' ->.
  apply wp_bind, take_response_says; unfold bindQ;
    [left; eexists; hhin| |intros; rewrite <-app_assoc; apply E2|intros; rewrite <-app_assoc; apply E3].
  intros h1 v1 Hv1. rewrite <-app_assoc in Hv1 |- *. apply IH.
  - by apply ready_app.
  - eapply keep_nonce_grown; [apply elem_of_app; right; by left|]. eapply grown_trans; [by apply grown_app|done].
  - intros h' v' Hv'. rewrite <-app_assoc in Hv' |- *. by apply E1.
  - intros. rewrite <-app_assoc. apply E2.
  - intros. rewrite <-app_assoc. apply E3.
Qed.
Lemma by_details_says r jwt l h i v (Q : hhist → outcome string issuance → Prop) :
  ready_to_ask r jwt h i → grown h i v →
  (∀ h' v', grown (h ++ h') i v' → Q (h ++ h') (Ok v')) →
  (∀ h' e, Q (h ++ h') (Err e)) → (∀ h' w, Q (h ++ h') (Panic w)) →
  wp (hsays (HCredentials r)) Q (by_details r jwt l v) h.
Proof.
  revert h v Q. induction l as [|d l IH]; intros h v Q Hr Hg E1 E2 E3; cbn [by_details].
  { apply hwp_ok. rewrite <-(app_nil_r h). apply E1. by rewrite app_nil_r. }
  apply wp_bind, hwp_of_opt; [|intros _; rewrite <-(app_nil_r h); apply E2]. intros cfg_id _. unfold bindQ.
  apply wp_bind, hwp_of_opt; [|intros _; rewrite <-(app_nil_r h); apply E2]. intros cfg _. unfold bindQ.
  apply wp_bind, (by_identifiers_says _ _ _ _ _ _ i); unfold bindQ; [done..| |apply E2|apply E3].
  intros h1 v1 Hv1. apply IH; [by apply ready_app|done|..].
  - intros h' v' Hv'. rewrite <-app_assoc in Hv' |- *. by apply E1.
  - intros. rewrite <-app_assoc. apply E2.
  - intros. rewrite <-app_assoc. apply E3.
Qed.
Lemma credentials_says r : wp (hsays (HCredentials r)) anyQ (h_credentials r) [].
Proof.
  unfold h_credentials. hwp.
  - apply bool_decide_eq_true in H. exists r, i, r0. split_and!; [done|set_solver|done|done].
  - apply bool_decide_eq_true in H.
    match goal with |- wp _ _ _ ?h => set (h0 := h) end.
    assert (ready_to_ask r a h0 i) as Hr.
    { unfold h0. split_and!; [set_solver|done|]. exists r0. set_solver. }
    clearbody h0. unfold credential_by_format. hwp.
    + eapply ask_says; [done|apply grown_refl].
    + apply take_response_says; [left; eexists; hhin| |done|done]. intros h1 v Hv. unfold bindQ. hwp.
      split; [done|]. exists i. destruct Hr as (E1 & E2 & _). split_and!; [set_solver|done| |done].
      by destruct Hv as (? & ? & ? & -> & _).
  - apply bool_decide_eq_true in H.
    match goal with |- wp _ _ _ ?h => set (h0 := h) end.
    assert (ready_to_ask r a h0 i) as Hr.
    { unfold h0. split_and!; [set_solver|done|]. exists r0. set_solver. }
    clearbody h0. unfold credential_by_identifier. hwp. eapply by_details_says; [done|apply grown_refl| |done|done].
    intros h1 v Hv. unfold bindQ. hwp.
      split; [done|]. exists i. destruct Hr as (E1 & E2 & _). split_and!; [set_solver|done| |done].
      by destruct Hv as (? & ? & ? & -> & _).
Qed.
Lemma deferred_says id tx cfg : wp (hsays (HDeferred id tx cfg)) anyQ (h_deferred id tx cfg) [].
Proof.
  unfold h_deferred. hwp.
  - apply bool_decide_eq_true in H. exists id, tx, cfg, i. split_and!; [done|set_solver|done|done].
  - apply bool_decide_eq_true in H.
    apply take_response_says; [right; eexists; hhin| |done|done]. intros h1 v Hv. unfold bindQ.
    assert (hi_id v = hi_id i) as Hid by (by destruct Hv as (? & ? & ? & -> & _)).
    assert (∀ b, hsays (HDeferred id tx cfg) ((([] ++ [HGet id (Some (HSIssuance i))]) ++
      [HX (EDeferred (DeferredRequest (is_credential_issuer (hi_issuer (set_deferred (aremove tx (hi_deferred i)) i)))
         (trs_access_token (hi_token (set_deferred (aremove tx (hi_deferred i)) i))) tx) (Some a))]) ++ h1)
        (HPut (hi_id v) (HSIssuance v) max_utc b)) as Hp.
    { intros b. split; [done|]. exists i. split_and!; [set_solver|done|done|done]. }
    hwp; try apply Hp.
    + exists i, id. split; [set_solver|]. right. eauto.
Qed.
Lemma save_all_says id i l h (Q : hhist → outcome string unit → Prop) :
  HGet id (Some (HSIssuance i)) ∈ h → (∀ c, c ∈ l → c ∈ hi_credentials i) →
  (∀ h', Q (h ++ h') (Ok tt)) → (∀ h' e, Q (h ++ h') (Err e)) →
  wp (hsays (HSave id)) Q (save_all i l) h.
Proof.
  revert h Q. induction l as [|c l IH]; intros h Q Hg Hl E1 E2; cbn [save_all].
  { apply hwp_ok. rewrite <-(app_nil_r h). apply E1. }
  hwp.
  - exists id, i. split_and!; [done|done|]. apply Hl. by left.
  - apply IH; [set_solver|set_solver|intros; rewrite <-app_assoc; apply E1|intros; rewrite <-app_assoc; apply E2].
  - exists id, i, s. split; [set_solver|done].
  - rewrite <-app_assoc. apply E2.
Qed.
Lemma notify_says q id i e h (Q : hhist → outcome string unit → Prop) :
  HGet id (Some (HSIssuance i)) ∈ h →
  (∀ h', Q (h ++ h') (Ok tt)) → (∀ h' e, Q (h ++ h') (Err e)) →
  wp (hsays q) Q (notify i e) h.
Proof.
  intros Hg E1 E2. unfold notify. hwp; try apply E1; try apply E2.
  - exists id, i, s. done.
  - rewrite <-(app_nil_r h). apply E1.
Qed.
Lemma save_says id h : wp (hsays (HSave id)) anyQ (h_save id) h.
Proof.
  unfold h_save. hwp. apply (save_all_says id); [hhin|done| |done]. intros h1. unfold bindQ.
  apply wp_bind, (notify_says _ id); [hhin| |done]. intros h2. unfold bindQ. hwp.
  exists i, id. split; [hhin|]. left. auto.
Qed.
Lemma cancel_says id h : wp (hsays (HCancel id)) anyQ (h_cancel id) h.
Proof.
  unfold h_cancel. hwp. apply (notify_says _ id); [hhin| |done]. intros h2. unfold bindQ. hwp.
  exists i, id. split; [hhin|]. left. auto.
Qed.
Lemma request_says url h : wp (hsays (HRequest url)) anyQ (h_request url) h.
Proof.
  unfold h_request. hwp.
  - split; [done|]. do 3 eexists. split_and!; [hhin|done|hhin|left; hhin|done].
  - split; [done|]. do 3 eexists. split_and!; [hhin|done|hhin|right; eexists; hhin|done].
Qed.
Lemma consent_says id h : wp (hsays (HConsent id)) anyQ (h_consent id) h.
Proof.
  unfold h_consent. hwp. apply bool_decide_eq_true in H. split; [done|]. exists p. split_and!; [hhin|done..].
Qed.
Lemma present_says id h : wp (hsays (HPresent id)) anyQ (h_present id) h.
Proof.
  unfold h_present. hwp. destruct (create_vp _ _ _ _) eqn:Hvp; try done. hwp.
  all: apply bool_decide_eq_true in H; exists id; split; [done|];
    destruct (vo_definition (hp_request p)) eqn:Hd; [done|]; injection H0 as ->; exists p.
  1: do 7 eexists; split_and!; [hhin|done|done|hhin| |exact Hvp| | | |reflexivity]; hhin.
  all: do 9 eexists; split_and!; [hhin|done|done|hhin|done|hhin|done|done].
Qed.

Lemma map_says {A} q (m : hprog A) (f : A → hreply) h :
  wp (hsays q) anyQ m h → wp (hsays q) anyQ (let! x := m in ok (f x)) h.
Proof.
  intros H. apply wp_bind. eapply wp_mono; [done| |exact H]. intros h' [] _; done.
Qed.
Lemma handler_says q : wp (hsays q) anyQ (hhandler q) [].
Proof.
  destruct q; apply map_says.
  - apply offer_says. - apply accept_says. - apply pin_says. - apply token_says. - apply authorize_says.
  - apply credentials_says. - apply deferred_says. - apply save_says. - apply cancel_says.
  - apply request_says. - apply consent_says. - apply present_says.
Qed.
