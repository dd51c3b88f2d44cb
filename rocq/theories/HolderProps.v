(** The properties of the wallet, derived from what its calls say and where its records
    come from. *)
From Verif Require Import Base StringSpec Json CoreModel VcModel Prog ProgFacts ExecSpec ExecFacts Sha256 IssuerTypes
  MatcherModel VerifierModel HolderModel HolderSpec HolderFacts HolderExec HolderRuns.

Section props.
Context (c : hconfig) (Hr : hreach c).
Notation log := (c_log c).
Notation past n i := (calls_of i (take n log)).

Lemma made_says n i e : made c n i e → ∃ q, asked c i q ∧ hsays q (past n i) e.
Proof. intros [eff H]. by eapply (say_pos _ Hr). Qed.

Lemma provenance_accepted n id v : provenance c n id v → hi_status v = SAccepted →
  ∃ a n2, offer_accepted c n id (hi_client_id v) (hi_subject_id v) (hi_offer v) (hi_issuer v) a n2 ∧ a ≠ Some [] ∧
    asks_as_specified a (hi_accepted v) ∧
    if needs_pin (hi_offer v) then ∃ n3 i3 p, n2 < n3 < n ∧ asked c i3 (HPin id p) ∧ saved c n3 i3 id ∧ hi_pin v = Some p
    else hi_pin v = None.
Proof.
  intros (_ & _ & _ & [(n1 & i1 & _ & _ & E)|(n1 & Hlt & Ho & Ha)] & _) Hs; [congruence|].
  rewrite Hs in Ha. destruct Ha as (n2 & a & Hlt2 & (i2 & Hs2 & Hq2) & Hne & Hask & _ & Hpin). rewrite Hs in Hpin.
  destruct Ho as (i1 & Hs1 & Hq1 & (m1 & m2 & Hm1 & Hmd & _) & _).
  exists a, n2. split; [|split; [done|split; [done|]]].
  - exists n1, i1, i2. split; [done|]. split; [done|]. split; [done|]. split; [by exists m1|done].
  - destruct (needs_pin _); [|done]. destruct Hpin as (n3 & p & ? & (i3 & ? & ?) & ?). by exists n3, i3, p.
Qed.

Lemma token_request_made n i tr r : made c n i (HX (EToken tr r)) →
  (∃ id cl sb o md a n2 gr g pin, asked c i (HToken id) ∧ offer_accepted c n id cl sb o md a n2 ∧ a ≠ Some [] ∧
     of_grants o = Some gr ∧ gr_pre_authorized_code gr = Some g ∧
     tr = TokenRequest (is_credential_issuer md) (Some cl) (TGPreAuthorizedCode (pg_code g) pin)
            (tr_authorization_details tr) ∧
     asks_as_specified a (tr_authorization_details tr) ∧
     match pg_tx_code g with
     | None => pin = None
     | Some _ => ∃ n3 i3 p, n2 < n3 < n ∧ asked c i3 (HPin id p) ∧ saved c n3 i3 id ∧ pin = Some p
     end) ∨
  (∃ z, asked c i (HAuthorize z) ∧ (tr_authorization_details tr = hz_details z) ∧
     (∃ m m' req resp verifier, m < n ∧ made c m i (HX (EAuthorization req (Some resp))) ∧
        m' < n ∧ made c m' i (HX (EVerifier verifier)) ∧
        ro_code_challenge req = code_challenge verifier ∧ ro_redirect_uri req = hz_redirect_uri z ∧
        tr_credential_issuer tr = ro_credential_issuer req ∧ tr_client_id tr = Some (ro_client_id req) ∧
        tr_grant tr = TGAuthorizationCode (ar_code resp) (hz_redirect_uri z) (Some verifier)) ∧
     match hz_initiator z with
     | ByIssuer id => ∃ cl sb o md a n2, offer_accepted c n id cl sb o md a n2 ∧ a ≠ Some [] ∧
         tr_credential_issuer tr = is_credential_issuer md ∧ tr_client_id tr = Some cl ∧
         ∀ gr, of_grants o = Some gr → gr_authorization_code gr ≠ None
     | ByWallet cl iss _ _ => tr_client_id tr = Some cl ∧
         ∃ m md, m < n ∧ made c m i (HX (EMetadata iss (Some md))) ∧ tr_credential_issuer tr = is_credential_issuer md
     end).
Proof.
  intros Hm. destruct (made_says _ _ _ Hm) as (q & Hq & Hs). cbn [hsays token_call] in Hs.
  destruct q as [| | |id|z| | | | | | |]; try done.
  - left. destruct Hs as (v & g & Hg & Hst & Hpre & ->).
    pose proof (provenance_get _ Hr _ _ _ _ Hg) as Hp.
    destruct (provenance_accepted _ _ _ Hp Hst) as (a & n2 & Ha & Hne & Hask & Hpin).
    unfold pre_authorized in Hpre. unfold needs_pin in Hpin. destruct (of_grants (hi_offer v)) as [gr|] eqn:Hgr; [|done].
    rewrite Hpre in Hpin.
    exists id, (hi_client_id v), (hi_subject_id v), (hi_offer v), (hi_issuer v), a, n2, gr, g, (hi_pin v). simpl.
    split_and!; try done. destruct (pg_tx_code g); done.
  - right. destruct Hs as (v & verifier & req & resp & Hcall & Hauth & ->). exists z. split; [done|]. split; [done|].
    destruct Hcall as (Hst & Hv & E1 & E2 & E3 & E4 & E5 & _). split.
    + apply past_made in Hauth as (m & ? & Hauth). apply past_made in Hv as (m' & ? & Hv).
      exists m, m', req, resp, verifier. simpl. split_and!; congruence.
    + unfold started in Hst. destruct (hz_initiator z) as [cl iss sc sb|id].
      * destruct Hst as (id & md & srv & _ & Hmd & _ & ->). simpl. split; [done|].
        apply past_made in Hmd as (m & ? & Hmd). exists m, md. done.
      * destruct Hst as (Hg & Hst & Hallow).
        pose proof (provenance_get _ Hr _ _ _ _ Hg) as Hp.
        destruct (provenance_accepted _ _ _ Hp Hst) as (a & n2 & Ha & Hne & _).
        exists (hi_client_id v), (hi_subject_id v), (hi_offer v), (hi_issuer v), a, n2. simpl. split_and!; try done.
        intros gr Hgr Hnone. unfold allows_code in Hallow. rewrite Hgr, Hnone in Hallow. done.
Qed.

Lemma authorization_request_made n i req r : made c n i (HX (EAuthorization req r)) →
  ∃ z m verifier, asked c i (HAuthorize z) ∧ m < n ∧ made c m i (HX (EVerifier verifier)) ∧
    ro_code_challenge req = code_challenge verifier ∧ ro_redirect_uri req = hz_redirect_uri z ∧
    match hz_initiator z with
    | ByIssuer id => ∃ cl sb o md a n2, offer_accepted c n id cl sb o md a n2 ∧ a ≠ Some [] ∧
        ro_credential_issuer req = is_credential_issuer md ∧ ro_client_id req = cl ∧ ro_subject_id req = sb ∧
        ro_state req = Some id ∧ ro_scope req = None ∧
        (∀ gr, of_grants o = Some gr → ∃ ag, gr_authorization_code gr = Some ag ∧
           ro_issuer_state req = ag_issuer_state ag) ∧
        match hz_details z with
        | Some ds => ro_authorization_details req = Some ds
        | None => ∃ ds, ro_authorization_details req = Some ds ∧ map detail_id ds = map Some (of_configuration_ids o)
        end
    | ByWallet cl iss sc sb => ro_client_id req = cl ∧ ro_subject_id req = sb ∧ ro_scope req = sc ∧
        ro_issuer_state req = None ∧
        (ro_authorization_details req = match sc with Some _ => None | None => hz_details z end) ∧
        ∃ m md, m < n ∧ made c m i (HX (EMetadata iss (Some md))) ∧ ro_credential_issuer req = is_credential_issuer md
    end.
Proof.
  intros Hm. destruct (made_says _ _ _ Hm) as (q & Hq & z & v & verifier & -> & Hcall).
  destruct Hcall as (Hst & Hv & E1 & E2 & E3 & E4 & E5 & E6 & E7 & E8 & E9).
  apply past_made in Hv as (m & Hlt & Hv). exists z, m, verifier. do 5 (split; [done|]).
  unfold started in Hst. unfold initiator_scope in E7, E8. unfold wanted_details in E8. simpl in E8.
  destruct (hz_initiator z) as [cl iss sc sb|id].
  - destruct Hst as (id & md & srv & _ & Hmd & _ & ->). simpl in *. do 3 (split; [done|]).
    split; [done|]. split.
    + destruct sc; [done|]. destruct E8 as (ds & -> & ?). by destruct (hz_details z).
    + apply past_made in Hmd as (m' & ? & Hmd). exists m', md. done.
  - destruct Hst as (Hg & Hst & Hallow).
    pose proof (provenance_get _ Hr _ _ _ _ Hg) as Hp.
    destruct (provenance_accepted _ _ _ Hp Hst) as (a & n2 & Ha & Hne & _). destruct Hp as [Hid _].
    exists (hi_client_id v), (hi_subject_id v), (hi_offer v), (hi_issuer v), a, n2. do 5 (split; [done|]).
    split; [congruence|]. split; [done|]. split.
    + intros gr Hgr. unfold allows_code in Hallow. rewrite Hgr in Hallow, E9.
      destruct (gr_authorization_code gr) as [ag|]; [|done]. by exists ag.
    + destruct E8 as (ds & -> & Hds). destruct (hz_details z) as [ds'|]; [done|]. exists ds. split; [done|].
      revert ds Hds. generalize (of_configuration_ids (hi_offer v)). intros l. induction l as [|x l IH]; intros ds; simpl.
      * by intros [= <-].
      * destruct (assoc x _); [|done]. destruct (offered_details _ l) as [ds'|]; [|done]. intros [= <-].
        simpl. f_equal. by apply IH.
Qed.

Lemma provenance_token n id v : provenance c n id v → hi_status v = STokenReceived →
  ∃ m j tr tok, m < n ∧ token_call_for c j id ∧ made c m j (HX (EToken tr (Some tok))) ∧
    trs_access_token (hi_token v) = trs_access_token tok ∧
    is_credential_issuer (hi_issuer v) = tr_credential_issuer tr ∧
    Some (hi_client_id v) = tr_client_id tr ∧
    trs_authorization_details (hi_token v) = trs_authorization_details tok.
Proof.
  intros (_ & _ & _ & _ & H) Hs. destruct (H Hs) as (m & Hlt & j & q & tr & tok & Hq & Hm & Hk & E1 & E2 & E3 & E4).
  exists m, j, tr, tok. split_and!; try done.
  destruct Hk as [->|(z & -> & Hz)]; [by left|right]. exists z. split; [done|].
  destruct Hz as [Hz|(n1 & r' & iss & Hs1 & Hq1 & Hi & _)]; [by left|right].
  pose proof (asked_inj _ _ _ _ Hq Hq1) as E. injection E as <-. split; [eauto 6|by exists n1].
Qed.
Lemma credential_request_made n i cq r : made c n i (HX (ECredential cq r)) →
  ∃ q m j tr tok, asked c i (HCredentials q) ∧ m < n ∧ token_call_for c j (hc_issuance_id q) ∧
    made c m j (HX (EToken tr (Some tok))) ∧ cr_access_token cq = trs_access_token tok ∧
    cr_credential_issuer cq = tr_credential_issuer tr.
Proof.
  intros Hm. destruct (made_says _ _ _ Hm) as (q & Hq & z & v & t & jwt & -> & Hg & Hst & Hsp & E1 & E2 & E3).
  pose proof (provenance_get _ Hr _ _ _ _ Hg) as Hp.
  destruct (provenance_token _ _ _ Hp Hst) as (m & j & tr & tok & Hlt & Hj & Ht & F1 & F2 & _).
  exists z, m, j, tr, tok. split_and!; congruence.
Qed.
Lemma deferred_request_made n i dq r : made c n i (HX (EDeferred dq r)) →
  ∃ id tx cfg m j tr tok, asked c i (HDeferred id tx cfg) ∧ m < n ∧ token_call_for c j id ∧
    made c m j (HX (EToken tr (Some tok))) ∧
    dq = DeferredRequest (tr_credential_issuer tr) (trs_access_token tok) tx.
Proof.
  intros Hm. destruct (made_says _ _ _ Hm) as (q & Hq & id & tx & cfg & v & -> & Hg & Hst & ->).
  pose proof (provenance_get _ Hr _ _ _ _ Hg) as Hp.
  destruct (provenance_token _ _ _ Hp Hst) as (m & j & tr & tok & Hlt & Hj & Ht & F1 & F2 & _).
  exists id, tx, cfg, m, j, tr, tok. split_and!; try done. by rewrite F1, F2.
Qed.

Lemma asks_on_offer o a details : asks_as_specified a details →
  (∀ l s, a = Some l → s ∈ l → as_configuration_id s ∈ of_configuration_ids o) → on_offer o details.
Proof.
  intros Hask Ha ds d -> Hd. destruct a as [l|]; [|done]. simpl in Hask.
  apply elem_of_list_lookup in Hd as [k Hk].
  destruct (Forall2_lookup_r _ _ _ _ _ Hask Hk) as (s & Hs & claims & Hc & _).
  unfold detail_id. rewrite Hc. eexists. split; [done|]. eapply Ha; [done|]. by eapply elem_of_list_lookup_2.
Qed.

Lemma saved_credentials_received n i cr b : made c n i (HX (ESave cr b)) →
  ∃ id j q m1 m2 resp, asked c i (HSave id) ∧ asked c j q ∧
    ((∃ r, q = HCredentials r ∧ hc_issuance_id r = id) ∨ ∃ tx cfg, q = HDeferred id tx cfg) ∧
    m1 < n ∧ made c m1 j (HX (EVerifyVc (wc_issued cr) (Some (wc_vc cr, wc_issuance_date cr)))) ∧
    m2 < n ∧ ((∃ cq, made c m2 j (HX (ECredential cq (Some resp)))) ∨ ∃ dq, made c m2 j (HX (EDeferred dq (Some resp)))) ∧
    contains_token resp (wc_issued cr).
Proof.
  intros Hm. destruct (made_says _ _ _ Hm) as (q & Hq & id & v & -> & Hg & Hin).
  destruct (provenance_get _ Hr _ _ _ _ Hg) as (_ & _ & Hrec & _).
  destruct (proj1 (Forall_forall _ _) Hrec _ Hin) as (j & q' & m1 & m2 & resp & ?). exists id, j, q', m1, m2, resp. done.
Qed.

Lemma never_notified n i q e b : ¬ made c n i (HX (ENotify q e b)).
Proof.
  intros Hm. destruct (made_says _ _ _ Hm) as (q' & Hq & id & v & x & Hg & Hn).
  destruct (provenance_get _ Hr _ _ _ _ Hg) as (_ & Hno & _). congruence.
Qed.

Lemma proof_claims_made n i pc r : made c n i (HX (ESignProof pc r)) →
  ∃ q, asked c i (HCredentials q) ∧
    ((∃ n1 i1 cl sb o, n1 < n ∧ asked c i1 (HOffer cl sb o) ∧ saved c n1 i1 (hc_issuance_id q) ∧
        pc_iss pc = Some cl ∧ pc_aud pc = of_credential_issuer o) ∨
     (∃ n1 i1 z cl iss sc sb, n1 < n ∧ asked c i1 (HAuthorize z) ∧ hz_initiator z = ByWallet cl iss sc sb ∧
        saved c n1 i1 (hc_issuance_id q) ∧ pc_iss pc = Some cl ∧ pc_aud pc = "")) ∧
    ∀ nonce, pc_nonce pc = Some nonce → ∃ m j, m < n ∧
      ((∃ tr tok, made c m j (HX (EToken tr (Some tok))) ∧ trs_c_nonce tok = Some nonce ∧
          token_call_for c j (hc_issuance_id q)) ∨
       (∃ q' cq resp, asked c j (HCredentials q') ∧ hc_issuance_id q' = hc_issuance_id q ∧
          made c m j (HX (ECredential cq (Some resp))) ∧ wr_c_nonce resp = Some nonce)).
Proof.
  intros Hm. destruct (made_says _ _ _ Hm) as (q & Hq & z & v & t & -> & Hg & Hst & ->). exists z. split; [done|].
  split.
  - destruct (provenance_get _ Hr _ _ _ _ Hg) as (_ & _ & _ & [Ho|Ho] & _).
    + right. destruct Ho as (n1 & i1 & Hlt & (r' & iss & Hs & Hq' & Hi & _ & Hof) & _).
      exists n1, i1, r', (hi_client_id v), iss, (hi_scope v), (hi_subject_id v). simpl. rewrite Hof. done.
    + left. destruct Ho as (n1 & Hlt & (i1 & Hs & Hq' & _) & _).
      exists n1, i1, (hi_client_id v), (hi_subject_id v), (hi_offer v). done.
  - intros nonce Hn. exact (nonce_get _ Hr _ _ _ _ Hg nonce Hn).
Qed.

(** ** Presentations *)
Lemma create_vp_ok u h d l v : create_vp u h d l = Ok v →
  vp_holder v = Some h ∧ vp_id v = Some ("urn:uuid:" +:+ u) ∧
  default [] (vp_credential v) = map (λ x, KString (wc_issued x)) l.
Proof.
  unfold create_vp.
  set (b0 := vpb_holder h _).
  assert (vp_holder b0 = Some h ∧ vp_id b0 = Some ("urn:uuid:" +:+ u) ∧ vp_credential b0 = None) as Hb0 by done.
  clearbody b0.
  set (b1 := fold_left (λ b t, vpb_add_type t b) (definition_consts d) b0).
  assert (vp_holder b1 = Some h ∧ vp_id b1 = Some ("urn:uuid:" +:+ u) ∧ vp_credential b1 = None) as Hb1.
  { unfold b1. clear b1. revert b0 Hb0. induction (definition_consts d) as [|x l' IH]; intros b0 Hb0; simpl; [done|]. by apply IH. }
  clearbody b1. clear Hb0 b0.
  set (b2 := fold_left _ l b1).
  assert (vp_holder b2 = Some h ∧ vp_id b2 = Some ("urn:uuid:" +:+ u) ∧
          default [] (vp_credential b2) = default [] (vp_credential b1) ++ map (λ x, KString (wc_issued x)) l) as Hb2.
  { unfold b2. clear b2. destruct Hb1 as (Hh & Hi & _). revert b1 Hh Hi.
    induction l as [|x l' IH]; intros b1 Hh Hi; simpl; [by rewrite app_nil_r|].
    destruct (IH (vpb_add_credential (KString (wc_issued x)) b1)) as (E1 & E2 & E3); [done..|].
    split; [done|]. split; [done|]. rewrite E3. unfold vpb_add_credential. simpl.
    destruct (vp_credential b1); simpl; rewrite <-?app_assoc; done. }
  destruct Hb1 as (_ & _ & Hn). rewrite Hn in Hb2. simpl in Hb2. clearbody b2.
  unfold vpb_build. destruct (Nat.ltb _ _); [done|]. destruct (vp_type b2); [done|]. intros [= <-]. done.
Qed.
Lemma trim_end_without ch s : without_trailing ch s (trim_end ch s).
Proof.
  induction s as [|a s [[n IH1] IH2]]; simpl.
  - split; [by exists 0|]. by intros [|].
  - destruct (trim_end ch s) as [|b t] eqn:E.
    + rewrite append_nil in IH1. destruct (Ascii.eqb_spec a ch) as [->|Hne].
      * split; [exists (S n); simpl; rewrite append_nil; by f_equal|]. by intros [|].
      * split; [exists n; rewrite append_cons, append_nil; by f_equal|].
        intros [|? [|]]; rewrite ?append_cons, ?append_nil; congruence.
    + split; [exists n; rewrite append_cons; by f_equal|].
      intros [|x p']; rewrite ?append_cons, ?append_nil; [congruence|]. intros [= -> Ht]. by apply (IH2 p').
Qed.
Lemma presentation_sent n i uri rr x : made c n i (HX (EPresent uri rr x)) →
  ∃ id n1 i1 n2 i2 url req creds d x0 rest,
    asked c i (HPresent id) ∧ n1 < n2 < n ∧ asked c i1 (HRequest url) ∧ saved c n1 i1 id ∧
    asked c i2 (HConsent id) ∧ saved c n2 i2 id ∧
    vo_definition req = KObject d ∧ pd_input_descriptors d = x0 :: rest ∧
    (∃ m, m < n1 ∧ (made c m i1 (HX (EParseRequest url (Some req))) ∨
                    ∃ jwt, made c m i1 (HX (EDecodeRequest jwt (Some req))))) ∧
    (∃ m, m < n1 ∧ made c m i1 (HX (EFind (id_constraints x0) (Some creds)))) ∧
    match vo_response_uri req with
    | Some u => ∃ u', uri = Some u' ∧ without_trailing "/" u u'
    | None => uri = None
    end ∧
    ∃ m jwt claims kid m', m < n ∧ made c m i (HX (ESignVp claims (Some jwt))) ∧
      m' < n ∧ made c m' i (HX (EKid kid)) ∧
      vpc_aud claims = vo_client_id req ∧ vpc_nonce claims = vo_nonce req ∧
      up_to "#" kid (vpc_iss claims) ∧ vp_holder (vpc_vp claims) = Some (vpc_iss claims) ∧
      default [] (vp_credential (vpc_vp claims)) = map (λ cr, KString (wc_issued cr)) creds ∧
      rq_vp_token rr = Some [KString jwt] ∧ rq_state rr = vo_state req ∧
      ∃ sub, rq_submission rr = Some sub ∧ pb_definition_id sub = pd_id d ∧
        map dm_id (pb_descriptor_map sub) = map id_id (pd_input_descriptors d).
Proof.
  intros Hm. destruct (made_says _ _ _ Hm) as (q & Hq & id & -> & Hs).
  destruct Hs as (p & d & u1 & kid & u2 & v & t1 & t2 & t3 & jwt & Hg & Hst & Hd & Hkid & Hvp & Hsign & Huri & ->).
  destruct (pprovenance_get _ Hr _ _ _ _ Hg) as (_ & n1 & Hlt & (i1 & url & Hs1 & Hq1 & Hf & Hfind & Hreq) & Hc).
  rewrite Hst in Hc. destruct Hc as (n2 & i2 & Hlt2 & Hs2 & Hq2).
  unfold build_filter in Hf. rewrite Hd in Hf. destruct (pd_input_descriptors d) as [|x0 rest] eqn:Hds; [done|].
  injection Hf as Hf.
  apply past_made in Hkid as (m' & Hm' & Hkid). apply past_made in Hsign as (m & Hm0 & Hsign).
  apply create_vp_ok in Hvp as (Hh & Hid & Hcr).
  exists id, n1, i1, n2, i2, url, (hp_request p), (hp_credentials p), d, x0, rest.
  do 8 (split; [done|]). split; [done|]. split; [by rewrite Hf|].
  split; [rewrite Huri; destruct (vo_response_uri (hp_request p)); simpl; [eexists; split; [done|apply trim_end_without]|done]|].
  eexists m, jwt, _, kid, m'. split; [done|]. split; [exact Hsign|]. simpl. rewrite Hh.
  do 4 (split; [done|]). split; [apply before_char_up_to|]. do 4 (split; [done|]). eexists. split; [done|]. simpl. split; [done|].
  rewrite map_map. by rewrite Hds.
Qed.

(** ** No panics with complete metadata *)
Lemma no_panic :
  (∀ n i iss s, made c n i (HX (EServer iss (Some s))) →
     sv_response_types_supported s ≠ [] ∧ sv_code_challenge_methods_supported s ≠ Some []) →
  (∀ n i iss md id cfg, made c n i (HX (EMetadata iss (Some md))) → (id, cfg) ∈ is_configurations md →
     cc_display cfg ≠ Some []) →
  ∀ i q w, ¬ answered c i q (Panic w).
Proof.
  intros Hs Hd i q w Ha. apply (reachable_path _ _ _ _ _ _ Hr) in Ha.
  apply handler_panics in Ha. rewrite <-(firstn_all log) in Ha.
  assert (∀ n id v, provenance c n id v → ∃ m1 m2 j iss, made c m1 j (HX (EMetadata iss (Some (hi_issuer v)))) ∧
    made c m2 j (HX (EServer iss (Some (hi_server v))))) as Hprov.
  { intros n id v (_ & _ & _ & [Ho|Ho] & _).
    - destruct Ho as (n1 & i1 & _ & (r' & iss & _ & _ & _ & (m1 & m2 & _ & ? & _ & ?) & _) & _). by exists m1, m2, i1, iss.
    - destruct Ho as (n1 & _ & (i1 & _ & _ & (m1 & m2 & _ & ? & _ & ?) & _) & _). eexists m1, m2, i1, _. done. }
  destruct Ha as [(s & Hsrc & Hpoor)|(k & v & Hg & id & cfg & Hin & He)].
  - assert (∃ n i iss, made c n i (HX (EServer iss (Some s)))) as (n & i' & iss & Hm).
    { destruct Hsrc as [(k & v & Hg & <-)|(iss & Hsv)].
      - apply (provenance_get _ Hr) in Hg. destruct (Hprov _ _ _ Hg) as (m1 & m2 & j & iss & _ & Hm). by exists m2, j, iss.
      - apply past_made in Hsv as (m & _ & Hm). by exists m, i, iss. }
    destruct (Hs _ _ _ _ Hm) as [E1 E2]. by destruct Hpoor.
  - apply (provenance_get _ Hr) in Hg. destruct (Hprov _ _ _ Hg) as (m1 & m2 & j & iss & Hm & _). by eapply Hd.
Qed.

(** ** Failing calls *)
Lemma failed_call i q o : answered c i q o → (∀ a, o ≠ Ok a) →
  ∀ n e eff, log !! n = Some (Entry i e eff) → wrote e = true →
    ∃ cl sb of id v x m, q = HOffer cl sb of ∧ e = HPut id v x true ∧ m < n ∧ made c m i (HX (EUuid id)).
Proof.
  intros Ha Ho n e eff Hn Hw. pose proof (reachable_path _ _ _ _ _ _ Hr Ha) as Hrun.
  assert (e ∈ calls_of i log) as Hin.
  { apply calls_of_elem. exists (Entry i e eff). split; [by eapply elem_of_list_lookup_2|done]. }
  assert ((∃ cl sb of, q = HOffer cl sb of) ∨ ∀ cl sb o, q ≠ HOffer cl sb o) as [(cl & sb & of & ->)|Hq].
  { destruct q; try (by right). left. eauto. }
  - destruct (say_pos _ Hr _ _ _ _ Hn) as (q & [p Hq] & Hs). unfold answered in Ha.
    assert (q = HOffer cl sb of) as -> by congruence.
    destruct e as [k r|k v x b|k b|x]; simpl in Hw; try done.
    + subst b. destruct v as [v|v]; destruct Hs as [_ Hs]; [|done]. destruct Hs as (md & srv & Hu & _).
      apply past_made in Hu as (m & ? & Hu). by exists cl, sb, of, k, (HSIssuance v), x, m.
    + exfalso. destruct Hs as (i0 & id & _ & [[[?|?] _]|[(? & ? & ?) _]]); done.
  - rewrite (failed_unwritten _ _ _ Hrun Hq Ho e Hin) in Hw. done.
Qed.
End props.

Lemma token_asks_accepted (c : hconfig) n i tr r id : hreach c →
  asked c i (HToken id) → made c n i (HX (EToken tr r)) →
  ∃ cl sb o md a n2, offer_accepted c n id cl sb o md a n2 ∧ asks_as_specified a (tr_authorization_details tr) ∧
    ((∀ l s, a = Some l → s ∈ l → as_configuration_id s ∈ of_configuration_ids o) →
     on_offer o (tr_authorization_details tr)).
Proof.
  intros Hr Hq Hm. destruct (token_request_made c Hr _ _ _ _ Hm) as [H|(z & Hz & _)].
  - destruct H as (id' & cl & sb & o & md & a & n2 & gr & g & pin & Hq' & Ho & _ & _ & _ & _ & Hask & _).
    pose proof (asked_inj _ _ _ _ Hq Hq') as E. injection E as <-.
    exists cl, sb, o, md, a, n2. split; [done|]. split; [done|]. by apply asks_on_offer.
  - pose proof (asked_inj _ _ _ _ Hq Hz) as E. discriminate E.
Qed.
Lemma authorization_asks_offer (c : hconfig) n i req r z id : hreach c →
  asked c i (HAuthorize z) → hz_initiator z = ByIssuer id → hz_details z = None →
  made c n i (HX (EAuthorization req r)) →
  ∃ cl sb o md a n2 ds, offer_accepted c n id cl sb o md a n2 ∧ ro_authorization_details req = Some ds ∧
    map detail_id ds = map Some (of_configuration_ids o).
Proof.
  intros Hr Hq Hi Hd Hm. destruct (authorization_request_made c Hr _ _ _ _ Hm) as (z' & m & ver & Hq' & _ & _ & _ & _ & H).
  pose proof (asked_inj _ _ _ _ Hq Hq') as E. injection E as <-. rewrite Hi, Hd in H.
  destruct H as (cl & sb & o & md & a & n2 & Ho & _ & _ & _ & _ & _ & _ & _ & ds & Hds & Hmap).
  exists cl, sb, o, md, a, n2, ds. done.
Qed.
Lemma max_utc_end : max_utc = end_of_time.
Proof. vm_compute. reflexivity. Qed.
Lemma kept_for_good (c : hconfig) n i k v x b : hreach c → made c n i (HPut k v x b) → x = end_of_time.
Proof.
  intros Hr Hm. destruct (made_says c Hr _ _ _ Hm) as (q & _ & H). rewrite <-max_utc_end.
  destruct v; cbn [hsays] in H; exact (proj1 H).
Qed.
Lemma credentials_kept r es resp : runs (h_credentials r) es (Ok resp) →
  ∃ i v, HGet (hc_issuance_id r) (Some (HSIssuance i)) ∈ es ∧
    HPut (hi_id i) (HSIssuance v) end_of_time true ∈ es ∧ hi_id v = hi_id i ∧
    map (λ c, KString (wc_issued c)) (hi_credentials v) =
      map (λ c, KString (wc_issued c)) (hi_credentials i) ++ concat (map credentials_in (responses es)) ∧
    (∀ a tx, a ∈ responses es → wr_response a = WRTransactionId tx → is_Some (assoc tx (hi_deferred v))) ∧
    (∀ tx, is_Some (assoc tx (hi_deferred i)) → is_Some (assoc tx (hi_deferred v))) ∧
    (hi_scope i = None → ∃ ds, trs_authorization_details (hi_token i) = Some ds ∧
       identifiers_asked es = wanted_identifiers r ds) ∧
    resp = CredentialsResponse (hi_id i) (match hi_deferred v with [] => None | l => Some l end).
Proof.
  intros H. destruct (credentials_stores _ _ _ H) as (i & v & E1 & E2 & E3 & E4 & E5 & E6 & E7 & E8).
  rewrite max_utc_end in E2. exists i, v. do 4 (split; [assumption|]). split; [|done].
  intros a tx Ha Hw. pose proof (proj1 (Forall_forall _ _) E5 a Ha) as Hk. unfold kept in Hk. by rewrite Hw in Hk.
Qed.
Lemma save_failed id es o : runs (h_save id) es o → (∀ r, o ≠ Ok r) →
  HPurge id true ∉ es ∧ (stored_credentials es = [] ∨
    ∃ i, HGet id (Some (HSIssuance i)) ∈ es ∧ stored_credentials es `prefix_of` hi_credentials i).
Proof. intros H Ho. pose proof (save_stores _ _ _ H) as Hs. destruct o as [r| |]; [by destruct (Ho r)|done..]. Qed.

Lemma pkce_answered (c : hconfig) n i tr r code ru v : hreach c →
  made c n i (HX (EToken tr r)) → tr_grant tr = TGAuthorizationCode code ru v →
  ∃ m m' req resp verifier, m < n ∧ made c m i (HX (EAuthorization req (Some resp))) ∧
    m' < n ∧ made c m' i (HX (EVerifier verifier)) ∧ v = Some verifier ∧
    ro_code_challenge req = code_challenge verifier ∧ code = ar_code resp ∧ ru = ro_redirect_uri req ∧
    tr_credential_issuer tr = ro_credential_issuer req ∧ tr_client_id tr = Some (ro_client_id req).
Proof.
  intros Hr Hm Hg. destruct (token_request_made c Hr _ _ _ _ Hm) as [H|(z & Hz & _ & H & _)].
  - destruct H as (id' & cl & sb & o & md & a & n2 & gr & g & pin & Hq' & Ho & _ & _ & _ & E & _). rewrite E in Hg. done.
  - destruct H as (m & m' & req & resp & ver & ? & ? & ? & ? & ? & E & ? & ? & G). rewrite Hg in G. injection G as -> -> ->.
    exists m, m', req, resp, ver. by rewrite E.
Qed.

(** ** Notifications *)
Lemma save_all_told i l h (Q : hhist → outcome string unit → Prop) :
  (∀ h', stored_credentials h' = l → Q (h ++ h') (Ok tt)) → (∀ h' e, Q h' (Err e)) →
  wp (λ _ _, True) Q (save_all i l) h.
Proof.
  revert h Q. induction l as [|x l IH]; intros h Q E1 E2; cbn [save_all].
  { apply hwp_ok. rewrite <-(app_nil_r h). by apply E1. }
  hwp; cbn [hans] in *; try apply E2. subst r. apply IH; [|done].
  intros h' Hs. rewrite <-app_assoc. apply E1. simpl. by rewrite Hs.
Qed.
Definition told_post (id : string) (es : hhist) (o : outcome string string) : Prop :=
  ∀ r, o = Ok r → ∃ i, HGet id (Some (HSIssuance i)) ∈ es ∧
    ∀ n, hi_notification_id i = Some n →
      ∃ h h', es = h ++ HX (ENotify (NotificationRequest (is_credential_issuer (hi_issuer i))
        (trs_access_token (hi_token i)) n) CredentialAccepted true) :: h' ∧ stored_credentials h = hi_credentials i.
Lemma save_told id es r : runs (h_save id) es (Ok r) → ∃ i, HGet id (Some (HSIssuance i)) ∈ es ∧
    ∀ n, hi_notification_id i = Some n →
      ∃ h h', es = h ++ HX (ENotify (NotificationRequest (is_credential_issuer (hi_issuer i))
        (trs_access_token (hi_token i)) n) CredentialAccepted true) :: h' ∧ stored_credentials h = hi_credentials i.
Proof.
  intros H. assert (wp (λ _ _, True) (told_post id) (h_save id) []) as Hw; [|exact (wp_runs _ _ _ _ _ _ Hw H r eq_refl)].
  unfold h_save. hwp; try (by intros ? ?).
  apply save_all_told; unfold bindQ; [|intros; by intros ? ?]. intros h1 Hs. unfold notify.
  destruct (hi_notification_id i) as [n|] eqn:Hn.
  - apply wp_bind. hwp; cbn [hans] in *; try (by intros ? ?); subst r0.
    all: intros ? _; exists i; split; [set_solver|]; rewrite Hn; intros n' [= <-]; eexists (([] ++ [_]) ++ h1), _.
    + split; [rewrite <-!app_assoc; simpl; reflexivity|]. exact Hs.
    + split; [rewrite <-!app_assoc; simpl; reflexivity|]. exact Hs.
  - hwp; try (by intros ? ?).
    all: intros ? _; exists i; split; [set_solver|]; by rewrite Hn.
Qed.
