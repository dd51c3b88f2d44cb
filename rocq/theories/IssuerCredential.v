(** Lemmas behind the credential properties. *)
From Verif Require Import Base StringSpec Json CoreModel VcModel Prog ProgFacts ExecSpec ExecFacts IssuerTypes
  ClaimsModel Sha256 IssuerModel IssuerSpec IssuerFacts IssuerWp IssuerExec IssuerOffer IssuerToken
  IssuerExpiry.

(** ** What is released, on every path *)

Definition norel {A} (p : prog ISig A) : Prop :=
  ∀ h, wp (λ _ e, releases e = false) (λ _ _, True) p h.

Lemma wp_norel {A} (Φ : ihist → ievent → Prop) (p : prog ISig A) (Q : ihist → A → Prop) h :
  (∀ h e, releases e = false → Φ h e) → norel p →
  (∀ es a, runs p es a → Q (h ++ es) a) → wp Φ Q p h.
Proof.
  intros HΦ Hn HQ. apply wp_intro; [|done]. intros es1 e es2 q Hp. apply HΦ.
  apply (wp_event _ _ _ _ [] es1 e es2 (Hn []) Hp).
Qed.
Lemma wp_norel' {A} (Φ : ihist → ievent → Prop) (p : prog ISig A) (Q : ihist → A → Prop) h :
  (∀ h, wp (λ _ _, False) (λ _ _, True) p h) →
  (∀ es a, runs p es a → Q (h ++ es) a) → wp Φ Q p h.
Proof.
  intros Hn HQ. apply wp_intro; [|done]. intros es1 e es2 q Hp.
  by apply (wp_event _ _ _ _ [] es1 e es2 (Hn [])) in Hp.
Qed.
Lemma norel_bind {A B} (m : iprog A) (f : A → iprog B) :
  norel m → (∀ a, norel (f a)) → norel (bind m f).
Proof.
  intros H1 H2 h. apply wp_bind. eapply wp_call_lemma; [apply H1|].
  intros h' [a|e|w] _; unfold bindQ; [apply H2|done..].
Qed.
Lemma norel_reject {A} st hint : norel (@reject_proof A st hint).
Proof. intros h. unfold reject_proof, invalid_proof. iwp. Qed.
Lemma norel_verify_proofs st nonce jwts did : norel (verify_proofs st nonce jwts did).
Proof.
  revert did. induction jwts as [|jwt jwts IH]; intros did; cbn [verify_proofs]; [intros h; by iwp|].
  apply norel_bind; [intros h; by iwp|]. intros [p|]; [|apply norel_reject].
  destruct (negb _); [apply norel_reject|]. destruct (negb _); [apply norel_reject|].
  destruct (pj_kid p); [apply IH|apply norel_reject].
Qed.
Lemma norel_credential_verify st cfg r : norel (credential_verify st cfg r).
Proof.
  unfold credential_verify. do 2 (apply norel_bind; [intros h; by iwp|intros ?]).
  destruct (s_stage st); try (intros h; by iwp).
  do 2 (apply norel_bind; [intros h; by iwp|intros ?]).
  destruct (cc_proof_types cfg); [|intros h; by iwp]. destruct (cr_proof r); [|apply norel_reject].
  apply norel_bind; [intros h; by iwp|intros ?]. apply norel_verify_proofs.
Qed.
Lemma norel_credential_authorized st iss r : norel (credential_authorized st iss r).
Proof.
  unfold credential_authorized. destruct (s_stage st); try (intros h; by iwp).
  apply norel_bind; [|intros a h; by iwp]. destruct (cr_credential r); [intros h; by iwp|].
  apply norel_bind; [intros h; by iwp|]. intros cid.
  apply norel_bind; [intros h; unfold iterate; by iwp|]. intros l h. by iwp.
Qed.

Lemma find_authorized_elem cid l a :
  find_authorized cid l = Some a → au_configuration_id a = cid ∧ ∃ id, (id, a) ∈ l.
Proof.
  induction l as [|[id b] l IH]; simpl; [done|]. case_bool_decide as Hb; intros H.
  - injection H as <-. split; [done|]. exists id. left.
  - apply IH in H as (? & id' & ?). split; [done|]. exists id'. by right.
Qed.
Lemma find_configuration_elem f l cid :
  find_configuration f l = Some cid → ∃ cfg, (cid, cfg) ∈ l ∧ same_format (cc_format cfg) f.
Proof.
  induction l as [|[id c] l IH]; simpl; [done|]. destruct (format_eqb (cc_format c) f) eqn:E; intros H.
  - injection H as <-. exists c. split; [left|]. by apply format_eqb_spec.
  - apply IH in H as (cfg & ? & ?). exists cfg. split; [by right|done].
Qed.
Lemma selected_chosen iss tok c es auth : credential_selected iss tok c es auth → chosen iss tok c auth.
Proof.
  unfold credential_selected, chosen. destruct c as [id|f]; [by intros [_ ?]|].
  intros (cid & ix & Hc & _ & Hf). apply find_authorized_elem in Hf as (<- & id & Hin).
  split.
  - exists id. by rewrite permute_perm in Hin.
  - unfold configuration_id_for in Hc. by apply find_configuration_elem in Hc.
Qed.

Lemma proof_evs_accepted h nonce jwts es :
  Forall2 (proof_ev nonce) jwts es → (∀ e, e ∈ es → e ∈ h) →
  ∃ kids, Forall2 (proof_accepted h nonce) jwts kids ∧
    let did := default "" (ev_did <$> last es) in
    match last kids with Some kid => up_to "#" kid did | None => did = "" end.
Proof.
  intros Hf. induction Hf as [|jwt e jwts es (p & kid & -> & Ht & Hn & Hk) Hf IH]; intros Hin.
  { exists []. by split. }
  destruct IH as (kids & H1 & H2); [intros; apply Hin; by right|]. exists (kid :: kids). split.
  - constructor; [|done]. exists p. split; [apply Hin; left|]. done.
  - rewrite !last_cons. revert H2. destruct (last es) eqn:E1, (last kids) eqn:E2; simpl; try done.
    + apply last_None in E2 as ->. inversion H1; subst. by inversion Hf; subst.
    + apply last_None in E1 as ->. inversion Hf; subst. by inversion H1; subst.
    + intros _. rewrite Hk. apply before_char_up_to.
Qed.
Lemma checked_possession cfg tok proof es did h :
  proof_checked cfg tok proof es did → (∀ e, e ∈ es → e ∈ h) →
  possession cfg (tk_c_nonce tok) proof h did.
Proof.
  unfold proof_checked, possession. intros H Hin. destruct (cc_proof_types cfg); [|tauto].
  destruct H as (Hj & pr & -> & Hf & ->). split; [done|].
  destruct (proof_evs_accepted h _ _ _ Hf Hin) as (kids & H1 & H2). exists pr, kids.
  split; [done|]. split; [by destruct pr|]. done.
Qed.

Lemma possession_mono cfg nonce proof h h' did :
  (∀ e, e ∈ h → e ∈ h') → possession cfg nonce proof h did → possession cfg nonce proof h' did.
Proof.
  unfold possession. intros Hin. destruct (cc_proof_types cfg); [|done].
  intros (Hj & p & kids & -> & Hf & Hd). split; [done|]. exists p, kids. split; [done|].
  split; [|done]. eapply Forall2_impl; [done|]. intros jwt kid (q & Hq & ?). exists q. auto.
Qed.
Lemma entitled_app r h h' st tok iss auth cfg did :
  entitled r h st tok iss auth cfg did → entitled r (h ++ h') st tok iss auth cfg did.
Proof.
  intros []. constructor; try done; try by apply read_then_app_r.
  - apply elem_of_app. by left.
  - eapply possession_mono; [|done]. intros e He. apply elem_of_app. by left.
Qed.

Lemma retain_claims_filter ids l : retain_claims ids l = filter (λ p, p.1 ∈ ids) l.
Proof.
  unfold retain_claims, contains. induction l as [|p l IH]; simpl; [done|].
  case_bool_decide as H.
  - by rewrite IH, filter_cons_True.
  - by rewrite IH, filter_cons_False.
Qed.
Lemma narrow_restrict auth c claims :
  narrow auth c claims = restrict (named c) (restrict (au_claim_ids auth) claims).
Proof.
  unfold narrow, restrict, named. destruct (au_claim_ids auth), c as [id|f]; simpl;
    rewrite ?retain_claims_filter; try done; destruct (format_claims f); simpl;
    by rewrite ?retain_claims_filter.
Qed.

Lemma vcb_build_ok b v : vcb_build b = Ok v → v = b.
Proof. unfold vcb_build. repeat case_match; congruence. Qed.
Lemma vc_claims_one v t s vcl :
  vc_claims_from v t = @Ok error _ vcl → vc_subject v = QOne s →
  vcl = VcClaims (default "" (cs_id s)) None (match vc_issuer v with KString i => i | KObject i => i end)
          t (default "" (vc_id v)) (option_map timestamp (vc_valid_until v)) v.
Proof. unfold vc_claims_from. intros H Hs. rewrite Hs in H. congruence. Qed.
Lemma vc_for_signed iss cfg ctype did status claims v date vcl :
  vc_for iss cfg ctype did status claims = Ok v → vc_claims_from v (timestamp date) = @Ok error _ vcl →
  signed_claims (is_credential_issuer iss) did ctype status claims date vcl.
Proof.
  unfold vc_for. destruct (match cc_display cfg with Some l => create_names l | None => (None, None) end) as [n d].
  intros H%vcb_build_ok. subst v. intros H. apply vc_claims_one with (s := CredentialSubject (Some did) claims) in H;
    [|reflexivity]. subst vcl. constructor; reflexivity.
Qed.

(** [Φ] for releases: the request [r] is entitled to what this call releases. *)
Definition releasing (r : credential_request) (h : ihist) (e : ievent) : Prop :=
  ∃ st tok subj iss auth cfg did, entitled r h st tok iss auth cfg did ∧
    s_subject_id st = Some subj ∧ release_ok r h e subj iss auth cfg did.

Lemma credential_releases r :
  wp (λ h e, releases e = true → releasing r h e) (λ _ _, True) (credential r) [].
Proof.
  unfold credential. iwx st'. iwo st Hst. subst. iwx iss'. iwo iss Hiss. subst.
  apply wp_bind. apply wp_norel; [by intros ?? ->|apply norel_credential_authorized|].
  intros es_o [auth|e|w] Ha; unfold bindQ; [|done..].
  apply credential_authorized_ok in Ha as (tok & Htok & Hsel). apply selected_chosen in Hsel.
  iwo cfg Hcfg. apply wp_bind. apply wp_norel; [by intros ?? ->|apply norel_credential_verify|].
  intros es_v [did|e|w] Hv; unfold bindQ; [|done..].
  apply (credential_verify_ok _ tok) in Hv as (t1 & t2 & es_p & -> & Hexp & Hne & Hp); [|done].
  apply is_expired_false in Hexp. apply c_nonce_expired_false in Hne.
  match goal with |- wp _ _ _ ?h0 => set (h := h0) end.
  assert (h = Get (cr_access_token r) (Some st) :: (X (VIssuer (cr_credential_issuer r) (Some iss)) :: es_o) ++
    X (VNow t1) :: X (VNow t2) :: es_p) as Hh by (unfold h; by simplify_list_eq).
  clearbody h. assert (entitled r h st tok iss auth cfg did) as He.
  { constructor; try done.
    - rewrite Hh. by apply (read_then_intro [] (X (VIssuer _ _) :: es_o) _).
    - rewrite Hh. exists [], (X (VIssuer (cr_credential_issuer r) (Some iss)) :: es_o ++ [X (VNow t1)]), es_p, t2.
      split; [|done]. simpl. by rewrite <-app_assoc.
    - rewrite Hh. set_solver.
    - eapply checked_possession; [done|]. rewrite Hh. set_solver. }
  clear Hp Hh. unfold credential_process. apply wp_bind. unfold credential_dataset.
  iwo subj Hsubj. apply wp_bind. apply wp_xcall. cbn [ians imk]. intros ds'. split.
  { intros _. exists st, tok, subj, iss, auth, cfg, did. done. }
  unfold bindQ. iwo ds Hds. subst ds'. apply wp_ok. cbn [ds_pending].
  destruct (ds_pending ds) eqn:Hpend.
  - unfold defer_response. iwx txn. iwx t. apply wp_bind. iwp1; [|unfold bindQ; by iwp..].
    intros _. exists st, tok, subj, iss, auth, cfg, did. split; [by repeat apply entitled_app|].
    split; [done|]. cbn. exists ds, t. split_and!; try done; hin.
  - unfold issue_response. iwx date. iwx sg. iwe Hsg. apply wp_bind.
    apply (wp_call_lemma _ _ (λ _ _, True)).
    2:{ intros h' [resp|e|w] _; unfold bindQ; [|done..]. rewrite Htok. by iwp. }
    destruct (cc_format cfg) as [def| | | |] eqn:Hf; try by iwp.
    + unfold w3c_vc. apply wp_bind. iwo types Htypes. iwo ctype Hctype. iwo subj' Hsubj'.
      rewrite Hsubj in Hsubj'. injection Hsubj' as <-. iwx status'. iwo status Hstatus. subst status'.
      destruct (match cc_display cfg with Some l => create_names l | None => (None, None) end) as [n d] eqn:Hd.
      destruct (vcb_build _) as [v| |] eqn:Hb; [|by iwp..]. apply wp_ok. unfold jwt_vc_json, bindQ.
      assert (vc_for iss cfg ctype did status (narrow auth (cr_credential r) (ds_claims ds)) = Ok v) as Hvc.
      { unfold vc_for. rewrite Hd. exact Hb. }
      apply wp_bind, wp_lift. destruct (vc_claims_from v (timestamp date)) as [vcl|e|w] eqn:Hvcl; unfold bindQ; [|done..].
      apply wp_bind, wp_xcall. intros jwt. split; [|cbn [ians] in jwt; unfold bindQ; by iwp].
      cbn [imk]. intros _. exists st, tok, subj, iss, auth, cfg, did. split; [by repeat apply entitled_app|].
      split; [done|]. cbn. exists def, types, ctype, ds, status, date.
      split_and!; try done; try hin. rewrite <-narrow_restrict. by eapply vc_for_signed.
    + unfold mso_mdoc. apply wp_bind, wp_xcall. intros mdl. split; [|cbn [ians] in mdl; unfold bindQ; by iwp].
      cbn [imk]. intros _. exists st, tok, subj, iss, auth, cfg, did. split; [by repeat apply entitled_app|].
      split; [done|]. cbn. eexists _, _, ds. split; [done|]. split; [hin|]. split; [done|]. split; [done|].
      by rewrite <-narrow_restrict.
Qed.

(** Which endpoints release anything. *)
Lemma norel_mapM {A B} (f : A → iprog B) l : (∀ a, norel (f a)) → norel (mapM_prog f l).
Proof.
  intros Hf h. apply (wp_mapM _ _ _ (λ _ _ _, True)); [done| |done].
  intros a dn bs h' _. eapply wp_call_lemma; [apply Hf|]. by intros h'' [].
Qed.
Lemma norel_iterate {A} (l : list A) : norel (iterate l).
Proof. intros h. unfold iterate. by iwp. Qed.
Lemma norel_authorize_items {A} subj (mk : A → item_type) l : norel (authorize_items subj mk l).
Proof. apply norel_mapM. intros p h. by iwp. Qed.
Lemma norel_verify_authorization_details iss l acc : norel (verify_authorization_details iss l acc).
Proof.
  revert acc. induction l as [|d l IH]; intros acc; cbn [verify_authorization_details].
  { intros h. by iwp. }
  apply norel_bind; [intros h; by iwp|]. intros [config_id claims].
  apply norel_bind; [intros h; by iwp|]. intros _. apply IH.
Qed.
Lemma norel_authorize_verify iss is_par r : norel (authorize_verify iss is_par r).
Proof.
  unfold authorize_verify. repeat (apply norel_bind; [intros h; unfold check_scopes, verify_scope; try by iwp|intros ?]).
  - destruct (ro_authorization_details r); [apply norel_verify_authorization_details|by iwp].
  - intros h. by iwp.
Qed.
Lemma norel_create_offer r : norel (create_offer r).
Proof.
  unfold create_offer. do 4 (apply norel_bind; [intros h; by iwp|intros ?]).
  apply norel_bind; [intros h; unfold create_offer_verify; by iwp|intros ?].
  unfold create_offer_process. apply norel_bind; [intros h; unfold make_credential_offer; by iwp|intros ?].
  apply norel_bind; [intros h; by iwp|intros ?]. apply norel_bind; [|intros ? h; by iwp].
  destruct (_ || _); [|intros h; by iwp]. apply norel_bind.
  { destruct (contains _ _); [|intros h; by iwp]. apply norel_bind; [|intros ? h; by iwp].
    apply norel_mapM. intros c h. by iwp. }
  intros ? h. unfold state_key. by iwp.
Qed.
Lemma norel_credential_offer r : norel (credential_offer_endpoint r).
Proof. intros h. unfold credential_offer_endpoint. by iwp. Qed.
Lemma norel_authorize a : norel (authorize a).
Proof.
  unfold authorize. apply norel_bind; [intros h; by iwp|]. intros [is_par r].
  do 2 (apply norel_bind; [intros h; by iwp|intros ?]).
  apply norel_bind; [apply norel_authorize_verify|intros ctx]. unfold authorize_process.
  apply norel_bind; [apply norel_iterate|intros ?]. apply norel_bind; [apply norel_authorize_items|intros ?].
  apply norel_bind; [apply norel_iterate|intros ?]. apply norel_bind; [apply norel_authorize_items|intros ?].
  intros h. by iwp.
Qed.
Lemma norel_par r : norel (par r).
Proof.
  unfold par. do 2 (apply norel_bind; [intros h; by iwp|intros ?]).
  apply norel_bind; [apply norel_authorize_verify|intros ctx]. intros h. unfold par_process. by iwp.
Qed.
Lemma norel_token r : norel (token r).
Proof.
  unfold token. do 3 (apply norel_bind; [intros h; by iwp|intros ?]).
  apply norel_bind; [unfold token_verify, check_scopes; intros h; by iwp|intros ?].
  unfold token_process. apply norel_bind; [|intros ? h; by iwp].
  destruct (tr_grant r), (s_stage _); try (intros h; by iwp).
  apply norel_bind; [intros h; by iwp|intros ?]. unfold retain_details.
  destruct (tr_authorization_details r); [|intros h; by iwp].
  do 2 (apply norel_bind; [intros h; by iwp|intros ?]).
  apply norel_mapM. intros d h. unfold token_verify_claims. by iwp.
Qed.

Lemma releases_source q p h e h' :
  path (ihandler q) (h ++ e :: h') p → releases e = true →
  ∃ r h0 h1, h = h0 ++ h1 ∧ credential_request_of q h0 r ∧ releasing r h1 e.
Proof.
  intros Hp Hrel.
  assert (wp (λ h e, releases e = true → ∃ r h0 h1, h = h0 ++ h1 ∧
    credential_request_of q h0 r ∧ releasing r h1 e) (λ _ _, True) (ihandler q) []) as Hwp.
  2:{ by apply (wp_event _ _ _ _ [] _ _ _ Hwp) in Hp; auto. }
  clear p h e h' Hp Hrel.
  assert (∀ p : iprog ireply, norel p → wp (λ h e, releases e = true → ∃ r h0 h1, h = h0 ++ h1 ∧
    credential_request_of q h0 r ∧ releasing r h1 e) (λ _ _, True) p []) as Hno.
  { intros p Hp. eapply wp_mono; [|done|apply Hp]. by intros h e ->. }
  assert (∀ r h0, credential_request_of q h0 r →
    wp (λ h e, releases e = true → ∃ r h0 h1, h = h0 ++ h1 ∧
    credential_request_of q h0 r ∧ releasing r h1 e) (λ _ _, True) (credential r) h0) as Hcr.
  { intros r h0 Hr. apply wp_intro; [|done]. intros es1 e es2 q' Hp Hrel.
    exists r, h0, es1. split; [done|]. split; [done|].
    by apply (wp_event _ _ _ _ [] es1 e es2 (credential_releases r)) in Hp; auto. }
  destruct q as [r|r|r|r|r|r|r|r|r|i|i s]; cbn [ihandler].
  - apply Hno, norel_bind; [apply norel_create_offer|intros ? h; by iwp].
  - apply Hno, norel_bind; [apply norel_credential_offer|intros ? h; by iwp].
  - apply Hno, norel_bind; [apply norel_authorize|intros ? h; by iwp].
  - apply Hno, norel_bind; [apply norel_par|intros ? h; by iwp].
  - apply Hno, norel_bind; [apply norel_token|intros ? h; by iwp].
  - apply wp_bind. eapply wp_call_lemma; [by apply Hcr|]. intros h [] _; unfold bindQ; by iwp.
  - apply wp_bind. unfold deferred. apply (wp_call_lemma _ _ (λ _ _, True)).
    2:{ intros h [] _; unfold bindQ; by iwp. }
    iwx st'. iwo st Hst. subst. iwx t. iwe He. destruct (s_stage st) as [| | | | | | |txn cr] eqn:Hs; try by iwp.
    apply wp_bind. iwp1; [done|unfold bindQ|done]. apply wp_bind.
    eapply wp_call_lemma; [apply Hcr|intros h [resp|e|w] _; unfold bindQ; by iwp].
    cbn [credential_request_of]. exists st, t, txn, cr. split; [done|]. split; [|done].
    apply is_expired_false. by destruct (is_expired st t).
  - apply Hno. intros h. unfold notification. by iwp.
  - apply Hno. intros h. unfold register. by iwp.
  - apply Hno. intros h. unfold metadata. by iwp.
  - apply Hno. intros h. unfold oauth_server. by iwp.
Qed.

(** ** Only what was authorized *)

Lemma wp_always {A} (Φ : ihist → ievent → Prop) (p : prog ISig A) h :
  (∀ h e, Φ h e) → wp Φ (λ _ _, True) p h.
Proof. intros H. apply wp_intro; auto. Qed.

Lemma offer_put_subject r p h k v x o h' :
  path (ihandler (QCreateOffer r)) (h ++ Put k v x o :: h') p →
  wants r PreAuthorizedCode = true → is_Some (co_subject_id r).
Proof.
  intros Hp Hw.
  assert (wp (λ _ e, is_put e = true → is_Some (co_subject_id r)) (λ _ _, True) (ihandler (QCreateOffer r)) []) as Hwp.
  2:{ by apply (wp_event _ _ _ _ [] _ _ _ Hwp) in Hp; auto. }
  clear Hp. cbn [ihandler]. apply wp_bind. unfold create_offer.
  apply (wp_call_lemma _ _ (λ _ _, True)); [|intros h2 [] _; unfold bindQ; by iwp].
  iwx iss'. iwo iss Hiss. iwx srv'. iwo srv Hsrv. subst. apply wp_bind. apply wp_norel'.
  { intros h2. unfold create_offer_verify. by iwp. }
  intros es [[]|e|w] Hv; unfold bindQ; [|done..]. apply create_offer_verify_ok in Hv as [_ Hv].
  apply wp_always. intros _ _ _. apply offer_validb_spec in Hv as (_ & _ & _ & Hv).
  apply wants_requested in Hw as (gs & Hgs & Hin). destruct (Hv gs Hgs) as [_ Hs].
  apply Hs in Hin. by destruct (co_subject_id r).
Qed.

(** The data was authorized: an earlier answer of the provider covers what the state, saved
    at position [n], lets its owner have. *)
Definition authorized_at (log : list (entry ISig)) (n : nat) (subject config : option string)
    (P : list string → Prop) : Prop :=
  ∃ s cfg m em ids, subject = Some s ∧ config = Some cfg ∧ m < n ∧ log !! m = Some em ∧
    e_ev em = X (VAuthorize s cfg (Some ids)) ∧ P ids.
Definition granted (log : list (entry ISig)) (n : nat) (v : state) : Prop :=
  match s_stage v with
  | Offered _ | StAuthorized _ => ∀ it, it ∈ stage_items (s_stage v) →
      authorized_at log n (s_subject_id v) (Some (ai_configuration_id it)) (eq (ai_identifiers it))
  | Validated tok => ∀ key a, (key, a) ∈ tk_credentials tok → key = au_identifier a ∧
      authorized_at log n (s_subject_id v) (Some (au_configuration_id a)) (elem_of key)
  | _ => True
  end.

Lemma authorized_at_mono log n n' s cfg (P P' : list string → Prop) :
  n ≤ n' → (∀ ids, P ids → P' ids) → authorized_at log n s cfg P → authorized_at log n' s cfg P'.
Proof.
  intros Hn HP (s' & cfg' & m & em & ids & ? & ? & ? & ? & ? & ?). exists s', cfg', m, em, ids.
  split_and!; try done; [lia|auto].
Qed.

Lemma assoc_elem {A} k (a : A) l : NoDup (keys l) → (k, a) ∈ l → assoc k l = Some a.
Proof.
  induction l as [|[k' a'] l IH]; intros Hn Hin; [by apply elem_of_nil in Hin|].
  simpl in *. apply NoDup_cons in Hn as [Hk Hn]. apply elem_of_cons in Hin as [[= -> ->]|Hin].
  - by rewrite bool_decide_true.
  - case_bool_decide as Heq; [|auto]. subst. exfalso. apply Hk. unfold keys.
    apply elem_of_list_fmap. exists (k', a). done.
Qed.
Lemma assoc_in {A} k (a : A) l : assoc k l = Some a → (k, a) ∈ l.
Proof.
  induction l as [|[k' a'] l IH]; simpl; [done|]. case_bool_decide; intros; simplify_eq; [left|right; auto].
Qed.

Lemma put_granted (c : iconfig) n en k v x o :
  ireach c → c_log c !! n = Some en → e_ev en = Put k v x o → granted (c_log c) n v.
Proof.
  intros Hr. revert en k v x o. induction n as [n IH] using lt_wf_ind. intros en k v x o Hn He.
  destruct (put_pos _ _ _ _ _ _ _ Hr Hn He) as (q & p & Hq & Hp).
  assert (∀ r, credential_put r (calls_of (e_who en) (take n (c_log c))) k v x → granted (c_log c) n v) as Hc.
  { intros r Hcp. unfold credential_put, granted in *. destruct (s_stage v) as [| | | | |tok| |] eqn:Hs; try done.
    destruct Hcp as (st & tok0 & t & Hget & Hst & _ & _ & Htk & _ & Hsub & _).
    destruct (read_pos _ _ _ _ _ Hr Hget) as (g & m & em & x' & o' & Hlt & Hm & Hem).
    specialize (IH m ltac:(lia) _ _ _ _ _ Hm Hem). unfold granted in IH. rewrite Hst in IH.
    rewrite Htk, Hsub. intros key a Hin. destruct (IH key a Hin) as [H1 H2]. split; [done|].
    eapply authorized_at_mono; [|done|exact H2]. lia. }
  assert (∀ s it, auth_ev s it ∈ calls_of (e_who en) (take n (c_log c)) →
    authorized_at (c_log c) n (Some s) (Some (ai_configuration_id it)) (eq (ai_identifiers it))) as Hev.
  { intros s it Hin. apply calls_of_take_elem in Hin as (m & em & Hlt & Hm & _ & Hem).
    by exists s, (ai_configuration_id it), m, em, (ai_identifiers it). }
  unfold put_from in Hp.
  destruct q as [r|r|r|r|r|r|r|r|r|i|i s]; try done; try by eapply Hc.
  - unfold granted. destruct (s_stage v) as [| |o'| | | | |] eqn:Hs; try done.
    destruct Hp as (t & _ & _ & Hsub & _ & _ & _ & Hits & _). cbn [stage_items].
    destruct (wants r PreAuthorizedCode) eqn:Hw.
    + destruct Hits as (its & -> & _ & Hf). simpl.
      destruct (pos_path _ _ _ _ _ Hr Hn) as (q' & p' & es2 & Hq' & Hpath).
      rewrite Hq in Hq'. injection Hq' as <- <-. rewrite He in Hpath.
      apply offer_put_subject in Hpath as [s Hs']; [|done]. rewrite Hsub, Hs'. rewrite Hs' in Hf.
      intros it Hit. apply Hev. rewrite Forall_forall in Hf. by apply Hf.
    + rewrite Hits. simpl. by intros it ?%elem_of_nil.
  - unfold granted. destruct (s_stage v) as [| | | |z| | |] eqn:Hs; try done.
    destruct Hp as (ro & t & _ & _ & _ & Hsub & _ & _ & _ & _ & _ & _ & Hf). cbn [stage_items].
    rewrite Hsub. intros it Hit. apply Hev. rewrite Forall_forall in Hf. by apply Hf.
  - unfold granted. destruct (s_stage v) eqn:Hs; done.
  - unfold granted. destruct (s_stage v) as [| | | | |tok| |] eqn:Hs; try done.
    destruct Hp as (st & items & _ & _ & _ & Hget & _ & _ & Hsub & _ & _ & Htk & Hits & Hg).
    destruct (read_pos _ _ _ _ _ Hr Hget) as (g & m & em & x' & o' & Hlt & Hm & Hem).
    specialize (IH m ltac:(lia) _ _ _ _ _ Hm Hem).
    rewrite Htk, Hsub. intros key a Hin.
    destruct (authorized_credentials_table items) as (Hnd & _ & Htab).
    apply (assoc_elem _ _ _ Hnd) in Hin. apply Htab in Hin as (Hid & it & Hit & Hkey & Hcfg).
    split; [done|]. rewrite Hcfg. apply Hits in Hit. unfold granted in IH.
    assert (authorized_at (c_log c) m (s_subject_id st) (Some (ai_configuration_id it)) (eq (ai_identifiers it))) as Ha.
    { destruct (tr_grant r); destruct Hg as (z & Hz); rewrite Hz in *; by apply IH. }
    eapply authorized_at_mono; [|..|exact Ha]; [lia|]. by intros ids <-.
  - destruct Hp as (st & txn & cr & _ & _ & _ & Hp). by eapply Hc.
Qed.

Lemma chosen_in iss tok c auth : chosen iss tok c auth → ∃ key, (key, auth) ∈ tk_credentials tok ∧
  ∀ id, c = CIIdentifier id → key = id.
Proof.
  unfold chosen. destruct c as [id|f].
  - intros H%assoc_in. exists id. split; [done|]. by intros ? [= ->].
  - intros [(id & H) _]. exists id. done.
Qed.

Lemma release_authorized (c : iconfig) n en :
  ireach c → c_log c !! n = Some en → releases (e_ev en) = true →
  ∃ q p h0 h1 r st tok subj iss auth cfg did,
    c_pool c !! e_who en = Some (q, p) ∧ calls_of (e_who en) (take n (c_log c)) = h0 ++ h1 ∧
    credential_request_of q h0 r ∧ entitled r h1 st tok iss auth cfg did ∧
    s_subject_id st = Some subj ∧ release_ok r h1 (e_ev en) subj iss auth cfg did ∧
    (∀ id, cr_credential r = CIIdentifier id → au_identifier auth = id) ∧
    ∃ m em ids, m < n ∧ c_log c !! m = Some em ∧
      e_ev em = X (VAuthorize subj (au_configuration_id auth) (Some ids)) ∧ au_identifier auth ∈ ids.
Proof.
  intros Hr Hn Hrel. destruct (pos_path _ _ _ _ _ Hr Hn) as (q & p & es2 & Hq & Hp).
  apply releases_source in Hp as (r & h0 & h1 & Hh & Hcr & st & tok & subj & iss & auth & cfg & did & He & Hsub & Hok); [|done].
  exists q, p, h0, h1, r, st, tok, subj, iss, auth, cfg, did.
  destruct (en_live _ _ _ _ _ _ _ _ He) as (l1 & l2 & l3 & t & Heq & _).
  assert (Get (cr_access_token r) (Some st) ∈ calls_of (e_who en) (take n (c_log c))) as Hget.
  { rewrite Hh, Heq. set_solver. }
  destruct (read_pos _ _ _ _ _ Hr Hget) as (g & m & em & x & o & Hlt & Hm & Hem).
  pose proof (put_granted c m em _ _ _ _ Hr Hm Hem) as Hg. unfold granted in Hg.
  rewrite (en_stage _ _ _ _ _ _ _ _ He) in Hg.
  destruct (chosen_in _ _ _ _ (en_chosen _ _ _ _ _ _ _ _ He)) as (key & Hin & Hkey).
  destruct (Hg key auth Hin) as [-> (s & cfg' & m' & em' & ids & Hs & [= <-] & Hlt' & Hm' & Hem' & Hids)].
  rewrite Hsub in Hs. injection Hs as <-.
  split_and!; try done. exists m', em', ids. split; [lia|]. done.
Qed.

Lemma dataset_authorized (c : iconfig) n en subject identifier d :
  ireach c → c_log c !! n = Some en → e_ev en = X (VDataset subject identifier d) →
  ∃ m em config ids, m < n ∧ c_log c !! m = Some em ∧
    e_ev em = X (VAuthorize subject config (Some ids)) ∧ identifier ∈ ids.
Proof.
  intros Hr Hn He. destruct (release_authorized c n en Hr Hn) as
    (q & p & h0 & h1 & r & st & tok & subj & iss & auth & cfg & did & _ & _ & _ & _ & _ & Hok & _ & m & em & ids & ?);
    [by rewrite He|].
  rewrite He in Hok. destruct Hok as [-> ->]. exists m, em, (au_configuration_id auth), ids. tauto.
Qed.
