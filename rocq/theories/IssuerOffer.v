(** Proofs about creating and retrieving offers. *)
From Verif Require Import Base Json CoreModel VcModel Prog ProgFacts ExecSpec ExecFacts IssuerTypes
  ClaimsModel Sha256 IssuerModel IssuerSpec IssuerFacts IssuerWp IssuerExec.

Lemma wants_requested r g : wants r g = true ↔ requested r g.
Proof.
  unfold wants, requested, contains. rewrite bool_decide_eq_true.
  destruct (co_grant_types r) as [gs|]; simpl; [naive_solver|].
  split; [by intros ?%elem_of_nil|naive_solver].
Qed.
Lemma wants_not r g : wants r g = false ↔ ¬ requested r g.
Proof. rewrite <-wants_requested. by rewrite not_true_iff_false. Qed.

(** ** create_offer succeeds exactly on valid requests *)

Lemma not_failed_auth s it : ¬ failed (auth_ev s it).
Proof. by intros []. Qed.

Lemma failed_auth_map s its e : e ∈ map (auth_ev s) its → ¬ failed e.
Proof. intros (it & -> & _)%elem_of_list_fmap. apply not_failed_auth. Qed.

Lemma create_offer_ok_valid r es resp :
  runs (create_offer r) es (Ok resp) →
  ∃ iss srv es', es = X (VIssuer (co_credential_issuer r) (Some iss)) ::
      X (VServer (co_credential_issuer r) None (Some srv)) :: es' ∧
    offer_valid iss srv r ∧ is_authorization_servers iss ≠ Some [] ∧
    ∀ e, e ∈ es' → ¬ failed e.
Proof.
  intros H. apply create_offer_ok in H as (iss & srv & code & asrv & es_tx & tx & es_st & es_ref &
    -> & Hv & Has & Htx & Hst & Href).
  exists iss, srv, (X (VGen GAuthCode code) :: es_tx ++ es_st ++ es_ref). split; [done|].
  split; [by apply offer_validb_spec|]. split.
  { intros Heq. rewrite Heq in Has. naive_solver. }
  intros e. rewrite elem_of_cons, !elem_of_app. intros [->|[He|[He|He]]]; [by intros []|..].
  - destruct (_ && _); [|destruct Htx as [_ ->]; by apply elem_of_nil in He].
    destruct Htx as (c & _ & ->). apply elem_of_list_singleton in He as ->. by intros [].
  - destruct (_ || _); [|subst es_st; by apply elem_of_nil in He].
    destruct Hst as (t & items & -> & _). apply elem_of_app in He as [He|He].
    + destruct items; [by eapply failed_auth_map|by apply elem_of_nil in He].
    + rewrite !elem_of_cons, elem_of_nil in He. destruct He as [->|[->|[]]]; by intros [].
  - destruct (co_send_type r).
    + destruct Href as [-> _]. by apply elem_of_nil in He.
    + destruct Href as (tok & t & -> & _). rewrite !elem_of_cons, elem_of_nil in He. destruct He as [->|[->|[->|[]]]]; by intros [].
Qed.

(** The rest of [create_offer] fails only after a failed call. *)
Lemma offer_authorize_fails r h :
  wp (λ _ _, True) (λ h' o, (∃ es, h' = h ++ es ∧
       ∀ e, o = Err e → ∃ ev, ev ∈ es ∧ failed ev) ∧ ∀ w, o ≠ Panic w) (offer_authorize r) h.
Proof.
  unfold offer_authorize.
  apply (wp_mapM _ _ _ (λ h' _ _, ∃ es, h' = h ++ es)).
  - exists []. by rewrite app_nil_r.
  - intros a dn bs h' (es & ->). iwp; subst.
    + eexists. by rewrite <-app_assoc.
    + split; [|done]. eexists. rewrite <-app_assoc. split; [done|]. intros e _.
      eexists. split; [apply elem_of_app; right; by apply elem_of_list_singleton|done].
  - intros h' bs (es & ->). split; [|done]. exists es. done.
Qed.

Lemma create_offer_process_fails iss r h :
  wp (λ _ _, True) (λ h' o, ∃ es, h' = h ++ es ∧
       (∀ e, o = Err e → ∃ ev, ev ∈ es ∧ failed ev) ∧
       (∀ w, o = Panic w → is_authorization_servers iss = Some []))
    (create_offer_process iss r) h.
Proof.
  unfold create_offer_process. apply wp_bind.
  apply (wp_call_lemma _ _ (λ h' o, ∃ code, h' = h ++ [X (VGen GAuthCode code)] ∧
    match o with
    | Ok o => ∃ asrv, o = offer_for r code asrv
    | Err _ => False
    | Panic _ => is_authorization_servers iss = Some []
    end)).
  { unfold make_credential_offer. iwp; eexists; (split; [done|]); try done;
      unfold offer_for, wants; eexists; f_equal; do 2 destruct (contains _ _); done. }
  intros h' [o|e|w] (code & -> & Ho); [|done|].
  2:{ exists [X (VGen GAuthCode code)]. done. }
  destruct Ho as (asrv & ->). unfold bindQ. apply wp_bind.
  apply (wp_call_lemma _ _ (λ h' o, (∃ es, h' = h ++ es) ∧ ∃ tx, o = Ok tx)).
  { iwp; (split; [|eauto]); rewrite <-?app_assoc; eauto. }
  intros h1 o ((es & ->) & tx & ->). unfold bindQ. apply wp_bind.
  apply (wp_call_lemma _ _ (λ h' o, (∃ es, h' = h ++ es ∧
       ∀ e, o = Err e → ∃ ev, ev ∈ es ∧ failed ev) ∧ ∀ w, o ≠ Panic w)).
  { change (contains (default [] (co_grant_types r))) with (wants r).
    destruct (wants r PreAuthorizedCode || wants r AuthorizationCode) eqn:Hw.
    2:{ apply wp_ok. split; [|done]. exists es. done. }
    apply wp_bind.
    apply (wp_call_lemma _ _ (λ h' o, (∃ es, h' = h ++ es ∧
       ∀ e, o = Err e → ∃ ev, ev ∈ es ∧ failed ev) ∧ ∀ w, o ≠ Panic w)).
    { destruct (wants r PreAuthorizedCode).
      - apply wp_bind. eapply wp_call_lemma; [apply offer_authorize_fails|].
        intros h' [its|e|w] [(es' & -> & He) Hp]; unfold bindQ; [apply wp_ok| |by destruct (Hp w)].
        + split; [|done]. eexists. rewrite <-app_assoc. split; done.
        + split; [|done]. eexists. rewrite <-app_assoc. split; [done|].
          intros e' [= <-]. destruct (He e eq_refl) as (ev & ? & ?). exists ev.
          split; [apply elem_of_app; by right|done].
      - apply wp_ok. split; [|done]. exists es. done. }
    intros h' [items|e|w] [(es' & -> & He) Hp]; unfold bindQ; [| |by destruct (Hp w)].
    2:{ split; [|done]. eexists. split; [done|]. intros e' [= <-]. by eapply He. }
    apply wp_bind. apply (wp_call_lemma _ _ (λ h' o, h' = h ++ es' ∧ o = Ok code)).
    { unfold state_key, offer_for. cbn [of_grants]. rewrite Hw.
      iwp; simplify_eq/=; destruct (wants r PreAuthorizedCode), (wants r AuthorizationCode);
        simplify_eq/=; done. }
    intros h2 o [-> ->]. unfold bindQ. iwx t. iwp1; [done|..].
    - split; [|done]. eexists. rewrite <-!app_assoc. done.
    - split; [|done]. eexists. rewrite <-!app_assoc. split; [done|]. intros e _.
      eexists. split; [do 2 (apply elem_of_app; right); by apply elem_of_list_singleton|done]. }
  clear es. intros h' [u|e|w] [(es & -> & He) Hp]; unfold bindQ; [| |by destruct (Hp w)].
  2:{ exists es. split; [done|]. split; [intros e' [= <-]; by eapply He|done]. }
  destruct (co_send_type r).
  - apply wp_ok. exists es. done.
  - iwp; eexists; rewrite <-!app_assoc; (split; [done|]); (split; [|done]); try done.
    intros e _. eexists. split; [do 3 (apply elem_of_app; right); by apply elem_of_list_singleton|done].
Qed.

Lemma create_offer_verify_all iss srv r h :
  wp (λ _ _, True) (λ h' o, h' = h ∧
    match o with
    | Ok _ => offer_validb iss srv r = true
    | Err _ => offer_validb iss srv r = false
    | Panic _ => False
    end) (create_offer_verify iss srv r) h.
Proof.
  unfold create_offer_verify, offer_validb.
  iwp; (split; [done|]); repeat match goal with H : _ = _ |- _ => rewrite H; clear H end;
    simpl; rewrite ?andb_false_r; simpl; congruence.
Qed.

Lemma create_offer_iff r es o :
  runs (create_offer r) es o →
  ((∃ resp, o = Ok resp) ↔
   ∃ iss srv es', es = X (VIssuer (co_credential_issuer r) (Some iss)) ::
      X (VServer (co_credential_issuer r) None (Some srv)) :: es' ∧
    offer_valid iss srv r ∧ is_authorization_servers iss ≠ Some [] ∧
    ∀ e, e ∈ es' → ¬ failed e).
Proof.
  intros Hr. split.
  { intros [resp ->]. by eapply create_offer_ok_valid. }
  intros (iss & srv & es' & -> & Hv & Has & Hnf).
  assert (wp (λ _ _, True) (λ h o, ∀ es', h = X (VIssuer (co_credential_issuer r) (Some iss)) ::
      X (VServer (co_credential_issuer r) None (Some srv)) :: es' →
      (∀ e, e ∈ es' → ¬ failed e) → ∃ resp, o = Ok resp) (create_offer r) []) as Hwp.
  { unfold create_offer. iwx iss'. iwo iss0 Hiss.
    iwx srv'. iwo srv0 Hsrv; [|intros es3 [= Heq] _; congruence]. subst. simpl.
    apply wp_bind. eapply wp_call_lemma; [apply create_offer_verify_all|].
    intros h' o' [-> Ho]. destruct o' as [u|e|w]; [|..|done]; unfold bindQ.
    - eapply wp_call_lemma; [apply create_offer_process_fails|].
      intros h' [a|e|w] (es2 & -> & He & Hp); [by eauto|..]; intros es3 [= -> -> <-] Hn.
      + destruct (He e eq_refl) as (ev & Hin & Hf). by destruct (Hn ev Hin).
      + by destruct (Has (Hp w eq_refl)).
    - intros es3 [= -> -> <-] _. apply offer_validb_spec in Hv. congruence. }
  pose proof (wp_runs _ _ _ _ _ _ Hwp Hr) as Hq. by eapply Hq.
Qed.

Lemma create_offer_panics r es w :
  runs (create_offer r) es (Panic w) →
  ∃ iss, X (VIssuer (co_credential_issuer r) (Some iss)) ∈ es ∧ is_authorization_servers iss = Some [].
Proof.
  assert (wp (λ _ _, True) (λ h o, ∀ w, o = Panic w →
    ∃ iss, X (VIssuer (co_credential_issuer r) (Some iss)) ∈ h ∧ is_authorization_servers iss = Some [])
    (create_offer r) []) as Hwp.
  { unfold create_offer. iwx iss'. iwo iss0 Hiss. iwx srv'. iwo srv0 Hsrv. subst.
    apply wp_bind. eapply wp_call_lemma; [apply create_offer_verify_all|].
    intros h' o' [-> Ho]. destruct o' as [u|e|w']; [|done..]; unfold bindQ.
    eapply wp_call_lemma; [apply create_offer_process_fails|].
    intros h' [a|e|w'] (es2 & -> & He & Hp); [done..|]. intros w'' _. exists iss0. split; [|by eapply Hp].
    apply elem_of_app. left. hin. }
  intros Hr. pose proof (wp_runs _ _ _ _ _ _ Hwp Hr) as Hq. by eapply Hq.
Qed.

(** ** What a successful create_offer returns and saves *)

Lemma requested_cases r :
  wants r PreAuthorizedCode || wants r AuthorizationCode = true ↔
  requested r PreAuthorizedCode ∨ requested r AuthorizationCode.
Proof. by rewrite orb_true_iff, !wants_requested. Qed.

Lemma create_offer_agrees r es resp :
  runs (create_offer r) es (Ok resp) →
  ∃ code o, X (VGen GAuthCode code) ∈ es ∧ offer_given r resp es o ∧
    (* the offer *)
    of_credential_issuer o = co_credential_issuer r ∧
    of_configuration_ids o = co_configuration_ids r ∧
    (is_Some (pre_grant o) ↔ requested r PreAuthorizedCode) ∧
    (is_Some (code_grant o) ↔ requested r AuthorizationCode) ∧
    (∀ g, pre_grant o = Some g →
       pg_code g = code ∧ (is_Some (pg_tx_code g) ↔ co_tx_code_required r = true)) ∧
    (∀ g, code_grant o = Some g → ag_issuer_state g = Some code) ∧
    (* the transaction code *)
    (is_Some (cor_tx_code resp) ↔ co_tx_code_required r = true ∧ requested r PreAuthorizedCode) ∧
    (∀ tx, cor_tx_code resp = Some tx → X (VGen GTxCode tx) ∈ es) ∧
    (* what is saved for the grants *)
    (requested r PreAuthorizedCode ∨ requested r AuthorizationCode →
       ∃ t items,
         X (VNow t) ∈ es ∧
         Put code (State (co_subject_id r) (Offered (Offer items (cor_tx_code resp)))
                     (t + minutes 5)%Z) (t + minutes 5)%Z true ∈ es ∧
         (¬ requested r PreAuthorizedCode → items = None) ∧
         (requested r PreAuthorizedCode → ∃ subject its,
            co_subject_id r = Some subject ∧ items = Some its ∧
            Forall2 (λ id it, ai_configuration_id it = id ∧
                       X (VAuthorize subject id (Some (ai_identifiers it))) ∈ es)
              (co_configuration_ids r) its)) ∧
    (* and nothing else *)
    (∀ k v x b, Put k v x b ∈ es → k = code ∧ (∃ off, s_stage v = Offered off) ∨ s_stage v = Pending o).
Proof.
  intros H. apply create_offer_ok in H as (iss & srv & code & asrv & es_tx & tx & es_st & es_ref &
    -> & Hv & Has & Htx & Hst & Href).
  set (o := offer_for r code asrv).
  assert (cor_tx_code resp = tx) as Hcor.
  { destruct (co_send_type r); [by destruct Href as [_ ->]|]. by destruct Href as (? & ? & _ & ->). }
  assert (is_Some tx ↔ co_tx_code_required r = true ∧ requested r PreAuthorizedCode) as Htx'.
  { rewrite <-wants_requested, <-andb_true_iff. destruct (_ && _).
    - destruct Htx as (c & -> & _). split; eauto.
    - destruct Htx as [-> _]. split; [by intros []|done]. }
  exists code, o. repeat match goal with |- _ ∧ _ => split end.
  - simpl. set_solver.
  - unfold offer_given. destruct (co_send_type r).
    + by destruct Href as [_ ->].
    + destruct Href as (tok & t & -> & ->). exists tok, t. cbn [cor_offer].
      rewrite !elem_of_app, !elem_of_cons. tauto.
  - done.
  - done.
  - unfold pre_grant, o, offer_for. simpl. rewrite <-wants_requested.
    destruct (wants r PreAuthorizedCode), (wants r AuthorizationCode); simpl; (split; [intros Hx|intros Hx]); eauto;
      try done; by destruct Hx.
  - unfold code_grant, o, offer_for. simpl. rewrite <-wants_requested.
    destruct (wants r PreAuthorizedCode), (wants r AuthorizationCode); simpl; (split; [intros Hx|intros Hx]); eauto;
      try done; by destruct Hx.
  - unfold pre_grant, o, offer_for. simpl. intros g.
    destruct (wants r PreAuthorizedCode), (wants r AuthorizationCode); simpl; intros; simplify_eq/=;
      (split; [done|]); destruct (co_tx_code_required r); split; intros Hx; eauto; try done; by destruct Hx.
  - unfold code_grant, o, offer_for. simpl. intros g.
    destruct (wants r PreAuthorizedCode), (wants r AuthorizationCode); simpl; intros; by simplify_eq/=.
  - by rewrite Hcor.
  - rewrite Hcor. intros c ->. destruct (_ && _); [|naive_solver]. destruct Htx as (c' & [= <-] & ->).
    simpl. set_solver.
  - rewrite <-requested_cases. intros Hw. rewrite Hw in Hst. destruct Hst as (t & items & -> & Hi).
    exists t, items. rewrite Hcor. split_and!.
    + rewrite !elem_of_app, !elem_of_cons. tauto.
    + rewrite !elem_of_app, !elem_of_cons. tauto.
    + rewrite <-wants_not. intros Hn. by rewrite Hn in Hi.
    + rewrite <-wants_requested. intros Hp. rewrite Hp in Hi. destruct Hi as (its & -> & Hf).
      apply offer_validb_spec in Hv as (_ & _ & _ & Hgs).
      apply wants_requested in Hp as (gs & Hgs1 & Hin). destruct (Hgs gs Hgs1) as [_ Hsub].
      destruct (co_subject_id r) as [subject|]; [|by specialize (Hsub Hin)].
      exists subject, its. split; [done|]. split; [done|].
      apply Forall2_same_length_lookup. split; [by eapply Forall2_length|].
      intros n id it Hid Hit. destruct (Forall2_lookup_lr _ _ _ _ _ _ Hf Hid Hit) as [Hi1 Hi2].
      split; [done|]. rewrite !elem_of_app. right. right. left. left.
      apply elem_of_list_fmap. exists it. split; [|by eapply elem_of_list_lookup_2].
      unfold auth_ev. by rewrite Hi2.
  - intros k v x b. rewrite !elem_of_app. intros [Hin|[Hin|[Hin|Hin]]].
    + set_solver.
    + destruct (_ && _); [|destruct Htx as [_ ->]; by apply elem_of_nil in Hin].
      destruct Htx as (c & _ & ->). by apply elem_of_list_singleton in Hin.
    + destruct (_ || _); [|subst es_st; by apply elem_of_nil in Hin].
      destruct Hst as (t & items & -> & _). apply elem_of_app in Hin as [Hin|Hin].
      * destruct items; [|by apply elem_of_nil in Hin].
        apply elem_of_list_fmap in Hin as (it & Heq & _). done.
      * rewrite !elem_of_cons, elem_of_nil in Hin. destruct Hin as [?|[?|?]]; [done| |done].
        simplify_eq. left. simpl. eauto.
    + destruct (co_send_type r).
      * destruct Href as [-> _]. by apply elem_of_nil in Hin.
      * destruct Href as (tok & t & -> & _). rewrite !elem_of_cons, elem_of_nil in Hin.
        destruct Hin as [?|[?|[?|?]]]; [done|done| |done]. simplify_eq. by right.
Qed.

(** ** The transaction code does not reach the offer *)

Lemma create_offer_hides_tx r es es' resp resp' :
  runs (create_offer r) es (Ok resp) → runs (create_offer r) es' (Ok resp') →
  map hide_tx es = map hide_tx es' →
  cor_offer resp = cor_offer resp' ∧
  ∀ k v x b, (∃ o, s_stage v = Pending o) → Put k v x b ∈ es → Put k v x b ∈ es'.
Proof.
  intros H H' Heq.
  assert (∀ k v x b, (∃ o, s_stage v = Pending o) → Put k v x b ∈ es → Put k v x b ∈ es') as Hp.
  { intros k v x b [o Hv] Hin. apply (elem_of_list_fmap_1 hide_tx) in Hin.
    change (hide_tx <$> es) with (map hide_tx es) in Hin. rewrite Heq in Hin.
    apply elem_of_list_fmap in Hin as (e & He & Hin).
    assert (e = Put k v x b) as <-; [|done].
    destruct v as [s st y]. simpl in Hv. subst st. simpl in He.
    destruct e as [ | k' v' x' b'| |e']; simpl in He; try done.
    - destruct v' as [s' st' y']. destruct st'; simpl in He; congruence.
    - destruct e'; try done. destruct g; done. }
  split; [|done].
  apply create_offer_ok in H as (iss & srv & code & asrv & es_tx & tx & es_st & es_ref &
    -> & Hv & Has & Htx & Hst & Href).
  apply create_offer_ok in H' as (iss' & srv' & code' & asrv' & es_tx' & tx' & es_st' & es_ref' &
    -> & Hv' & Has' & Htx' & Hst' & Href').
  rewrite !map_app in Heq. simpl in Heq. injection Heq as <- <- <- Heq.
  assert (asrv = asrv') as <-.
  { destruct (is_authorization_servers iss); [|congruence].
    destruct Has as [-> _], Has' as [-> _]. done. }
  destruct (co_send_type r).
  - destruct Href as [_ ->], Href' as [_ ->]. done.
  - destruct Href as (tok & t & -> & ->), Href' as (tok' & t' & -> & ->).
    rewrite !app_assoc in Heq. apply app_inj_2 in Heq as [_ Heq]; [|done].
    simpl in Heq. simplify_eq. done.
Qed.

(** ** Retrieving an offer *)

Lemma credential_offer_iff r es o offer :
  runs (credential_offer_endpoint r) es o →
  (o = Ok offer ↔
   ∃ st t, es = [Get (cof_id r) (Some st); Purge (cof_id r) true; X (VNow t)] ∧
     (t < s_expires_at st + seconds 1)%Z ∧ s_stage st = Pending offer ∧
     of_credential_issuer offer = cof_credential_issuer r).
Proof.
  intros Hr. split.
  - intros ->. apply credential_offer_ok in Hr as (st & t & -> & He & Hs & Hi).
    exists st, t. split; [done|]. split; [by apply is_expired_false|]. done.
  - intros (st & t & -> & He & Hs & Hi).
    assert (wp (λ _ _, True) (λ h o, ∀ st t,
       h = [Get (cof_id r) (Some st); Purge (cof_id r) true; X (VNow t)] →
       is_expired st t = false → s_stage st = Pending offer →
       of_credential_issuer offer = cof_credential_issuer r → o = Ok offer)
       (credential_offer_endpoint r) []) as Hwp.
    { unfold credential_offer_endpoint. iwp; intros; bools; simplify_eq/=; try congruence. }
    pose proof (wp_runs _ _ _ _ _ _ Hwp Hr) as Hq. eapply Hq; [done| |done|done].
    by apply is_expired_false.
Qed.

Lemma answered_runs (c : iconfig) i q o :
  ireach c → answered c i q o → runs (ihandler q) (calls_of i (c_log c)) o.
Proof. intros Hr Ha. by eapply reachable_path. Qed.

Lemma handler_ok {A} (m : iprog A) (f : A → ireply) es x :
  runs (let! y := m in ok (f y)) es (Ok x) → ∃ a, x = f a ∧ runs m es (Ok a).
Proof.
  intros H. iseq H as a Ha. apply runs_ok in H as [-> <-]. rewrite app_nil_r. eauto.
Qed.

Lemma credential_offer_source (c : iconfig) i r o :
  ireach c → answered c i (QCredentialOffer r) (Ok (RCredentialOffer o)) →
  ∃ j r' p t, c_pool c !! j = Some (QCreateOffer r', p) ∧
    X (VGen GUriToken (cof_id r)) ∈ calls_of j (c_log c) ∧
    (∃ b, Put (cof_id r) (State (co_subject_id r') (Pending o) (t + minutes 5)%Z) (t + minutes 5)%Z b
       ∈ calls_of j (c_log c)) ∧
    of_credential_issuer o = co_credential_issuer r' ∧
    cof_credential_issuer r = co_credential_issuer r'.
Proof.
  intros Hr Ha. apply answered_runs in Ha as Hrun; [|done].
  apply handler_ok in Hrun as (o' & [= <-] & Hrun).
  apply credential_offer_ok in Hrun as (st & t & Hcalls & He & Hs & Hi).
  assert (Get (cof_id r) (Some st) ∈ calls_of i (take (length (c_log c)) (c_log c))) as Hin.
  { rewrite firstn_all, Hcalls. set_solver. }
  destruct (read_pos _ _ _ _ _ Hr Hin) as (g & m & em & x & b & Hlt & Hm & Hem).
  destruct (put_pos _ _ _ _ _ _ _ Hr Hm Hem) as (q & p & Hq & Hp).
  unfold put_from in Hp. rewrite Hs in Hp.
  destruct q; try done.
  - destruct Hp as (t' & code & asrv & Hg & _ & Hsub & _ & Hexp & -> & _ & Hoff).
    exists (e_who em), r0, p, t'. split; [done|].
    assert (∀ e, e ∈ calls_of (e_who em) (take m (c_log c)) → e ∈ calls_of (e_who em) (c_log c)) as Hsubs.
    { intros e He'. rewrite <-(take_drop m (c_log c)), calls_of_app. apply elem_of_app. by left. }
    split; [by apply Hsubs|]. split.
    + exists b. apply calls_of_elem. exists em. split; [by eapply elem_of_list_lookup_2|].
      split; [done|]. rewrite Hem. destruct st as [s sg ex]. simpl in *. subst. done.
    + rewrite <-Hi, Hoff. done.
  - unfold credential_put in Hp. rewrite Hs in Hp. done.
  - destruct Hp as (? & ? & ? & ? & ? & ? & Hp). unfold credential_put in Hp. by rewrite Hs in Hp.
Qed.

Lemma credential_offer_once (c : iconfig) i j ri rj oi oj :
  ireach c → fresh (c_log c) → i ≠ j →
  answered c i (QCredentialOffer ri) (Ok (RCredentialOffer oi)) →
  answered c j (QCredentialOffer rj) (Ok (RCredentialOffer oj)) →
  cof_id ri = cof_id rj → overlap (c_log c) i j.
Proof.
  intros Hr Hf Hij Hi Hj Hid.
  apply answered_runs in Hi as Hri; [|done]. apply handler_ok in Hri as (oi' & [= <-] & Hri).
  apply credential_offer_ok in Hri as (sti & ti & Hci & _ & Hsi & _).
  apply answered_runs in Hj as Hrj; [|done]. apply handler_ok in Hrj as (oj' & [= <-] & Hrj).
  apply credential_offer_ok in Hrj as (stj & tj & Hcj & _ & Hsj & _).
  rewrite <-Hid in Hcj.
  destruct (read_generated c i (cof_id ri) sti GUriToken Hr) as (a & ea & Ha & Hea).
  { rewrite Hci. set_solver. }
  { by rewrite Hsi. }
  { by right; left. }
  assert (one_shot GUriToken) as Hone by by right; left.
  split; intros Hb.
  - assert (Some stj = None); [|done].
    eapply (one_shot_gone c a ea GUriToken (cof_id ri) i j sti (Some stj) [] [] [X (VNow ti)]); eauto.
    rewrite Hcj. set_solver.
  - assert (Some sti = None); [|done].
    eapply (one_shot_gone c a ea GUriToken (cof_id ri) j i stj (Some sti) [] [] [X (VNow tj)]); eauto.
    rewrite Hci. set_solver.
Qed.
