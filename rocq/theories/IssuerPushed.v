(** Pushed requests, scopes, claims and anonymous clients. *)
From Verif Require Import Base Json CoreModel VcModel Prog ProgFacts ExecSpec ExecFacts IssuerTypes
  ClaimsModel Sha256 IssuerModel IssuerSpec IssuerFacts IssuerWp IssuerExec IssuerOffer IssuerToken
  IssuerExpiry AuthorizeSpec IssuerClaims IssuerAuthorize.

(** ** The offer that a request takes up *)

Lemma offer_taken_up a es resp :
  runs (authorize a) es (Ok resp) →
  ∃ r h0, request_object_of a h0 r ∧ h0 `prefix_of` es ∧
    ∀ k, ro_issuer_state r = Some k →
      ∃ st, read_then es k st (live st) ∧ s_subject_id st = Some (ro_subject_id r).
Proof.
  intros Hr. pose proof (authorize_iff _ _ _ Hr) as [H _].
  destruct (H (ex_intro _ resp eq_refl)) as (r & h0 & iss & cl & srv & es' & -> & Ha & _ & _ & Ho & _).
  exists r, h0. split; [done|]. split; [by eexists|]. intros k Hk.
  destruct (Ho k Hk) as (st & t & es2 & -> & Hl & Hs). exists st. split; [|done].
  exists (h0 ++ [X (VIssuer (ro_credential_issuer r) (Some iss)); X (VClient (ro_client_id r) (Some cl));
    X (VServer (ro_credential_issuer r) None (Some srv))]), [], es2, t.
  split; [|done]. by rewrite <-app_assoc.
Qed.

(** ** Pushing *)

Lemma par_accepts r es resp :
  runs (par r) es (Ok resp) →
  ∃ iss cl srv, X (VIssuer (ro_credential_issuer r) (Some iss)) ∈ es ∧
    X (VClient (ro_client_id r) (Some cl)) ∈ es ∧
    X (VServer (ro_credential_issuer r) None (Some srv)) ∈ es ∧
    sv_require_par srv ≠ Some true ∧
    (∀ ds d, ro_authorization_details r = Some ds → d ∈ ds → acceptable iss d).
Proof.
  intros H. apply par_ok in H as (iss & es_v & ctx & tok & t1 & t2 & -> & Hv & _).
  apply verify_ok_events in Hv as (cl & srv & es' & -> & Hp & Hc & _).
  exists iss, cl, srv. split; [by left|]. split; [right; by left|]. split; [right; right; by left|].
  split. { intros Heq. by apply Hp in Heq. }
  intros ds d Hds Hd. pose proof (azc_details _ _ _ _ _ Hc) as Hdet. rewrite Hds in Hdet.
  destruct Hdet as (ids & Hf & _). apply elem_of_list_lookup in Hd as (i & Hi).
  destruct (Forall2_lookup_l _ _ _ _ _ Hf Hi) as (id & _ & Hd). exists id. by apply details_checked_spec.
Qed.

Lemma par_put_policy r p h k v x o h' :
  path (ihandler (QPar r)) (h ++ Put k v x o :: h') p →
  ∃ srv, X (VServer (ro_credential_issuer r) None (Some srv)) ∈ h ∧ sv_require_par srv ≠ Some true.
Proof.
  intros Hp.
  set (Φ := λ (h : ihist) (e : ievent), is_put e = true →
    ∃ srv, X (VServer (ro_credential_issuer r) None (Some srv)) ∈ h ∧ sv_require_par srv ≠ Some true).
  assert (wp Φ (λ _ _, True) (ihandler (QPar r)) []) as Hwp.
  2:{ by apply (wp_event _ _ _ _ [] h _ h' Hwp Hp). }
  cbn [ihandler]. apply wp_bind. unfold par. iwx iss'. iwo iss Hiss. apply wp_bind. apply wp_intro.
  - intros es1 e es2 q Hq. apply (noput_path _ _ _ (noput_authorize_verify iss false r)) in Hq.
    apply Forall_app in Hq as [_ [Hq _]%Forall_cons]. intros He. congruence.
  - intros es [ctx|e|w] Hv; unfold bindQ; [|done..].
    apply verify_ok_events in Hv as (cl & srv & es' & -> & Hpol & _).
    unfold par_process. iwx tok. iwx t1. iwx t2. apply wp_bind. iwp1; [|unfold bindQ; by iwp..].
    intros _. exists srv. split; [|intros Heq; by apply Hpol in Heq].
    do 3 (apply elem_of_app; left). apply elem_of_app. right. right. by left.
Qed.

(** The read of a pushed request in an execution, and where it came from. *)
Lemma pushed_source (c : iconfig) i u st r exp :
  ireach c → Get u (Some st) ∈ calls_of i (c_log c) → s_stage st = PushedAuthorization r exp →
  ∃ j p tok t1 srv, c_pool c !! j = Some (QPar r, p) ∧ u = "urn:ietf:params:oauth:request_uri:" +:+ tok ∧
    X (VGen GUriToken tok) ∈ calls_of j (c_log c) ∧ X (VNow t1) ∈ calls_of j (c_log c) ∧
    exp = (t1 + seconds 600)%Z ∧
    X (VServer (ro_credential_issuer r) None (Some srv)) ∈ calls_of j (c_log c) ∧
    sv_require_par srv ≠ Some true.
Proof.
  intros Hr Hin Hs. rewrite <-(firstn_all (c_log c)) in Hin.
  destruct (read_pos _ _ _ _ _ Hr Hin) as (g & n & en & x & b & _ & Hn & Hen).
  destruct (pos_path _ _ _ _ _ Hr Hn) as (q & p & es2 & Hq & Hp). rewrite Hen in Hp.
  pose proof (put_source _ _ _ _ _ _ _ _ Hp) as Hpf. unfold put_from in Hpf. rewrite Hs in Hpf.
  destruct q; try done.
  - destruct Hpf as (tok & t1 & t2 & <- & Hgen & -> & _ & _ & Ht1 & _ & -> & _).
    apply par_put_policy in Hp as (srv & Hsrv & Hpol).
    exists (e_who en), p, tok, t1, srv. split; [done|]. split; [done|].
    split; [by eapply calls_take|]. split; [by eapply calls_take|]. split; [done|].
    split; [by eapply calls_take|done].
  - unfold credential_put in Hpf. by rewrite Hs in Hpf.
  - destruct Hpf as (? & ? & ? & ? & ? & ? & Hpf). unfold credential_put in Hpf. by rewrite Hs in Hpf.
Qed.

Lemma calls_of_entry (log : ilog) i e : e ∈ calls_of i log → ∃ en, en ∈ log ∧ e_ev en = e.
Proof.
  unfold calls_of. intros (en & Hen & H)%elem_of_list_omap. exists en. split; [done|].
  case_bool_decide; congruence.
Qed.

Lemma par_required_blocks (c : iconfig) i q resp :
  ireach c → par_required c → answered c i q (Ok resp) →
  match q with QPar _ | QAuthorize _ => False | _ => True end.
Proof.
  intros Hr Hreq Ha. destruct q as [| |a|r| | | | | | |]; try done.
  - apply answered_runs in Ha as Hrun; [|done]. apply handler_ok in Hrun as (resp' & -> & Hrun).
    apply authorize_ok in Hrun as (is_par & r & es_r & iss & ctx & es_v & es_p & Hes & Har & Hv & _).
    apply verify_ok_events in Hv as (cl & srv & es' & -> & Hpol & _).
    assert (X (VServer (ro_credential_issuer r) None (Some srv)) ∈ calls_of i (c_log c)) as Hsrv.
    { rewrite Hes. apply elem_of_app; right. apply elem_of_app; right. apply elem_of_app; left.
      right. by left. }
    destruct (calls_of_entry _ _ _ Hsrv) as (en & Hen & Hev).
    pose proof (Hpol (Hreq en _ _ srv Hen Hev)) as ->.
    destruct a as [u|r']; [|by destruct Har as (_ & ? & _)].
    destruct Har as (_ & st & exp & t & -> & Hs & _).
    assert (Get u (Some st) ∈ calls_of i (c_log c)) as Hg by (rewrite Hes; by left).
    destruct (pushed_source _ _ _ _ _ _ Hr Hg Hs) as (j & p & tok & t1 & srv' & _ & _ & _ & _ & _ & Hsrv' & Hn).
    destruct (calls_of_entry _ _ _ Hsrv') as (en' & Hen' & Hev'). exact (Hn (Hreq _ _ _ _ Hen' Hev')).
  - apply answered_runs in Ha as Hrun; [|done]. apply handler_ok in Hrun as (resp' & -> & Hrun).
    apply par_accepts in Hrun as (iss & cl & srv & _ & _ & Hsrv & Hn & _).
    destruct (calls_of_entry _ _ _ Hsrv) as (en & Hen & Hev). exact (Hn (Hreq _ _ _ _ Hen Hev)).
Qed.

(** What a reference authorizes. *)
Lemma reference_authorizes (c : iconfig) i u resp :
  ireach c → answered c i (QAuthorize (ARUri u)) (Ok (RAuthorize resp)) →
  ∃ j r p tok t1 t, c_pool c !! j = Some (QPar r, p) ∧ u = "urn:ietf:params:oauth:request_uri:" +:+ tok ∧
    X (VGen GUriToken tok) ∈ calls_of j (c_log c) ∧ X (VNow t1) ∈ calls_of j (c_log c) ∧
    X (VNow t) ∈ calls_of i (c_log c) ∧ (t ≤ t1 + seconds 600)%Z ∧
    (∃ iss cl srv, X (VIssuer (ro_credential_issuer r) (Some iss)) ∈ calls_of i (c_log c) ∧
       X (VClient (ro_client_id r) (Some cl)) ∈ calls_of i (c_log c) ∧
       X (VServer (ro_credential_issuer r) None (Some srv)) ∈ calls_of i (c_log c) ∧
       authorization_valid iss cl srv r) ∧
    ar_state resp = ro_state r ∧
    (∀ k v x b, Put k v x b ∈ calls_of i (c_log c) → k = ar_code resp ∧
       s_subject_id v = Some (ro_subject_id r) ∧ ∃ items, s_stage v = StAuthorized
         (Authorization (ro_client_id r) (ro_redirect_uri r) (ro_code_challenge r)
            (ro_code_challenge_method r) items)).
Proof.
  intros Hr Ha. apply answered_runs in Ha as Hrun; [|done].
  apply handler_ok in Hrun as (resp' & Heq & Hrun). injection Heq as <-.
  pose proof (authorize_iff _ _ _ Hrun) as [H _].
  destruct (H (ex_intro _ resp eq_refl)) as (r & h0 & iss & cl & srv & es' & Hes & Ho & _ & Hv & _).
  destruct Ho as (st & exp & t & -> & Hs & Ht).
  assert (Get u (Some st) ∈ calls_of i (c_log c)) as Hg by (rewrite Hes; by left).
  destruct (pushed_source _ _ _ _ _ _ Hr Hg Hs) as (j & p & tok & t1 & srv' & Hq & Hu & Hgen & Ht1 & -> & _).
  exists j, r, p, tok, t1, t. split; [done|]. split; [done|]. split; [done|]. split; [done|].
  split; [rewrite Hes; right; by left|]. split; [done|]. split.
  { exists iss, cl, srv. rewrite Hes. split; [do 2 right; by left|]. split; [do 3 right; by left|].
    split; [do 4 right; by left|done]. }
  apply authorize_records in Hrun as (r' & h0' & h1 & iss' & t' & items & Hes' & Ho' & _ & _ & Hst & _ & Hput & _).
  assert (r' = r) as ->.
  { destruct Ho' as (st' & exp' & t'' & -> & Hs' & _). rewrite Hes' in Hes. injection Hes as Heq _ _.
    subst st'. rewrite Hs in Hs'. by injection Hs'. }
  split; [done|]. intros k v x b Hin. apply Hput in Hin as (-> & _ & _ & ->). split; [done|].
  split; [done|]. by eexists.
Qed.

(** ** Scopes *)

Lemma scope_considered a es resp :
  runs (authorize a) es (Ok resp) →
  ∃ r h0 h1 iss, request_object_of a h0 r ∧
    es = h0 ++ X (VIssuer (ro_credential_issuer r) (Some iss)) :: h1 ∧
    ∀ s item, ro_scope r = Some s → head (split_whitespace s) = Some item →
      (∃ id cfg, (id, cfg) ∈ is_configurations iss ∧ cc_scope cfg = Some item ∧ ¬ by_detail iss r id) ∧
      ∀ id cfg, (id, cfg) ∈ is_configurations iss → cc_scope cfg = Some item → ¬ by_detail iss r id →
        ∃ it z k v x b, Put k v x b ∈ h1 ∧ s_stage v = StAuthorized z ∧ it ∈ az_items z ∧
          ai_configuration_id it = id ∧ ai_item it = ItemScope item.
Proof.
  intros Hr. pose proof (authorize_iff _ _ _ Hr) as [H _].
  destruct (H (ex_intro _ resp eq_refl)) as (r & h0 & iss & cl & srv & es' & Hes & Ho & _ & Hv & _).
  apply authorize_records in Hr as (r' & h0' & h1 & iss' & t' & items & Hes' & Ho' & _ & _ & _ & _ & Hput & Hitems & _).
  assert (r' = r ∧ h0' = h0) as [-> ->].
  { destruct a as [u|r0]; simpl in *.
    - destruct Ho as (st & exp & t & -> & Hs & _), Ho' as (st' & exp' & t'' & -> & Hs' & _).
      rewrite Hes' in Hes. simpl in Hes. injection Hes as -> -> _. split; [congruence|done].
    - destruct Ho as [-> ->], Ho' as [-> ->]. done. }
  rewrite Hes' in Hes. apply app_inv_head in Hes. injection Hes as -> Hh1.
  exists r, h0, h1, iss. split; [done|]. split; [done|].
  intros s item Hsc Hit. destruct (split_whitespace s) as [|item' rest] eqn:Hsp; simpl in Hit; [done|].
  injection Hit as ->. split.
  { destruct (av_scope _ _ _ _ Hv s item rest Hsc Hsp) as (id & s' & rest' & cfg & Hs' & Hsp' & Hin & Hc & Hn). eauto. }
  intros id cfg Hin Hc Hn.
  assert (by_scope iss r id item) as Hb by (exists s, rest, cfg; auto).
  destruct (if_configurations _ _ _ _ Hitems id) as [_ Hid].
  destruct (elem_of_list_fmap_2 _ _ _ (Hid (or_intror (ex_intro _ item Hb)))) as (it & -> & Hit).
  exists it, (Authorization (ro_client_id r) (ro_redirect_uri r) (ro_code_challenge r)
    (ro_code_challenge_method r) items), (ar_code resp), (State (Some (ro_subject_id r))
    (StAuthorized (Authorization (ro_client_id r) (ro_redirect_uri r) (ro_code_challenge r)
      (ro_code_challenge_method r) items)) (t' + minutes 5)%Z), (t' + minutes 5)%Z, true.
  split; [|split; [reflexivity|]].
  - assert (Put (ar_code resp) (State (Some (ro_subject_id r))
             (StAuthorized (Authorization (ro_client_id r) (ro_redirect_uri r) (ro_code_challenge r)
                (ro_code_challenge_method r) items)) (t' + minutes 5)%Z) (t' + minutes 5)%Z true ∈ es) as Hp.
    { by apply Hput. }
    rewrite Hes' in Hp. apply elem_of_app in Hp as [Hp|[Hp|Hp]%elem_of_cons]; [|done|exact Hp].
    exfalso. destruct a as [u|r0]; simpl in Ho'.
    + destruct Ho' as (? & ? & ? & -> & _). set_solver.
    + destruct Ho' as [-> _]. set_solver.
  - split; [done|]. split; [done|]. pose proof (if_items _ _ _ _ Hitems it Hit) as Hk.
    destruct (ai_item it) as [d|item']; simpl in Hk.
    + exfalso. apply Hn. destruct Hk as (Hcf & ds & Hds & Hd). by exists ds, d.
    + destruct Hk as (s' & rest' & cfg' & Hs' & Hsp' & _). f_equal. congruence.
Qed.

(** ** Claims *)

Lemma authorize_claims a es resp :
  runs (authorize a) es (Ok resp) →
  ∃ r h0 h1 iss, request_object_of a h0 r ∧
    es = h0 ++ X (VIssuer (ro_credential_issuer r) (Some iss)) :: h1 ∧
    ∀ ds d, ro_authorization_details r = Some ds → d ∈ ds → acceptable iss d.
Proof.
  intros Hr. pose proof (authorize_iff _ _ _ Hr) as [H _].
  destruct (H (ex_intro _ resp eq_refl)) as (r & h0 & iss & cl & srv & es' & Hes & Ho & _ & Hv & _).
  exists r, h0, (X (VClient (ro_client_id r) (Some cl)) ::
          X (VServer (ro_credential_issuer r) None (Some srv)) :: es'), iss.
  split; [done|]. split; [done|]. apply Hv.
Qed.

Lemma token_claims r es resp code tx ds d :
  runs (token r) es (Ok resp) → tr_grant r = TGPreAuthorizedCode code tx →
  tr_authorization_details r = Some ds → d ∈ ds →
  ∃ iss, X (VIssuer (tr_credential_issuer r) (Some iss)) ∈ es ∧ acceptable iss d.
Proof.
  intros H Hg Hds Hd.
  apply token_ok in H as (st & t & srv & gts & id & cl & items & es_i & tok & nonce & t2 & H).
  cbn zeta in H. destruct H as (-> & _ & _ & _ & _ & _ & Hi & _).
  unfold token_items in Hi. rewrite Hg, Hds in Hi. destruct Hi as (o & its & _ & _ & iss & -> & Hf).
  exists iss. split; [apply elem_of_app; right; by left|].
  apply elem_of_list_lookup in Hd as (i & Hi). destruct (Forall2_lookup_l _ _ _ _ _ Hf Hi) as (it & _ & _ & Hm).
  destruct Hm as (cid & claims & Hrc & Hcl). exists cid. apply details_checked_spec. by exists claims.
Qed.

(** Claims that the configuration does not have make no difference. *)
Lemma unsupported_ignored sup cs k c :
  k ∉ keys sup → k ∉ keys cs → claims_complete sup cs → claims_complete sup (cs ++ [(k, c)]).
Proof.
  intros Hk Hk' [H1 H2].
  assert (∀ k', k' ≠ k → assoc k' (cs ++ [(k, c)]) = assoc k' cs) as Ha.
  { intros k' Hne. clear -Hne. induction cs as [|[a b] cs IH]; simpl.
    - by rewrite bool_decide_eq_false_2.
    - case_bool_decide; [done|]. apply IH. }
  assert (∀ p x, claim_at sup p x → ∃ k' p', p = k' :: p' ∧ k' ∈ keys sup) as Hp.
  { intros p x H. destruct H as [cs' k' x Hin|cs' k' l p x Hin Hc];
      eexists k', _; (split; [done|]); unfold keys; apply elem_of_list_fmap; eexists (_, _); done. }
  assert (∀ p x, claim_at sup p x → claim_lookup (cs ++ [(k, c)]) p = claim_lookup cs p) as Hl.
  { intros p x H. destruct (Hp _ _ H) as (k' & p' & -> & Hin).
    assert (k' ≠ k) by (by intros ->). destruct p' as [|k2 p']; simpl; by rewrite Ha. }
  split.
  - intros p H. rewrite (Hl _ _ H). auto.
  - intros p l m H. rewrite (Hl _ _ H). eauto.
Qed.

(** ** Anonymous clients *)

Lemma anonymous_outcome r es code tx :
  tr_grant r = TGPreAuthorizedCode code tx →
  (∀ resp, runs (token r) es (Ok resp) → ∃ id, tr_client_id r = Some id ∧
     (id = "" → ∃ srv, X (VServer (tr_credential_issuer r) None (Some srv)) ∈ es ∧ sv_anonymous_access srv = true)) ∧
  (runs (token r) es (Err (InvalidClient "anonymous access is not supported")) →
     tr_client_id r = None ∨ tr_client_id r = Some "" ∧
       ∃ srv, X (VServer (tr_credential_issuer r) None (Some srv)) ∈ es ∧ sv_anonymous_access srv = false).
Proof.
  intros Hg. split.
  - intros resp H.
    apply token_ok in H as (st & t & srv & gts & id & cl & items & es_i & tok & nonce & t2 & H).
    cbn zeta in H. destruct H as (-> & _ & _ & Hgc & Hid & _). exists id. split; [done|]. intros ->.
    unfold grant_checked in Hgc. rewrite Hg in Hgc. destruct Hgc as (o & id' & _ & _ & Hid' & Ha & _).
    exists srv. split; [apply elem_of_app; left; do 3 right; by left|]. apply Ha. congruence.
  - intros H.
    assert (wp (λ _ _, True) (λ h o, o = Err (InvalidClient "anonymous access is not supported") →
      tr_client_id r = None ∨ tr_client_id r = Some "" ∧
       ∃ srv, X (VServer (tr_credential_issuer r) None (Some srv)) ∈ h ∧ sv_anonymous_access srv = false)
      (token r) []) as Hwp; [|exact (wp_runs _ _ _ [] _ _ Hwp H eq_refl)].
    unfold token. iwx st'. iwo st Hst. iwp1. iwp1; [done|unfold bindQ|done].
    apply wp_bind. unfold token_verify. rewrite Hg.
    iwx t. iwe He. iwx srv'. iwo srv Hsrv. iwo gts Hgts. subst.
    apply wp_bind. destruct (s_stage st); try by iwp. iwe Hc.
    iwp1. apply wp_ensure; intros Ha; unfold bindQ.
    2:{ intros _. destruct (tr_client_id r) as [id|]; [|by left]. right.
        apply negb_false_iff, andb_true_iff in Ha as [Ha Hn]. apply negb_true_iff in Hn.
        split; [|exists srv; split; [hin|done]]. destruct id; [done|done]. }
    apply wp_ensure; intros Htx; unfold bindQ; [|done].
    match goal with |- wp _ ?Q ?p ?h => apply (wp_call_lemma _ Q (λ _ o, o ≠ Err (InvalidClient "anonymous access is not supported"))) end.
    + unfold check_scopes. iwp.
    + intros h [u|e|w] Hne; [|intros [= ->]; done|done].
      match goal with |- wp _ ?Q ?p ?h => apply (wp_call_lemma _ Q (λ _ o, o ≠ Err (InvalidClient "anonymous access is not supported"))) end.
      2:{ intros h' oo Ho Heq. done. }
      unfold token_process. rewrite Hg. apply wp_bind.
      match goal with |- wp _ ?Q ?p ?h => apply (wp_call_lemma _ Q (λ _ o, o ≠ Err (InvalidClient "anonymous access is not supported"))) end.
      * destruct (s_stage st); try by iwp. iwo its Hits. unfold retain_details.
        destruct (tr_authorization_details r); [|by iwp]. iwx iss'. iwo iss Hiss.
        apply (wp_mapM _ _ _ (λ _ _ _, True)); [done| |done].
        intros d dn bs h' _. unfold token_verify_claims. by iwp.
      * intros h' [its|e|w] Ho; unfold bindQ; [by iwp|intros [= ->]; done|done].
Qed.

(** ** The life of an access token *)

Lemma token_expiry r es resp :
  runs (token r) es (Ok resp) →
  trs_expires_in resp = 900%Z ∧
  ∃ st, Get (presented r) (Some st) ∈ es ∧
    ∀ k v x b, Put k v x b ∈ es → s_expires_at v = s_expires_at st.
Proof.
  intros H. pose proof (token_covers _ _ _ H) as (st & items & tok & Hg & _ & _ & _ & _ & _ & Hp).
  apply token_ok in H as (st' & t & srv & gts & id & cl & its & es_i & tok' & nonce & t2 & H).
  cbn zeta in H. destruct H as (_ & _ & _ & _ & _ & _ & _ & ->). split; [done|].
  exists st. split; [done|]. intros k v x b Hin. apply Hp in Hin as (_ & -> & _). done.
Qed.

(** ** Configurations that do not exist *)

Lemma unknown_refused a es resp r h0 d ds id :
  runs (authorize a) es (Ok resp) → request_object_of a h0 r → h0 `prefix_of` es →
  ro_authorization_details r = Some ds → d ∈ ds →
  (∃ cs, narrowed d = Some cs) ∨ (∃ f, ad_credential d = ByFormat f) →
  ∃ iss, X (VIssuer (ro_credential_issuer r) (Some iss)) ∈ es ∧
    (configured iss d id → is_Some (assoc id (is_configurations iss))).
Proof.
  intros H Ho Hpre Hds Hd Hor.
  apply authorize_claims in H as (r' & h0' & h1 & iss & Ho' & Hes & Hacc).
  assert (r' = r) as ->.
  { destruct a as [u|r0]; simpl in *.
    - destruct Ho as (st & exp & t & -> & Hs & _), Ho' as (st' & exp' & t'' & -> & Hs' & _).
      destruct Hpre as [l Hl]. rewrite Hes in Hl. simpl in Hl. injection Hl as -> -> _. congruence.
    - destruct Ho as [-> ->], Ho' as [-> ->]. done. }
  exists iss. split; [rewrite Hes; apply elem_of_app; right; by left|]. intros Hc.
  destruct Hor as [[cs Hcs]|[f Hf]].
  - destruct (Hacc ds d Hds Hd) as (id' & Hc' & Hcl). rewrite (configured_inj _ _ _ _ Hc Hc').
    destruct (Hcl cs Hcs) as (cfg & -> & _). eauto.
  - unfold configured in Hc. rewrite Hf in Hc. destruct Hc as (l1 & cfg & l2 & Heq & _). rewrite Heq.
    clear. induction l1 as [|[k a] l1 IH]; simpl.
    + rewrite bool_decide_eq_true_2 by done. eauto.
    + case_bool_decide; eauto.
Qed.
