(** Lemmas behind the expiry properties. *)
From Verif Require Import Base Json CoreModel VcModel Prog ProgFacts ExecSpec ExecFacts IssuerTypes
  ClaimsModel Sha256 IssuerModel IssuerSpec IssuerFacts IssuerWp IssuerExec IssuerOffer IssuerToken.

(** ** Nothing succeeds on an expired state *)

Lemma read_then_intro es1 es2 es3 k st t (P : Z → Prop) :
  P t → read_then (es1 ++ Get k (Some st) :: es2 ++ X (VNow t) :: es3) k st P.
Proof. intros H. by exists es1, es2, es3, t. Qed.

Lemma read_then_app es es' k st P : read_then es k st P → read_then (es' ++ es) k st P.
Proof.
  intros (es1 & es2 & es3 & t & -> & H). exists (es' ++ es1), es2, es3, t.
  split; [|done]. by rewrite <-app_assoc.
Qed.
Lemma read_then_app_r es es' k st P : read_then es k st P → read_then (es ++ es') k st P.
Proof.
  intros (es1 & es2 & es3 & t & -> & H). exists es1, es2, (es3 ++ es'), t.
  split; [|done]. by rewrite <-!app_assoc, <-app_comm_cons, <-!app_assoc.
Qed.

Lemma credential_offer_live r es o k st :
  runs (credential_offer_endpoint r) es (Ok o) → Get k (Some st) ∈ es → read_then es k st (live st).
Proof.
  intros H Hin. apply credential_offer_ok in H as (st' & t & -> & He & _).
  apply is_expired_false in He.
  rewrite !elem_of_cons, elem_of_nil in Hin. destruct Hin as [[= -> ->]|[?|[?|[]]]]; [|done..].
  by apply (read_then_intro [] [_] []).
Qed.

Lemma token_live r es o k st :
  runs (token r) es (Ok o) → Get k (Some st) ∈ es → read_then es k st (live st).
Proof.
  intros H Hin. apply token_ok in H as
    (st' & t & srv & gts & id & cl & items & es_i & tok & nonce & t2 & -> & He & _ & Hgc & _ & _ & Hit & ->).
  apply is_expired_false in He.
  assert (Get k (Some st) ∉ es_i) as Hn.
  { unfold token_items in Hit. destruct (tr_grant r).
    - destruct Hit as (? & _ & _ & ->). by intros ?%elem_of_nil.
    - destruct Hit as (? & ? & _ & _ & Hit). destruct (tr_authorization_details r).
      + destruct Hit as (? & -> & _). by intros ?%elem_of_list_singleton.
      + destruct Hit as [-> _]. by intros ?%elem_of_nil. }
  simpl in Hin. rewrite !elem_of_cons, elem_of_app, !elem_of_cons, elem_of_nil in Hin.
  destruct Hin as [Heq|[?|[?|[?|[?|[?|[?|[?|[?|[?|[]]]]]]]]]]]; try done.
  injection Heq as -> ->. by apply (read_then_intro [] [_] _).
Qed.

Lemma issued_no_get st iss cfg did sg claims date es jwt k v :
  issued_by st iss cfg did sg claims date es jwt → Get k v ∉ es.
Proof.
  unfold issued_by. destruct (cc_format cfg); try done.
  - intros (? & ? & ? & ? & ? & ? & _ & _ & _ & _ & _ & ->).
    rewrite !elem_of_cons, elem_of_nil. by intros [?|[?|[]]].
  - intros ->. by intros ?%elem_of_list_singleton.
Qed.
Lemma selected_no_get iss tok c es auth k v : credential_selected iss tok c es auth → Get k v ∉ es.
Proof.
  unfold credential_selected. destruct c.
  - intros [-> _]. by intros ?%elem_of_nil.
  - intros (? & ? & _ & -> & _). by intros ?%elem_of_list_singleton.
Qed.
Lemma proofs_no_get nonce l es k v : Forall2 (proof_ev nonce) l es → Get k v ∉ es.
Proof.
  intros H Hin. apply elem_of_list_lookup in Hin as [n Hn].
  destruct (Forall2_lookup_r _ _ _ _ _ H Hn) as (? & _ & ? & ? & ? & _). done.
Qed.
Lemma proof_checked_no_get cfg tok p es did k v : proof_checked cfg tok p es did → Get k v ∉ es.
Proof.
  unfold proof_checked. destruct (cc_proof_types cfg).
  - intros (_ & pr & _ & H & _). by eapply proofs_no_get.
  - intros [-> _]. by intros ?%elem_of_nil.
Qed.

Lemma credential_live r es o :
  runs (credential r) es (Ok o) →
  ∃ st tok es', es = Get (cr_access_token r) (Some st) :: es' ∧ (∀ k v, Get k v ∉ es') ∧
    s_stage st = Validated tok ∧ read_then es (cr_access_token r) st (live st) ∧
    read_then es (cr_access_token r) st (λ t, t < tk_c_nonce_expires_at tok + seconds 1)%Z.
Proof.
  intros H. apply credential_ok in H as
    (st & tok & iss & es_o & auth & cfg & t1 & t2 & es_p & did & subj & ds0 & es_t & -> & Hs & Hsel & _ & He & Hn & Hp & _ & Ht).
  apply is_expired_false in He. apply c_nonce_expired_false in Hn.
  exists st, tok. eexists. split; [by rewrite <-!app_comm_cons|]. split_and!.
  - intros k v. pose proof (selected_no_get _ _ _ _ _ k v Hsel) as H1.
    pose proof (proof_checked_no_get _ _ _ _ _ k v Hp) as H2.
    assert (Get k v ∉ es_t) as H3.
    { destruct (ds_pending ds0).
      - destruct Ht as (? & ? & -> & _). rewrite !elem_of_cons, elem_of_nil. by intros [?|[?|[?|[]]]].
      - destruct Ht as (? & ? & ? & ? & ? & ? & ? & ? & -> & Hi & _).
        pose proof (issued_no_get _ _ _ _ _ _ _ _ _ k v Hi).
        rewrite !elem_of_app, !elem_of_cons, elem_of_nil.
        intros [[?|[?|[]]]|[?|[?|[?|[?|[?|[?|[?|[?|[]]]]]]]]]]; done. }
    cbn [app]. rewrite !elem_of_cons, !elem_of_app, !elem_of_cons, !elem_of_app, !elem_of_cons.
    intros [?|[?|[?|[?|[?|[?|?]]]]]]; done.
  - done.
  - eexists [], (X (VIssuer (cr_credential_issuer r) (Some iss)) :: es_o), _, t1.
    split; [|exact He]. simpl. reflexivity.
  - eexists [], (X (VIssuer (cr_credential_issuer r) (Some iss)) :: es_o ++ [X (VNow t1)]), _, t2.
    split; [|exact Hn]. simpl. rewrite <-!app_assoc. reflexivity.
Qed.

Lemma deferred_live r es o :
  runs (deferred r) es (Ok o) →
  (∀ k st, Get k (Some st) ∈ es → read_then es k st (live st)) ∧
  ∃ st tok, s_stage st = Validated tok ∧
    read_then es (dr_access_token r) st (λ t, t < tk_c_nonce_expires_at tok + seconds 1)%Z.
Proof.
  intros H. apply deferred_ok in H as (st & t & txn & cr & es_c & c & -> & He & Hs & _ & Hc).
  apply is_expired_false in He.
  apply credential_live in Hc as (st' & tok & es' & Heq & Hno & Hs' & Hl & Hn). simpl in *.
  split.
  - intros k st0 Hin. rewrite !elem_of_cons, Heq in Hin.
    destruct Hin as [[= -> ->]|[?|[?|[[= -> ->]|Hin]%elem_of_cons]]]; try done.
    + by apply (read_then_intro [] [] _).
    + by apply (read_then_app _ [_; _; _]).
    + by apply Hno in Hin.
  - exists st', tok. split; [done|]. by apply (read_then_app _ [_; _; _]).
Qed.

Lemma authorize_live a es o :
  runs (authorize a) es (Ok o) →
  ∃ r, match a with
       | ARObject r' => r = r'
       | ARUri u => ∃ st exp, s_stage st = PushedAuthorization r exp ∧
           read_then es u st (λ t, t ≤ exp)%Z
       end ∧
       ∀ k, ro_issuer_state r = Some k → ∃ st, read_then es k st (live st).
Proof.
  intros H. apply authorize_ok in H as (is_par & r & es_r & iss & ctx & es_v & es_p & -> & Ha & Hv & _).
  exists r. split.
  - destruct a as [u|r']; [|by destruct Ha].
    destruct Ha as (_ & st & exp & t & -> & Hs & Ht). exists st, exp. split; [done|].
    by apply (read_then_intro [] [] _).
  - intros k Hk. unfold authorize_verify in Hv.
    iseq Hv as cl' Hm. iseq Hv as cl Hcl. iseq Hv as srv' Hm. iseq Hv as srv Hsrv.
    iseq Hv as u1 Hx1. iseq Hv as u2 Hx2. iseq Hv as u3 Hx3. apply check_scopes_ok in Hx3 as [-> _].
    iseq Hv as u4 Hx4. iseq Hv as u5 Hx5. iseq Hv as u6 Hx6.
    rewrite Hk in Hv. apply runs_bind_ok in Hv as (e1 & e2 & u7 & -> & Hi & Hv). clear Hv.
    assert (∃ st, read_then e1 k st (live st)) as [st Hst].
    2:{ exists st. cbn [app]. apply read_then_app. apply (read_then_app _ [_; _; _]).
        by do 2 apply read_then_app_r. }
    iruns. subst. bools. match goal with H : is_expired _ _ = false |- _ => apply is_expired_false in H end. eexists. apply (read_then_intro [] [] []). done.
Qed.

(** ** Nothing is reported as expired too early *)

Definition expiry_error (e : error) : bool :=
  match e with
  | InvalidRequest s => String.eqb s "state expired" || String.eqb s "issuer state expired" ||
      String.eqb s "authorization state expired" || String.eqb s "`request_uri` has expired"
  | InvalidCredentialRequest s => String.eqb s "token state expired"
  | AccessDenied s => String.eqb s "c_nonce has expired"
  | _ => false
  end.
Definition plain_error (e : error) : Prop := expiry_error e = false.

Ltac plain_tac := reflexivity.

(** The error is justified by the calls made. *)
Definition justified (h : ihist) (e : error) : Prop :=
  (e ∈ state_expired_errors → ∃ k st, read_then h k st (λ t, s_expires_at st + seconds 1 ≤ t)%Z) ∧
  (e = nonce_expired_error → ∃ k st tok, s_stage st = Validated tok ∧
     read_then h k st (λ t, tk_c_nonce_expires_at tok + seconds 1 ≤ t)%Z) ∧
  (e = reference_expired_error → ∃ k st r exp, s_stage st = PushedAuthorization r exp ∧
     read_then h k st (λ t, exp < t)%Z).

Lemma plain_justified h e : plain_error e → justified h e.
Proof.
  intros H. unfold justified, state_expired_errors. rewrite !elem_of_cons, elem_of_nil. split_and!.
  - intros [->|[->|[->|[->|[]]]]]; discriminate H.
  - intros ->. discriminate H.
  - intros ->. discriminate H.
Qed.

Definition post {A} (p : iprog A) (Q : ihist → outcome error A → Prop) (h : ihist) : Prop :=
  wp (λ _ _, True) Q p h.

(** Programs that never report expiry. *)
Definition plain {A} (p : iprog A) : Prop :=
  ∀ h, wp (λ _ _, True) (λ _ o, match o with Err e => plain_error e | _ => True end) p h.

Lemma plain_bind {A B} (m : iprog A) (f : A → iprog B) : plain m → (∀ a, plain (f a)) → plain (bind m f).
Proof.
  intros H1 H2 h. apply wp_bind. eapply wp_call_lemma; [apply H1|].
  intros h' [a|e|w] He; unfold bindQ; [apply H2|done..].
Qed.
Lemma plain_mapM {A B} (f : A → iprog B) l : (∀ a, plain (f a)) → plain (mapM_prog f l).
Proof.
  intros Hf h. apply (wp_mapM _ _ _ (λ _ _ _, True)); [done| |done].
  intros a dn bs h' _. eapply wp_call_lemma; [apply Hf|]. by intros h'' [].
Qed.
Ltac plains := intros ?h; iwp; try plain_tac.

Lemma plain_iterate {A} (l : list A) : plain (iterate l).
Proof. unfold iterate. plains. Qed.

(** Running a plain program, then something else. *)
Lemma wp_plain {A B} (m : iprog A) (f : A → iprog B) h :
  plain m →
  (∀ es a, runs m es (Ok a) →
    wp (λ _ _, True) (λ h' o, match o with Err e => justified h' e | _ => True end) (f a) (h ++ es)) →
  wp (λ _ _, True) (λ h' o, match o with Err e => justified h' e | _ => True end) (bind m f) h.
Proof.
  intros Hm Hf. apply wp_bind. apply wp_intro; [done|]. intros es o Hr.
  pose proof (wp_runs _ _ _ _ _ _ (Hm h) Hr) as Hp.
  destruct o as [a|e|w]; unfold bindQ; [by apply Hf|by apply plain_justified|done].
Qed.
Lemma plain_just {A} (m : iprog A) h :
  plain m → wp (λ _ _, True) (λ h' o, match o with Err e => justified h' e | _ => True end) m h.
Proof.
  intros Hm. eapply wp_call_lemma; [apply Hm|]. intros h' [a|e|w] H; [done| |done]. by apply plain_justified.
Qed.

Lemma justified_state h k st es t e :
  e ∈ state_expired_errors → is_expired st t = true →
  justified (h ++ Get k (Some st) :: es ++ [X (VNow t)]) e.
Proof.
  intros He Hx. apply is_expired_true in Hx. split_and!.
  - intros _. exists k, st. by apply read_then_intro.
  - intros ->. exfalso. unfold state_expired_errors in He.
    repeat (apply elem_of_cons in He as [He|He]; [discriminate|]). by apply elem_of_nil in He.
  - intros ->. exfalso. unfold state_expired_errors in He.
    repeat (apply elem_of_cons in He as [He|He]; [discriminate|]). by apply elem_of_nil in He.
Qed.

Notation just p h :=
  (wp (λ _ _, True) (λ h' o, match o with Err e => justified h' e | _ => True end) p h).

Ltac jplain := apply plain_justified; plain_tac.

Lemma credential_offer_just r h : just (credential_offer_endpoint r) h.
Proof.
  unfold credential_offer_endpoint. iwp; try jplain. subst.
  match goal with H : negb _ = false |- _ => apply negb_false_iff in H end.
  rewrite <-!app_assoc. cbn [app].
  match goal with |- justified (_ ++ Get ?k (Some ?s) :: ?e1 :: [X (VNow ?t)]) _ =>
    apply (justified_state _ k s [e1] t) end; [|done]. unfold state_expired_errors. set_solver.
Qed.

Lemma plain_check_scopes cl srv : plain (check_scopes cl srv).
Proof. unfold check_scopes. plains. Qed.
Lemma plain_create_offer r : plain (create_offer r).
Proof.
  unfold create_offer. do 4 (apply plain_bind; [plains|intros ?]).
  apply plain_bind; [unfold create_offer_verify; plains|intros _].
  unfold create_offer_process. apply plain_bind; [unfold make_credential_offer; plains|intros ?].
  apply plain_bind; [plains|intros ?]. apply plain_bind; [|intros ?; plains].
  destruct (_ || _); [|plains].
  apply plain_bind; [|intros ?].
  { destruct (contains _ _); [|plains]. apply plain_bind; [|intros ?; plains].
    unfold offer_authorize. apply plain_mapM. intros ?. plains. }
  apply plain_bind; [unfold state_key; plains|intros ?; plains].
Qed.

Lemma plain_verify_authorization_details iss l acc : plain (verify_authorization_details iss l acc).
Proof.
  revert acc. induction l as [|d l IH]; intros acc; cbn [verify_authorization_details].
  { plains. }
  apply plain_bind; [plains|]. intros [config_id claims].
  apply plain_bind; [plains|]. intros _. apply IH.
Qed.

Lemma authorize_verify_just iss is_par r h : just (authorize_verify iss is_par r) h.
Proof.
  unfold authorize_verify.
  do 10 (apply wp_plain; [first [apply plain_check_scopes|plains]|intros ? ? _]).
  apply wp_bind. apply (wp_call_lemma _ _ (λ h' o, match o with Err e => justified h' e | _ => True end)).
  { destruct (ro_issuer_state r); [|by iwp]. iwp; try jplain. subst.
    match goal with H : negb _ = false |- _ => apply negb_false_iff in H end.
    rewrite <-!app_assoc. cbn [app]. rewrite !app_assoc.
    match goal with |- justified (_ ++ [Get ?k (Some ?s); X (VNow ?t)]) _ =>
      apply (justified_state _ k s [] t) end; [|done]. unfold state_expired_errors. set_solver. }
  intros h' [u|e|w] Hj; unfold bindQ; [|done..]. apply plain_just.
  apply plain_bind; [plains|intros _].
  apply plain_bind; [|intros auth_dets].
  { destruct (ro_authorization_details r); [apply plain_verify_authorization_details|plains]. }
  apply plain_bind; [|intros ?; plains].
  unfold verify_scope. plains.
Qed.

Lemma plain_authorize_items {A} subj (mk : A → item_type) l : plain (authorize_items subj mk l).
Proof. apply plain_mapM. intros p. plains. Qed.

Lemma authorize_just a h : just (authorize a) h.
Proof.
  unfold authorize. apply wp_bind.
  apply (wp_call_lemma _ _ (λ h' o, match o with Err e => justified h' e | _ => True end)).
  { destruct a as [u|r]; [|by iwp]. iwp; try jplain. subst.
    match goal with H : negb _ = false |- _ => apply negb_false_iff, Z.ltb_lt in H end.
    rewrite <-!app_assoc. cbn [app]. split_and!.
    - unfold state_expired_errors. intros He.
      repeat (apply elem_of_cons in He as [He|He]; [discriminate|]). by apply elem_of_nil in He.
    - discriminate.
    - intros _. eexists u, _, _, _. split; [done|].
      match goal with |- read_then (_ ++ [Get ?k (Some ?s); X (VNow ?t)]) _ _ _ =>
        by apply (read_then_intro _ [] []) end. }
  intros h' [[is_par r]|e|w] Hj; unfold bindQ; [|done..].
  apply wp_plain; [plains|intros ? ? _]. apply wp_plain; [plains|intros ? iss _].
  apply wp_bind. eapply wp_call_lemma; [apply authorize_verify_just|].
  intros h'' [ctx|e|w] Hj'; unfold bindQ; [|done..]. apply plain_just.
  unfold authorize_process.
  apply plain_bind; [apply plain_iterate|intros ?]. apply plain_bind; [apply plain_authorize_items|intros ?].
  apply plain_bind; [apply plain_iterate|intros ?]. apply plain_bind; [apply plain_authorize_items|intros ?].
  plains.
Qed.

Lemma par_just r h : just (par r) h.
Proof.
  unfold par. apply wp_plain; [plains|intros ? ? _]. apply wp_plain; [plains|intros ? iss _].
  apply wp_bind. eapply wp_call_lemma; [apply authorize_verify_just|].
  intros h'' [ctx|e|w] Hj'; unfold bindQ; [|done..]. apply plain_just. unfold par_process. plains.
Qed.

Notation justQ := (λ h' o, match o with Err e => justified h' e | _ => True end).

Lemma plain_retain_details r items : plain (retain_details r items).
Proof.
  unfold retain_details. destruct (tr_authorization_details r); [|plains].
  do 2 (apply plain_bind; [plains|intros ?]).
  apply plain_mapM. intros d. unfold token_verify_claims. plains.
Qed.

Lemma token_just r h : just (token r) h.
Proof.
  unfold token. iwx st'. iwo st Hst; [|jplain]. subst. apply wp_bind. iwp1; [done|unfold bindQ|jplain].
  apply wp_bind. apply (wp_call_lemma _ _ justQ).
  { unfold token_verify. iwx t. iwe He.
    2:{ apply negb_false_iff in He. rewrite <-!app_assoc. cbn [app].
        apply (justified_state _ _ st [_] t); [|done]. unfold state_expired_errors. set_solver. }
    apply plain_just. do 3 (apply plain_bind; [plains|intros ?]).
    apply plain_bind; [plains|intros _]. unfold check_scopes. plains. }
  intros h' [u|e|w] Hj; unfold bindQ; [|done..]. apply plain_just. unfold token_process.
  apply plain_bind; [|intros ?; plains].
  destruct (tr_grant r); destruct (s_stage st); try solve [plains].
  apply plain_bind; [plains|intros ?]. apply plain_retain_details.
Qed.

Lemma plain_reject_proof {A} st hint : plain (A:=A) (reject_proof st hint).
Proof. unfold reject_proof, invalid_proof. plains. Qed.
Lemma plain_verify_proofs st nonce jwts did : plain (verify_proofs st nonce jwts did).
Proof.
  revert did. induction jwts as [|jwt jwts IH]; intros did; cbn [verify_proofs]; [plains|].
  apply plain_bind; [plains|]. intros [p|]; [|apply plain_reject_proof].
  do 2 (destruct (negb _); [apply plain_reject_proof|]).
  destruct (pj_kid p); [apply IH|apply plain_reject_proof].
Qed.
Lemma plain_credential_authorized st iss r : plain (credential_authorized st iss r).
Proof.
  unfold credential_authorized. destruct (s_stage st); try solve [plains].
  apply plain_bind; [|intros a; plains]. destruct (cr_credential r); [plains|].
  apply plain_bind; [plains|]. intros cid.
  apply plain_bind; [apply plain_iterate|]. intros l. plains.
Qed.
Lemma plain_credential_process st iss auth cfg did r : plain (credential_process st iss auth cfg did r).
Proof.
  unfold credential_process. apply plain_bind; [unfold credential_dataset; plains|intros ds].
  destruct (ds_pending ds); [unfold defer_response; plains|].
  unfold issue_response. do 3 (apply plain_bind; [plains|intros ?]).
  apply plain_bind; [|intros ?; plains].
  unfold w3c_vc, jwt_vc_json, mso_mdoc. destruct (cc_format cfg); try solve [plains].
  apply plain_bind.
  - do 5 (apply plain_bind; [plains|intros ?]).
    destruct (match cc_display cfg with Some l => create_names l | None => (None, None) end). plains.
  - intros v h. unfold vc_claims_from. iwp; try plain_tac. destruct (match vc_subject v with QOne s => Some s | QMany l => head l end); iwp; first [exact I|plain_tac].
Qed.

Lemma credential_just r h : just (credential r) h.
Proof.
  unfold credential. iwx st'. iwo st Hst; [|jplain]. iwx iss'. iwo iss Hiss; [|jplain]. subst.
  apply wp_plain; [apply plain_credential_authorized|]. intros es auth Ha.
  apply credential_authorized_ok in Ha as (tok & Htok & _).
  iwo cfg Hcfg; [|jplain]. apply wp_bind. apply (wp_call_lemma _ _ justQ).
  { unfold credential_verify. rewrite Htok. iwx t1. iwe He.
    2:{ apply negb_false_iff in He.
        replace ((((h ++ [Get (cr_access_token r) (Some st)]) ++
          [X (VIssuer (cr_credential_issuer r) (Some iss))]) ++ es) ++ [X (VNow t1)])
          with (h ++ Get (cr_access_token r) (Some st) ::
            (X (VIssuer (cr_credential_issuer r) (Some iss)) :: es) ++ [X (VNow t1)])
          by by rewrite <-!app_assoc.
        apply justified_state; [|done]. unfold state_expired_errors. set_solver. }
    iwx t2. iwe Hn.
    2:{ apply negb_false_iff, c_nonce_expired_true in Hn. split_and!.
        - unfold state_expired_errors. intros Hx.
          repeat (apply elem_of_cons in Hx as [Hx|Hx]; [discriminate|]). by apply elem_of_nil in Hx.
        - intros _. exists (cr_access_token r), st, tok. split; [done|].
          exists h, (X (VIssuer (cr_credential_issuer r) (Some iss)) :: es ++ [X (VNow t1)]), [], t2.
          split; [|done]. by simplify_list_eq.
        - discriminate. }
    apply plain_just. destruct (cc_proof_types cfg); [|plains].
    destruct (cr_proof r); [|apply plain_reject_proof].
    apply plain_bind; [plains|intros _]. apply plain_verify_proofs. }
  intros h' [did|e|w] Hj; unfold bindQ; [|done..]. apply plain_just, plain_credential_process.
Qed.

Lemma deferred_just r h : just (deferred r) h.
Proof.
  unfold deferred. iwx st'. iwo st Hst; [|jplain]. subst. iwx t. iwe He.
  2:{ apply negb_false_iff in He. rewrite <-!app_assoc. cbn [app].
      apply (justified_state _ _ st [] t); [|done]. unfold state_expired_errors. set_solver. }
  destruct (s_stage st) as [| | | | | | |txn cr] eqn:Hs; try (iwp; jplain).
  apply wp_bind. iwp1; [done|unfold bindQ|jplain].
  apply wp_bind. eapply wp_call_lemma; [apply credential_just|].
  intros h' [resp|e|w] Hj; unfold bindQ; [|done..]. iwp; jplain.
Qed.

Lemma expiry_justified q es e : runs (ihandler q) es (Err e) → justified es e.
Proof.
  assert (∀ A (m : iprog A) (f : A → ireply), just m [] → just (let! x := m in ok (f x)) []) as Hb.
  { intros A m f H. apply wp_bind. eapply wp_call_lemma; [done|]. intros h [a|e'|w] Hj; done. }
  assert (just (ihandler q) []) as Hwp.
  { destruct q; cbn [ihandler]; apply Hb.
    - apply plain_just, plain_create_offer.
    - apply credential_offer_just.
    - apply authorize_just.
    - apply par_just.
    - apply token_just.
    - apply credential_just.
    - apply deferred_just.
    - apply plain_just. unfold notification. plains.
    - apply plain_just. unfold register. plains.
    - apply plain_just. unfold metadata. plains.
    - apply plain_just. unfold oauth_server. plains. }
  intros Hr. apply (wp_runs _ _ _ _ _ _ Hwp Hr).
Qed.
