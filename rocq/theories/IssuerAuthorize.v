(** Facts about the authorization endpoints. *)
From Verif Require Import Base Json CoreModel VcModel Prog ProgFacts ExecSpec ExecFacts IssuerTypes
  ClaimsModel Sha256 IssuerModel IssuerSpec IssuerFacts IssuerWp IssuerExec IssuerOffer IssuerToken
  AuthorizeSpec IssuerClaims.

(** ** What is checked, in the words of the specification *)

Record ctx_ok (iss : issuer) (r : request_object) (ctx : authz_context) : Prop := {
  co_dets : ∀ id, id ∈ keys (ac_auth_dets ctx) ↔ by_detail iss r id;
  co_nodup : NoDup (keys (ac_auth_dets ctx));
  co_det : ∀ id d, (id, d) ∈ ac_auth_dets ctx →
    configured iss d id ∧ ∃ ds, ro_authorization_details r = Some ds ∧ d ∈ ds;
  co_scope : ∀ id item, (id, item) ∈ ac_scope_items ctx ↔ by_scope iss r id item;
  co_scope_nodup : NoDup (keys (is_configurations iss)) → NoDup (keys (ac_scope_items ctx));
}.

Lemma details_keys iss l ids :
  Forall2 (details_checked iss) l ids →
  ∀ id, id ∈ ids ↔ ∃ d, d ∈ l ∧ configured iss d id.
Proof.
  intros H id. split.
  - intros (i & Hi)%elem_of_list_lookup. destruct (Forall2_lookup_r _ _ _ _ _ H Hi) as (d & Hd & Hc).
    apply details_checked_spec in Hc as [Hc _]. exists d. split; [by eapply elem_of_list_lookup_2|done].
  - intros (d & (i & Hi)%elem_of_list_lookup & Hc).
    destruct (Forall2_lookup_l _ _ _ _ _ H Hi) as (id' & Hd & Hc').
    apply details_checked_spec in Hc' as [Hc' _]. rewrite (configured_inj _ _ _ _ Hc Hc').
    by eapply elem_of_list_lookup_2.
Qed.

Lemma dets_ok iss r dets :
  match ro_authorization_details r with
  | None => dets = []
  | Some l => ∃ ids, Forall2 (details_checked iss) l ids ∧
      dets = foldl (λ m p, ainsert p.1 p.2 m) [] (zip ids l)
  end →
  (∀ id, id ∈ keys dets ↔ by_detail iss r id) ∧ NoDup (keys dets) ∧
  (∀ id d, (id, d) ∈ dets → configured iss d id ∧ ∃ ds, ro_authorization_details r = Some ds ∧ d ∈ ds).
Proof.
  unfold by_detail. destruct (ro_authorization_details r) as [l|].
  - intros (ids & Hf & ->). destruct (details_table ids l []) as (H1 & H2 & H3).
    pose proof (Forall2_length _ _ _ Hf) as Hl. split; [|split].
    + intros id. rewrite (H2 (eq_sym Hl)), (details_keys _ _ _ Hf). split.
      * intros [?%elem_of_nil|(d & ? & ?)]; [done|eauto].
      * intros (ds & d & [= <-] & ? & ?). eauto.
    + apply H1. constructor.
    + intros id d Hin. destruct (H3 _ _ Hin) as [?%elem_of_nil|Hz]; [done|].
      apply elem_of_list_lookup in Hz as (i & Hi). apply lookup_zip_with_Some in Hi as (id' & d' & Heq & Hi1 & Hi2).
      injection Heq as -> ->. destruct (Forall2_lookup_lr _ _ _ _ _ _ Hf Hi2 Hi1) as (cl & Hc & Hcl).
      split; [by apply requested_credential_spec in Hc as [? _]|].
      exists l. split; [done|]. by eapply elem_of_list_lookup_2.
  - intros ->. split; [|split].
    + intros id. split; [by intros ?%elem_of_nil|]. by intros (? & ? & ? & _).
    + constructor.
    + by intros ? ? ?%elem_of_nil.
Qed.

Lemma scope_ok iss r dets item s rest :
  (∀ id, id ∈ keys dets ↔ by_detail iss r id) →
  ro_scope r = Some s → split_whitespace s = item :: rest →
  ∀ id it, (id, it) ∈ scope_configurations item dets (is_configurations iss) ↔ by_scope iss r id it.
Proof.
  intros Hd Hs Hw id it. rewrite scope_configurations_elem. unfold by_scope. split.
  - intros (-> & cfg & Hin & Hn & Hc). exists s, rest, cfg. split_and!; try done. by rewrite <-Hd.
  - intros (s' & rest' & cfg & Hs' & Hw' & Hin & Hc & Hn). assert (s' = s) as -> by congruence.
    rewrite Hw in Hw'. injection Hw' as <- <-. split; [done|]. exists cfg. by rewrite Hd.
Qed.

Lemma authz_ctx iss cl srv r ctx : authz_checked iss cl srv r ctx → ctx_ok iss r ctx.
Proof.
  intros H. destruct (dets_ok iss r _ (azc_details _ _ _ _ _ H)) as (H1 & H2 & H3).
  pose proof (azc_scope_items _ _ _ _ _ H) as Hsc.
  assert (∀ id item, (id, item) ∈ ac_scope_items ctx ↔ by_scope iss r id item) as Hs.
  { destruct (ro_scope r) as [s|] eqn:Es.
    - destruct (split_whitespace s) as [|item rest] eqn:Ew.
      + rewrite Hsc. intros id it. split; [by intros ?%elem_of_nil|].
        intros (s' & ? & ? & ? & Hw & _). congruence.
      + destruct Hsc as [-> _]. by eapply scope_ok.
    - rewrite Hsc. intros id it. split; [by intros ?%elem_of_nil|].
      intros (s' & ? & ? & ? & _). congruence. }
  constructor; try done. intros Hn.
  destruct (ro_scope r) as [s|]; [|rewrite Hsc; constructor].
  destruct (split_whitespace s); [rewrite Hsc; constructor|]. destruct Hsc as [-> _].
  by apply scope_configurations_nodup.
Qed.

Lemma authz_valid iss cl srv r ctx :
  authz_checked iss cl srv r ctx → (ac_auth_dets ctx ≠ [] ∨ ac_scope_items ctx ≠ []) →
  authorization_valid iss cl srv r.
Proof.
  intros H Hne. pose proof (authz_ctx _ _ _ _ _ H) as Hctx. pose proof Hctx as Hctx'. destruct H. constructor; try done.
  - destruct Hne as [Hne|Hne].
    + destruct (ac_auth_dets ctx) as [|[id d] l] eqn:E; [done|]. exists id. left.
      apply (co_dets _ _ _ Hctx). rewrite E. left.
    + destruct (ac_scope_items ctx) as [|[id it] l] eqn:E; [done|]. exists id. right. exists it.
      apply (co_scope _ _ _ Hctx). rewrite E. left.
  - intros ds d Hds Hd. rewrite Hds in azc_details. destruct azc_details as (ids & Hf & _).
    apply elem_of_list_lookup in Hd as (i & Hi).
    destruct (Forall2_lookup_l _ _ _ _ _ Hf Hi) as (id & _ & Hc). exists id. by apply details_checked_spec.
  - intros s item rest Hs Hw. rewrite Hs, Hw in azc_scope_items. destruct azc_scope_items as [Heq Hn].
    destruct (ac_scope_items ctx) as [|[id it] l] eqn:E; [done|]. exists id.
    assert (it = item) as <-.
    { assert ((id, it) ∈ (id, it) :: l) as Hin by left. rewrite Heq in Hin.
      by apply scope_configurations_elem in Hin as [? _]. }
    apply (co_scope _ _ _ Hctx). rewrite E. left.
Qed.

(** ** Failures *)

Lemma details_fails iss l acc h :
  wp (λ _ _, True) (λ h' o, h' = h ∧
    match o with
    | Ok res => ∃ ids, Forall2 (details_checked iss) l ids ∧
        res = foldl (λ m p, ainsert p.1 p.2 m) acc (zip ids l)
    | Err _ => ∃ d, d ∈ l ∧ ¬ acceptable iss d
    | Panic _ => False
    end) (verify_authorization_details iss l acc) h.
Proof.
  revert acc. induction l as [|d l IH]; intros acc; cbn [verify_authorization_details].
  { apply wp_ok. split; [done|]. exists []. auto. }
  apply wp_bind, wp_of_opt; unfold bindQ.
  2:{ intros Hn. split; [done|]. exists d. split; [left|]. intros (id & Hc & _).
      by eapply requested_credential_none. }
  intros [id claims] [Hc ->]%requested_credential_spec. apply wp_bind.
  assert (∀ (Hcl : ∀ cs, narrowed d = Some cs → ∃ cfg, assoc id (is_configurations iss) = Some cfg ∧
      ∀ sup, format_claims (cc_format cfg) = Some sup → claims_complete sup cs),
    wp (λ _ _, True) (λ h' o, h' = h ∧
      match o with
      | Ok res => ∃ ids, Forall2 (details_checked iss) (d :: l) ids ∧
          res = foldl (λ m p, ainsert p.1 p.2 m) acc (zip ids (d :: l))
      | Err _ => ∃ d', d' ∈ d :: l ∧ ¬ acceptable iss d'
      | Panic _ => False
      end) (verify_authorization_details iss l (ainsert id d acc)) h) as Hnext.
  { intros Hcl. eapply wp_call_lemma; [apply IH|]. intros h' [res|e|w] [-> Ho]; (split; [done|]); [|..|done].
    - destruct Ho as (ids & Hf & ->). exists (id :: ids). split; [|done]. constructor; [|done].
      by apply details_checked_spec.
    - destruct Ho as (d' & ? & ?). exists d'. split; [by right|done]. }
  assert (∀ cs, narrowed d = Some cs → ¬ (∃ cfg, assoc id (is_configurations iss) = Some cfg ∧
      verify_claims cfg cs = true) → ∃ d', d' ∈ d :: l ∧ ¬ acceptable iss d') as Hbad.
  { intros cs Hcs Hno. exists d. split; [left|]. intros (id' & Hc' & Hcl). apply Hno.
    rewrite (configured_inj _ _ _ _ Hc Hc'). destruct (Hcl cs Hcs) as (cfg & Ha & Hs).
    exists cfg. split; [done|]. by apply verify_claims_spec. }
  destruct (narrowed d) as [cs|] eqn:En.
  - apply wp_bind, wp_of_opt; unfold bindQ.
    2:{ intros Hn. split; [done|]. apply (Hbad cs); [done|]. intros (cfg & ? & _). congruence. }
    intros cfg Hcfg. apply wp_ensure; intros Hv; unfold bindQ.
    + apply Hnext. intros cs' [= <-]. exists cfg. split; [done|]. by apply verify_claims_spec.
    + split; [done|]. apply (Hbad cs); [done|]. intros (cfg' & ? & ?). congruence.
  - apply wp_ok. unfold bindQ. by apply Hnext.
Qed.

Definition verify_refused (iss : issuer) (is_par : bool) (r : request_object) (es : ihist) : Prop :=
  ∀ cl srv es', es = X (VClient (ro_client_id r) (Some cl)) ::
      X (VServer (ro_credential_issuer r) None (Some srv)) :: es' →
    (sv_require_par srv = Some true → is_par = true) → authorization_valid iss cl srv r →
    offer_linked r es' → (∀ e, e ∈ es' → ¬ failed e) → False.

Lemma refuse iss is_par r cl srv es :
  ((sv_require_par srv = Some true → is_par = true) → authorization_valid iss cl srv r →
   offer_linked r es → (∀ e, e ∈ es → ¬ failed e) → False) →
  verify_refused iss is_par r (X (VClient (ro_client_id r) (Some cl)) ::
      X (VServer (ro_credential_issuer r) None (Some srv)) :: es).
Proof. intros H cl' srv' es' [= <- <- <-]. done. Qed.

Lemma scopes_fail cl srv h :
  wp (λ _ _, True) (λ h' o, h' = h ∧
    match o with
    | Ok _ => True
    | Err _ => ¬ ∃ sc sup, cl_scope cl = Some sc ∧ sv_scopes_supported srv = Some sup ∧
        ∀ x, x ∈ split_whitespace sc → x ∈ sup
    | Panic _ => False
    end) (check_scopes cl srv) h.
Proof.
  unfold check_scopes. destruct (cl_scope cl) as [sc|] eqn:E1.
  2:{ apply wp_fail. split; [done|]. naive_solver. }
  destruct (sv_scopes_supported srv) as [sup|] eqn:E2.
  2:{ apply wp_fail. split; [done|]. naive_solver. }
  apply wp_ensure; intros Hb; (split; [done|]); [done|].
  intros (sc' & sup' & [= <-] & [= <-] & H). apply forallb_contains in H. congruence.
Qed.

Lemma contains_false `{EqDecision A} (l : list A) x : contains l x = false → x ∉ l.
Proof. unfold contains. apply bool_decide_eq_false. Qed.

Lemma verify_fails iss is_par r h :
  wp (λ _ _, True) (λ h' o, ∃ es, h' = h ++ es ∧
    match o with
    | Ok _ => True
    | Err _ => verify_refused iss is_par r es
    | Panic _ => False
    end) (authorize_verify iss is_par r) h.
Proof.
  unfold authorize_verify. iwx cl'. iwo cl Hcl.
  2:{ eexists. split; [done|]. by intros ? ? ? [= -> ?]. }
  iwx srv'. iwo srv Hsrv.
  2:{ eexists. split; [by rewrite <-app_assoc|]. intros ? ? ? [= ? -> ?]. congruence. }
  subst cl' srv'. rewrite <-app_assoc. cbn [app].
  set (h2 := h ++ _).
  assert (∀ es2, (( sv_require_par srv = Some true → is_par = true) → authorization_valid iss cl srv r →
      offer_linked r es2 → (∀ e, e ∈ es2 → ¬ failed e) → False) →
    ∃ es, h2 ++ es2 = h ++ es ∧ verify_refused iss is_par r es) as Hf.
  { intros es2 H2. eexists. split; [unfold h2; by rewrite <-app_assoc|]. by apply refuse. }
  assert (((sv_require_par srv = Some true → is_par = true) → authorization_valid iss cl srv r → False) →
    ∃ es, h2 = h ++ es ∧ verify_refused iss is_par r es) as Hf0.
  { intros H2. rewrite <-(app_nil_r h2). apply Hf. auto. }
  iwe Hpar.
  2:{ apply Hf0. intros Hp _. destruct (sv_require_par srv) as [[]|], is_par; try done. by specialize (Hp eq_refl). }
  iwe Hrt. 2:{ apply Hf0. intros _ Hv. apply contains_false in Hrt. by destruct (av_response_type _ _ _ _ Hv). }
  apply wp_bind. eapply wp_call_lemma; [apply scopes_fail|].
  intros h' [u|e|w] [-> Hsc]; unfold bindQ; [|apply Hf0; intros _ Hv; by destruct Hsc; destruct Hv|done].
  iwe Hgc. 2:{ apply Hf0. intros _ Hv. apply contains_false in Hgc. by destruct (av_grant _ _ _ _ Hv). }
  iwe Hgs. 2:{ apply Hf0. intros _ Hv. apply contains_false in Hgs. by destruct (av_grant _ _ _ _ Hv). }
  iwe Hsub. 2:{ apply Hf0. intros _ Hv. apply negb_false_iff, str_is_empty_true in Hsub. by destruct (av_subject _ _ _ _ Hv). }
  apply wp_bind.
  assert (∀ es2, wp (λ _ _, True) (λ h' o, ∃ es, h' = h ++ es ∧
    match o with
    | Ok _ => True
    | Err _ => verify_refused iss is_par r es
    | Panic _ => False
    end) (
    ensure (match ro_authorization_details r, ro_scope r with None, None => false | _, _ => true end)
      (InvalidRequest "no credentials requested") ;;
    let! auth_dets := match ro_authorization_details r with
                      | None => ok []
                      | Some l => verify_authorization_details iss l []
                      end in
    let! scope_items := match ro_scope r with
                        | None => ok []
                        | Some s => verify_scope iss s auth_dets
                        end in
    let! redirect_uri := of_opt (ro_redirect_uri r) (InvalidRequest "no `redirect_uri` specified") in
    let! redirect_uris := of_opt (cl_redirect_uris cl)
      (ServerError "`redirect_uri`s not set for client") in
    ensure (contains redirect_uris redirect_uri) (InvalidRequest "`redirect_uri` is not registered") ;;
    ensure (contains (default [] (cl_response_types cl)) (ro_response_type r))
      (UnsupportedResponseType "`response_type` not supported for client") ;;
    ensure (contains (sv_response_types_supported srv) (ro_response_type r))
      (UnsupportedResponseType "`response_type` not supported by server") ;;
    ensure (contains (default [] (sv_code_challenge_methods_supported srv)) (ro_code_challenge_method r))
      (InvalidRequest "unsupported `code_challenge_method`") ;;
    ensure (negb (Nat.ltb (String.length (ro_code_challenge r)) 43 ||
                  Nat.ltb 128 (String.length (ro_code_challenge r))))
      (InvalidRequest "code_challenge must be between 43 and 128 characters") ;;
    ok (AuthzContext auth_dets scope_items)) (h2 ++ es2)) as Hrest.
  { intros es2.
    assert ((authorization_valid iss cl srv r → False) →
      ∃ es, h2 ++ es2 = h ++ es ∧ verify_refused iss is_par r es) as Hf1.
    { intros H2. apply Hf. auto. }
    iwe Hreq.
    2:{ apply Hf1. intros Hv. destruct (ro_authorization_details r) eqn:E1, (ro_scope r) eqn:E2; try done.
        destruct (av_requested _ _ _ _ Hv) as (id & [(? & ? & ? & _)|(? & ? & ? & ? & ? & _)]); congruence. }
    apply wp_bind.
    apply wp_call_lemma with (Q' := λ h' o, h' = h2 ++ es2 ∧
      match o with
      | Ok dets => match ro_authorization_details r with
          | None => dets = []
          | Some l => ∃ ids, Forall2 (details_checked iss) l ids ∧
              dets = foldl (λ m p, ainsert p.1 p.2 m) [] (zip ids l)
          end
      | Err _ => ∃ ds d, ro_authorization_details r = Some ds ∧ d ∈ ds ∧ ¬ acceptable iss d
      | Panic _ => False
      end).
    { destruct (ro_authorization_details r) as [l|]; [|by apply wp_ok].
      eapply wp_call_lemma; [apply details_fails|]. intros h' [res|e|w] [-> Ho]; (split; [done|]); [done| |done].
      destruct Ho as (d & ? & ?). eauto. }
    intros h' [dets|e|w] [-> Ho]; unfold bindQ; [| |done].
    2:{ apply Hf1. intros Hv. destruct Ho as (ds & d & ? & ? & Hna). by eapply Hna, (av_details _ _ _ _ Hv). }
    destruct (dets_ok iss r _ Ho) as (Hd & _ & _).
    apply wp_bind.
    apply wp_call_lemma with (Q' := λ h' o, h' = h2 ++ es2 ∧
      match o with
      | Ok items => True
      | Err _ => ∃ s item rest, ro_scope r = Some s ∧ split_whitespace s = item :: rest ∧
          ∀ id, ¬ by_scope iss r id item
      | Panic _ => False
      end).
    { destruct (ro_scope r) as [s|] eqn:Es; [|by apply wp_ok]. unfold verify_scope.
      destruct (split_whitespace s) as [|item rest] eqn:Ew; [by apply wp_ok|].
      apply wp_bind, wp_ensure; intros Hne; unfold bindQ; [by apply wp_ok|]. split; [done|].
      exists s, item, rest. split_and!; try done. intros id Hb.
      apply (scope_ok iss r dets item s rest Hd Es Ew) in Hb.
      by destruct (scope_configurations _ _ _); [apply elem_of_nil in Hb|]. }
    intros h' [items|e|w] [-> Ho2]; unfold bindQ; [| |done].
    2:{ apply Hf1. intros Hv. destruct Ho2 as (s & item & rest & Hs & Hw & Hn).
        destruct (av_scope _ _ _ _ Hv s item rest Hs Hw) as (id & Hid). by apply Hn in Hid. }
    iwo u1 Hu1.
    2:{ apply Hf1. intros Hv. destruct (av_redirect _ _ _ _ Hv) as (? & ? & ? & _). congruence. }
    iwo u2 Hu2.
    2:{ apply Hf1. intros Hv. destruct (av_redirect _ _ _ _ Hv) as (? & ? & ? & ? & _). congruence. }
    iwe Hu. 2:{ apply Hf1. intros Hv. apply contains_false in Hu.
        destruct (av_redirect _ _ _ _ Hv) as (? & ? & ? & ? & ?). by simplify_eq. }
    iwe Hrc. 2:{ apply Hf1. intros Hv. apply contains_false in Hrc. by destruct (av_response_type _ _ _ _ Hv). }
    iwe Hrs. 2:{ apply Hf1. intros Hv. congruence. }
    iwe Hm. 2:{ apply Hf1. intros Hv. apply contains_false in Hm. by apply Hm, (av_method _ _ _ _ Hv). }
    iwe Hc. 2:{ apply Hf1. intros Hv. apply negb_false_iff, orb_true_iff in Hc.
        pose proof (av_challenge _ _ _ _ Hv). destruct Hc as [Hc|Hc]; apply Nat.ltb_lt in Hc; lia. }
    apply wp_ok. eexists. split; [|done]. unfold h2. by rewrite <-app_assoc. }
  destruct (ro_issuer_state r) as [k|] eqn:Ek.
  - iwx st'. iwo st Hst.
    2:{ apply Hf. intros _ _ _ Hn. apply (Hn (Get k None)); [|done]. subst. left. }
    iwx t. rewrite <-app_assoc. cbn [app]. subst st'.
    iwe Hexp.
    2:{ apply Hf. intros _ _ Hl _. destruct (Hl k Ek) as (st0 & t0 & es' & [= -> -> _] & Hlv & _).
        apply negb_false_iff, is_expired_true in Hexp. unfold live in Hlv. lia. }
    apply wp_ensure; intros Hs; unfold bindQ; [apply Hrest|].
    apply Hf. intros _ _ Hl _. destruct (Hl k Ek) as (st0 & t0 & es' & [= -> -> _] & _ & Hsj).
    by apply bool_decide_eq_false in Hs.
  - apply wp_ok. unfold bindQ. specialize (Hrest []). by rewrite app_nil_r in Hrest.
Qed.

Lemma items_fail {A} subject (mk : A → item_type) l h :
  wp (λ _ _, True) (λ h' o, ∃ es, h' = h ++ es ∧
    match o with
    | Ok its => length its = length l
    | Err _ => ∃ e, e ∈ es ∧ failed e
    | Panic _ => False
    end) (authorize_items subject mk l) h.
Proof.
  unfold authorize_items.
  apply (wp_mapM _ _ _ (λ h' dn bs, ∃ es, h' = h ++ es ∧ length bs = length dn)).
  - exists []. by rewrite app_nil_r.
  - intros p dn bs h' (es & -> & Hl). iwx ids. iwo its Hits.
    + apply wp_ok. eexists. split; [by rewrite <-app_assoc|]. rewrite !app_length. simpl. lia.
    + subst. eexists. split; [by rewrite <-app_assoc|]. eexists. split; [apply elem_of_app; right; left|]. done.
  - intros h' bs (es & -> & Hl). eauto.
Qed.

Lemma permute_length {A} ix (l : list A) : length (permute ix l) = length l.
Proof. apply Permutation_length, permute_perm. Qed.

Lemma iterate_all {A} (l : list A) h :
  wp (λ _ _, True) (λ h' o, ∃ e l', h' = h ++ [e] ∧ ¬ failed e ∧ o = Ok l' ∧ length l' = length l) (iterate l) h.
Proof.
  unfold iterate. iwx ix. apply wp_ok. eexists _, _. split; [done|]. split; [by intros []|]. split; [done|].
  apply permute_length.
Qed.

Lemma process_fails ctx r h :
  wp (λ _ _, True) (λ h' o, ∃ es, h' = h ++ es ∧
    match o with
    | Ok _ => True
    | Err _ => (∃ e, e ∈ es ∧ failed e) ∨ (ac_auth_dets ctx = [] ∧ ac_scope_items ctx = [])
    | Panic _ => False
    end) (authorize_process ctx r) h.
Proof.
  unfold authorize_process.
  apply wp_bind. eapply wp_call_lemma; [apply iterate_all|].
  intros h' o (e1 & l1 & -> & Hne1 & -> & Hl1). unfold bindQ.
  apply wp_bind. eapply wp_call_lemma; [apply items_fail|].
  intros h' [its1|e|w] (es1 & -> & Ho1); unfold bindQ; [| |done].
  2:{ eexists. split; [by rewrite <-app_assoc|]. left. destruct Ho1 as (e' & ? & ?). exists e'. split; [set_solver|done]. }
  apply wp_bind. eapply wp_call_lemma; [apply iterate_all|].
  intros h' o (e2 & l2 & -> & Hne2 & -> & Hl2). unfold bindQ.
  apply wp_bind. eapply wp_call_lemma; [apply items_fail|].
  intros h' [its2|e|w] (es2 & -> & Ho2); unfold bindQ; [| |done].
  2:{ eexists. split; [by rewrite <-!app_assoc|]. left. destruct Ho2 as (e' & ? & ?). exists e'. split; [set_solver|done]. }
  iwe Hne.
  2:{ eexists. split; [by rewrite <-!app_assoc|]. right. destruct (its1 ++ its2) eqn:E; [|done].
      apply app_eq_nil in E as [-> ->]. simpl in *. rewrite Hl1 in Ho1. rewrite Hl2 in Ho2.
      by destruct (ac_auth_dets ctx), (ac_scope_items ctx). }
  iwx t. iwx code. apply wp_bind, wp_sput; [done| |]; unfold bindQ.
  2:{ eexists. split; [by rewrite <-!app_assoc|]. left. eexists. split; [do 6 (apply elem_of_app; right); left|done]. }
  apply wp_bind. destruct (ro_issuer_state r) as [k|].
  - apply wp_spurge; [done| |]; unfold bindQ.
    + apply wp_ok. eexists. split; [by rewrite <-!app_assoc|done].
    + eexists. split; [by rewrite <-!app_assoc|]. left. exists (Purge k false). split; [|done].
      do 7 (apply elem_of_app; right). left.
  - apply wp_ok. unfold bindQ. apply wp_ok. eexists. split; [by rewrite <-!app_assoc|done].
Qed.

(** What the parts of a successful run look like. *)
Lemma verify_ok_events iss is_par r es ctx :
  runs (authorize_verify iss is_par r) es (Ok ctx) →
  ∃ cl srv es', es = X (VClient (ro_client_id r) (Some cl)) ::
      X (VServer (ro_credential_issuer r) None (Some srv)) :: es' ∧
    (sv_require_par srv = Some true → is_par = true) ∧
    authz_checked iss cl srv r ctx ∧ (∀ e, e ∈ es' → ¬ failed e) ∧
    match ro_issuer_state r with
    | None => es' = []
    | Some k => ∃ st t, es' = [Get k (Some st); X (VNow t)] ∧ live st t ∧
        s_subject_id st = Some (ro_subject_id r)
    end.
Proof.
  intros (cl & srv & es' & -> & Hp & Hc & Hs)%authorize_verify_ok. exists cl, srv, es'.
  split; [done|]. split; [done|]. split; [done|]. destruct (ro_issuer_state r) as [k|].
  - destruct Hs as (st & t & -> & He & Hsub). split.
    + intros e [->|[->|?%elem_of_nil]%elem_of_cons]%elem_of_cons; [by intros []..|done].
    + exists st, t. split; [done|]. split; [|done]. by apply is_expired_false.
  - subst. split; [|done]. by intros ? ?%elem_of_nil.
Qed.

Lemma process_ok_events ctx r es resp :
  runs (authorize_process ctx r) es (Ok resp) →
  (∀ e, e ∈ es → ¬ failed e) ∧ (ac_auth_dets ctx ≠ [] ∨ ac_scope_items ctx ≠ []).
Proof.
  intros (ix1 & ix2 & its1 & its2 & t & code & es_p & -> & H1 & H2 & Hne & -> & ->)%authorize_process_ok.
  split.
  - intros e. rewrite !elem_of_app. intros [He|[He|[He|[He|[He|He]]]]].
    + apply elem_of_list_singleton in He as ->. by intros [].
    + by eapply failed_auth_map.
    + apply elem_of_list_singleton in He as ->. by intros [].
    + by eapply failed_auth_map.
    + rewrite !elem_of_cons, elem_of_nil in He. destruct He as [->|[->|[->|[]]]]; by intros [].
    + destruct (ro_issuer_state r); [apply elem_of_list_singleton in He as ->; by intros []|by apply elem_of_nil in He].
  - apply Forall2_length in H1, H2. rewrite permute_length in H1. rewrite permute_length in H2.
    destruct (ac_auth_dets ctx); [|by left]. destruct (ac_scope_items ctx); [|by right].
    destruct its1, its2; done.
Qed.

Lemma verify_outcome iss is_par r h :
  wp (λ _ _, True) (λ h' o, ∃ es, h' = h ++ es ∧ runs (authorize_verify iss is_par r) es o ∧
    match o with
    | Ok _ => True
    | Err _ => verify_refused iss is_par r es
    | Panic _ => False
    end) (authorize_verify iss is_par r) h.
Proof.
  apply wp_intro; [done|]. intros es o H. exists es. split; [done|]. split; [done|].
  pose proof (wp_runs _ _ _ _ _ _ (verify_fails iss is_par r []) H) as (es' & Heq & Ho).
  simpl in Heq. by subst.
Qed.

Lemma authorize_iff a es o :
  runs (authorize a) es o →
  ((∃ resp, o = Ok resp) ↔
   ∃ r h0 iss cl srv es',
     es = h0 ++ X (VIssuer (ro_credential_issuer r) (Some iss)) ::
          X (VClient (ro_client_id r) (Some cl)) ::
          X (VServer (ro_credential_issuer r) None (Some srv)) :: es' ∧
     request_object_of a h0 r ∧ (sv_require_par srv = Some true → pushed a) ∧
     authorization_valid iss cl srv r ∧ offer_linked r es' ∧ (∀ e, e ∈ es' → ¬ failed e)).
Proof.
  intros Hr. split.
  { intros [resp ->]. apply authorize_ok in Hr as (is_par & r & es_r & iss & ctx & es_v & es_p & -> & Ha & Hv & Hp).
    apply verify_ok_events in Hv as (cl & srv & es' & -> & Hpar & Hc & Hnf & Hst).
    pose proof Hp as Hp'. apply process_ok_events in Hp' as [Hnf2 Hne].
    exists r, es_r, iss, cl, srv, (es' ++ es_p). split; [done|]. split.
    { destruct a as [u|r']; simpl; [destruct Ha as [_ ?]|destruct Ha as (? & _ & ?)]; done. }
    split. { intros Hq. destruct a; [done|]. destruct Ha as (_ & -> & _). by specialize (Hpar Hq). }
    split; [by eapply authz_valid|]. split.
    - intros k Hk. rewrite Hk in Hst. destruct Hst as (st & t & -> & ?). by eexists _, _, _.
    - intros e [He|He]%elem_of_app; auto. }
  intros (r & h0 & iss & cl & srv & es' & Hes & Ha & Hpar & Hv & Hl & Hnf).
  assert (∀ h is_par, h = h0 → (sv_require_par srv = Some true → is_par = true) →
    wp (λ _ _, True) (λ h' o, h' = es → ∃ resp, o = Ok resp)
      (let! iss := xcall (XIssuer (ro_credential_issuer r)) in
       let! iss := of_opt iss (InvalidRequest "invalid `credential_issuer`") in
       let! ctx := authorize_verify iss is_par r in
       authorize_process ctx r) h) as Hmain.
  { intros h is_par -> Hp. iwx iss'. iwo iss0 Hiss.
    2:{ rewrite Hes, Hiss. intros Heq. by apply app_inj_1 in Heq as [_ [= ?]]. }
    subst iss'. apply wp_bind. eapply wp_call_lemma; [apply verify_outcome|].
    intros h' [ctx|e|w] (es_v & -> & Hrv & Ho); unfold bindQ; [| |done].
    - eapply wp_call_lemma; [apply process_fails|]. intros h' [resp|e|w] (es_p & -> & Ho'); [by eauto| |done].
      intros Heq. exfalso. rewrite Hes, <-!app_assoc in Heq. apply app_inj_1 in Heq as [_ Heq]; [|done].
      simpl in Heq. injection Heq as -> Heq. destruct Ho' as [(e' & Hin & Hf)|[Hd Hs]].
      + assert (e' ∈ X (VClient (ro_client_id r) (Some cl)) ::
          X (VServer (ro_credential_issuer r) None (Some srv)) :: es') as Hin'.
        { rewrite <-Heq. set_solver. }
        rewrite !elem_of_cons in Hin'. destruct Hin' as [->|[->|Hin']]; [done..|by eapply Hnf].
      + apply verify_ok_events in Hrv as (cl' & srv' & es2 & _ & _ & Hc & _). apply authz_ctx in Hc.
        destruct (av_requested _ _ _ _ Hv) as (id & [Hid|(item & Hid)]).
        * apply (co_dets _ _ _ Hc) in Hid. rewrite Hd in Hid. by apply elem_of_nil in Hid.
        * apply (co_scope _ _ _ Hc) in Hid. rewrite Hs in Hid. by apply elem_of_nil in Hid.
    - intros Heq. exfalso. rewrite Hes, <-!app_assoc in Heq. apply app_inj_1 in Heq as [_ Heq]; [|done].
      simpl in Heq. injection Heq as -> Heq. subst es_v. by eapply Ho. }
  unfold authorize in Hr. destruct a as [u|r']; simpl in Ha.
  - destruct Ha as (st & exp & t & -> & Hs & Ht).
    match type of Hr with runs (bind ?m _) _ _ => assert (∀ o', runs m es o' → False) as Hlong end.
    { intros o' Ho. match type of Ho with runs ?m _ _ => assert (wp (λ _ _, True) (λ h' _, length h' < 3) m []) as Hwp end.
      { iwx st'. iwo st0 Hst; [|simpl; lia]. destruct (s_stage st0); try (apply wp_fail; simpl; lia).
        iwx t'. iwe Hexp; [apply wp_ok|]; simpl; lia. }
      pose proof (wp_runs _ _ _ _ _ _ Hwp Ho) as Hlt. rewrite Hes in Hlt. simpl in Hlt. lia. }
    apply runs_bind in Hr as [(es1 & es2 & p & Heq & Hm & Hr)|[(e & Hm & _)|(w & Hm & _)]];
      [|by apply Hlong in Hm..]. destruct p as [is_par r0].
    assert (is_par = true ∧ es1 = [Get u (Some st); X (VNow t)] ∧ r0 = r) as (-> & -> & ->).
    { clear Hr Hlong Hmain. iruns. simplify_eq. split_and!; [done..|congruence]. }
    eapply (wp_runs _ _ _ _ _ _ (Hmain _ true eq_refl (λ _, eq_refl))); [exact Hr|done].
  - destruct Ha as [-> ->]. apply runs_bind in Hr as [(es1 & es2 & p & Heq & Hm & Hr)|[(e & Hm & _)|(w & Hm & _)]].
    + apply runs_ok in Hm as [-> <-]. simpl in Heq. subst es2.
      eapply (wp_runs _ _ _ _ _ _ (Hmain _ false eq_refl (λ H, False_ind _ (Hpar H)))); [exact Hr|done].
    + unfold ok in Hm. rewrite runs_ret in Hm. naive_solver.
    + unfold ok in Hm. rewrite runs_ret in Hm. naive_solver.
Qed.

(** ** What is recorded *)

Lemma items_for_events iss r ctx ix1 ix2 items1 items2 es :
  ctx_ok iss r ctx →
  Forall2 (item_for ItemDetail) (permute ix1 (ac_auth_dets ctx)) items1 →
  Forall2 (item_for ItemScope) (permute ix2 (ac_scope_items ctx)) items2 →
  (∀ it, it ∈ items1 ++ items2 → auth_ev (ro_subject_id r) it ∈ es) →
  items_for iss r es (items1 ++ items2).
Proof.
  intros Hc H1 H2 Hev.
  assert (∀ {A} (mk : A → item_type) l its, Forall2 (item_for mk) l its → map ai_configuration_id its = keys l) as Hk.
  { intros A mk l its. induction 1 as [|[k a] it l its [_ Hit] _ IH]; simpl; [done|]. by rewrite Hit, IH. }
  assert (∀ {A} ix (l : list (string * A)), keys (permute ix l) ≡ₚ keys l) as Hp.
  { intros A ix l. unfold keys. by rewrite permute_perm. }
  assert (∀ {A} (mk : A → item_type) l its it, Forall2 (item_for mk) l its → it ∈ its →
    ∃ a, (ai_configuration_id it, a) ∈ l ∧ ai_item it = mk a) as Hl.
  { intros A mk l its it Hf (i & Hi)%elem_of_list_lookup.
    destruct (Forall2_lookup_r _ _ _ _ _ Hf Hi) as ([k a] & Hka & Hmk & Heq). simpl in *. subst.
    exists a. split; [by eapply elem_of_list_lookup_2|done]. }
  constructor.
  - intros id. rewrite map_app, elem_of_app, (Hk _ _ _ _ H1), (Hk _ _ _ _ H2), !Hp, (co_dets _ _ _ Hc).
    assert (id ∈ keys (ac_scope_items ctx) ↔ ∃ item, by_scope iss r id item) as ->; [|done].
    unfold keys. rewrite elem_of_list_fmap. split.
    + intros ([k it] & -> & Hin). exists it. by apply (co_scope _ _ _ Hc).
    + intros (item & Hb). exists (id, item). split; [done|]. by apply (co_scope _ _ _ Hc).
  - intros Hn. rewrite map_app, (Hk _ _ _ _ H1), (Hk _ _ _ _ H2). apply NoDup_app. rewrite (Hp _ ix1 (ac_auth_dets ctx)), (Hp _ ix2 (ac_scope_items ctx)).
    split; [apply (co_nodup _ _ _ Hc)|]. split; [|by apply (co_scope_nodup _ _ _ Hc)].
    intros id Hid. rewrite Hp in Hid. rewrite Hp. intros Hs. unfold keys in Hs.
    apply elem_of_list_fmap in Hs as ([k it] & -> & Hs). apply (co_scope _ _ _ Hc) in Hs as (? & ? & ? & _ & _ & _ & _ & Hnb).
    apply Hnb, (co_dets _ _ _ Hc), Hid.
  - apply Hev.
  - intros it [Hit|Hit]%elem_of_app.
    + destruct (Hl _ _ _ _ _ H1 Hit) as (d & Hd & ->). rewrite permute_perm in Hd.
      apply (co_det _ _ _ Hc) in Hd. done.
    + destruct (Hl _ _ _ _ _ H2 Hit) as (item & Hd & ->). rewrite permute_perm in Hd.
      by apply (co_scope _ _ _ Hc).
Qed.

Definition quiet (e : ievent) : Prop := match e with EPut _ _ _ _ | EPurge _ _ => False | _ => True end.

Lemma one_put (pre : ihist) k0 v0 x0 ok (pg : option string) :
  Forall quiet pre →
  (∀ k v x b, Put k v x b ∈ pre ++ Put k0 v0 x0 ok :: match pg with None => [] | Some k => [Purge k true] end ↔
     k = k0 ∧ b = ok ∧ x = x0 ∧ v = v0) ∧
  (∀ k, Purge k true ∈ pre ++ Put k0 v0 x0 ok :: match pg with None => [] | Some k => [Purge k true] end ↔ pg = Some k).
Proof.
  intros Hq. rewrite Forall_forall in Hq. split.
  - intros k v x b. rewrite elem_of_app, elem_of_cons. split.
    + intros [H|[H|H]].
      * by apply Hq in H.
      * by injection H as -> -> -> ->.
      * destruct pg; [|by apply elem_of_nil in H]. by apply elem_of_list_singleton in H.
    + intros (-> & -> & -> & ->). right. by left.
  - intros k. rewrite elem_of_app, elem_of_cons. split.
    + intros [H|[H|H]]; [by apply Hq in H|done|].
      destruct pg; [|by apply elem_of_nil in H]. apply elem_of_list_singleton in H. by injection H as ->.
    + intros ->. right. right. by left.
Qed.

Lemma quiet_auth s its : Forall quiet (map (auth_ev s) its).
Proof. apply Forall_forall. by intros e (it & -> & _)%elem_of_list_fmap. Qed.

Lemma authorize_records a es resp :
  runs (authorize a) es (Ok resp) →
  ∃ r h0 h1 iss t items,
    es = h0 ++ X (VIssuer (ro_credential_issuer r) (Some iss)) :: h1 ∧ request_object_of a h0 r ∧
    X (VNow t) ∈ h1 ∧
    X (VGen GAuthCode (ar_code resp)) ∈ h1 ∧ ar_state resp = ro_state r ∧
    ro_redirect_uri r = Some (ar_redirect_uri resp) ∧
    (∀ k v x b, Put k v x b ∈ es ↔ k = ar_code resp ∧ b = true ∧ x = (t + minutes 5)%Z ∧
       v = State (Some (ro_subject_id r))
             (StAuthorized (Authorization (ro_client_id r) (ro_redirect_uri r) (ro_code_challenge r)
                (ro_code_challenge_method r) items)) (t + minutes 5)%Z) ∧
    items_for iss r h1 items ∧ (∀ k, Purge k true ∈ es ↔ ro_issuer_state r = Some k).
Proof.
  intros Hr. apply authorize_ok in Hr as (is_par & r & es_r & iss & ctx & es_v & es_p & -> & Ha & Hv & Hp).
  apply verify_ok_events in Hv as (cl & srv & es' & -> & Hpar & Hc & Hnf & Hst).
  apply authorize_process_ok in Hp as (ix1 & ix2 & items1 & items2 & t & code & es_q & -> & H1 & H2 & Hne & -> & ->).
  assert (Forall quiet es_r) as Hqr.
  { destruct a; [destruct Ha as (_ & ? & ? & ? & -> & _)|destruct Ha as (_ & _ & ->)]; by repeat constructor. }
  assert (Forall quiet es') as Hq'.
  { destruct (ro_issuer_state r); [destruct Hst as (? & ? & -> & _)|subst es']; by repeat constructor. }
  cbn [ar_code ar_state ar_redirect_uri].
  set (val := State _ _ _).
  match goal with |- ∃ r h0 h1 iss t items, _ ++ [_] ++ ?hh = _ ∧ _ => exists r, es_r, hh, iss, t, (items1 ++ items2) end.
  split; [done|].
  split. { destruct a; [by destruct Ha as [_ ?]|by destruct Ha as (? & _ & ?)]. }
  split. { do 5 (apply elem_of_app; right). by left. }
  split. { do 5 (apply elem_of_app; right). right. by left. }
  split; [done|].
  split. { destruct (azc_redirect _ _ _ _ _ Hc) as (u & ? & -> & _). done. }
  set (puts := match ro_issuer_state r with Some k => [Purge k true] | None => [] end).
  match goal with |- context [es_r ++ ?hh] => assert (∃ pre, Forall quiet pre ∧ es_r ++ hh = pre ++ Put code val (t + minutes 5)%Z true :: puts) as (pre & Hq & Heq) end.
  { match goal with |- ∃ pre, _ ∧ es_r ++ [?e1] ++ (?e2 :: ?e3 :: es') ++ [?e4] ++ ?l1 ++ [?e5] ++ ?l2 ++ [?e6; ?e7; ?e8] ++ _ = _ =>
      exists (es_r ++ [e1] ++ (e2 :: e3 :: es') ++ [e4] ++ l1 ++ [e5] ++ l2 ++ [e6; e7]) end.
    split; [|rewrite <- !app_assoc; cbn [app]; rewrite <- ?app_assoc; cbn [app]; rewrite <- ?app_assoc; reflexivity].
    repeat (apply Forall_app; split); repeat (apply Forall_cons; split); try done; apply quiet_auth. }
  rewrite Heq. destruct (one_put pre code val (t + minutes 5)%Z true (ro_issuer_state r) Hq) as [Hputs Hpurges].
  split; [exact Hputs|]. split; [|exact Hpurges].
  eapply items_for_events; [by eapply authz_ctx|done|done|].
  intros it [Hit|Hit]%elem_of_app; rewrite !elem_of_app.
  - right. right. left. apply elem_of_list_fmap. eauto.
  - right. right. right. right. left. apply elem_of_list_fmap. eauto.
Qed.
