(** Which keys the endpoints touch, when they panic, and what failed requests save. *)
From Verif Require Import Base Json CoreModel VcModel Prog ProgFacts ExecSpec ExecFacts IssuerTypes
  ClaimsModel Sha256 IssuerModel IssuerSpec IssuerFacts IssuerWp IssuerExec IssuerCredential AuthorizeSpec.

(** ** Keys *)

(** The keys that are read and removed. *)
Definition get_inv (q : irequest) (h : ihist) (e : ievent) : Prop :=
  match e with
  | EGet k _ | EPurge k _ => k ∈ request_keys q ∨ ∃ k' st, Get k' (Some st) ∈ h ∧ k ∈ state_keys st
  | _ => True
  end.
Definition is_read (e : ievent) : bool := match e with EGet _ _ | EPurge _ _ => true | _ => false end.
Definition noread {A} (p : prog ISig A) : Prop :=
  ∀ h, wp (λ _ e, is_read e = false) (λ _ _, True) p h.

Lemma wp_noread {A} q (p : prog ISig A) (Q : ihist → A → Prop) h :
  noread p → (∀ es a, runs p es a → Q (h ++ es) a) → wp (get_inv q) Q p h.
Proof.
  intros Hn HQ. apply wp_intro; [|done]. intros es1 e es2 p' Hp.
  pose proof (wp_event _ _ _ _ [] es1 e es2 (Hn []) Hp) as H. by destruct e.
Qed.
Lemma noread_bind {A B} (m : iprog A) (f : A → iprog B) :
  noread m → (∀ a, noread (f a)) → noread (bind m f).
Proof.
  intros H1 H2 h. apply wp_bind. eapply wp_call_lemma; [apply H1|].
  intros h' [a|e|w] _; unfold bindQ; [apply H2|done..].
Qed.
Lemma noread_mapM {A B} (f : A → iprog B) l : (∀ a, noread (f a)) → noread (mapM_prog f l).
Proof.
  intros Hf h. apply (wp_mapM _ _ _ (λ _ _ _, True)); [done| |done].
  intros a dn bs h' _. eapply wp_call_lemma; [apply Hf|]. by intros h'' [].
Qed.
Lemma noread_iterate {A} (l : list A) : noread (iterate l).
Proof. intros h. unfold iterate. by iwp. Qed.
Lemma noread_authorize_items {A} subj (mk : A → item_type) l : noread (authorize_items subj mk l).
Proof. apply noread_mapM. intros p h. by iwp. Qed.
Lemma noread_verify_details iss l acc : noread (verify_authorization_details iss l acc).
Proof.
  revert acc. induction l as [|d l IH]; intros acc; cbn [verify_authorization_details].
  { intros h. iwp. }
  apply noread_bind; [intros h; iwp|]. intros [config_id claims].
  apply noread_bind; [intros h; by iwp|]. intros _. apply IH.
Qed.

Lemma create_offer_get q r h : wp (get_inv q) (λ _ _, True) (create_offer r) h.
Proof.
  apply wp_noread; [|done]. unfold create_offer.
  apply noread_bind; [intros h'; by iwp|intros iss']. apply noread_bind; [intros h'; by iwp|intros iss].
  apply noread_bind; [intros h'; by iwp|intros srv']. apply noread_bind; [intros h'; by iwp|intros srv].
  apply noread_bind; [intros h'; unfold create_offer_verify; by iwp|intros ?].
  unfold create_offer_process, make_credential_offer.
  apply noread_bind; [intros h'; by iwp|intros o]. apply noread_bind; [intros h'; by iwp|intros tx].
  apply noread_bind; [|intros ?; intros h'; by iwp].
  destruct (contains _ _ || contains _ _); [|intros h'; by iwp].
  apply noread_bind.
  { destruct (contains _ _); [|intros h'; by iwp]. apply noread_bind; [|intros ? h'; by iwp].
    unfold offer_authorize. apply noread_mapM. intros x h'. by iwp. }
  intros items. unfold state_key. apply noread_bind; [intros h'; by iwp|]. intros k h'. by iwp.
Qed.

(** The request object in hand is the one sent, or one that was read. *)
Definition in_hand (q : irequest) (h : ihist) (r : request_object) : Prop :=
  ∀ k, ro_issuer_state r = Some k →
    k ∈ request_keys q ∨ ∃ k' st, Get k' (Some st) ∈ h ∧ k ∈ state_keys st.

Lemma in_hand_app q h h' r : in_hand q h r → in_hand q (h ++ h') r.
Proof.
  intros H k Hk. destruct (H k Hk) as [?|(k' & st & Hg & Hs)]; [by left|]. right.
  exists k', st. split; [|done]. apply elem_of_app. by left.
Qed.

(** [safe q I p]: from any history with [I], the program reads and removes its own keys. *)
Definition safe (q : irequest) (I : ihist → Prop) {A} (p : prog ISig A) : Prop :=
  ∀ h, I h → wp (get_inv q) (λ _ _, True) p h.
Definition stable (I : ihist → Prop) : Prop := ∀ h h', I h → I (h ++ h').

Lemma safe_bind q I {A B} (m : iprog A) (f : A → iprog B) :
  stable I → safe q I m → (∀ a, safe q I (f a)) → safe q I (bind m f).
Proof.
  intros HI H1 H2 h Hh. apply wp_bind. apply wp_prefix. eapply wp_call_lemma; [by apply H1|].
  intros h' [a|e|w] _ [es ->]; unfold bindQ; [|done..]. apply H2. by apply HI.
Qed.
Lemma safe_noread q I {A} (p : prog ISig A) : noread p → safe q I p.
Proof. intros H h _. by apply wp_noread. Qed.

Lemma in_hand_stable q r : stable (λ h, in_hand q h r).
Proof. intros h h'. apply in_hand_app. Qed.

Lemma I_stable : stable (λ _, True).
Proof. done. Qed.
Ltac sbinds H := repeat lazymatch goal with
  | |- safe _ _ (bind _ _) => apply safe_bind; [apply H| |intros ?]
  end.

Lemma safe_authorize_verify q iss is_par r : safe q (λ h, in_hand q h r) (authorize_verify iss is_par r).
Proof.
  unfold authorize_verify.
  sbinds in_hand_stable;
    try (apply safe_noread; intros h; unfold check_scopes, verify_scope; by iwp).
  - intros h Hh. destruct (ro_issuer_state r) as [k|] eqn:Hk; [|by iwp]. iwp; by apply (Hh k Hk).
  - apply safe_noread. destruct (ro_authorization_details r); [apply noread_verify_details|intros h; by iwp].
Qed.

Lemma safe_authorize_process q ctx r : safe q (λ h, in_hand q h r) (authorize_process ctx r).
Proof.
  unfold authorize_process.
  sbinds in_hand_stable;
    try (apply safe_noread; first [apply noread_iterate | apply noread_authorize_items | intros h; by iwp]).
  intros h Hh. destruct (ro_issuer_state r) as [k|] eqn:Hk; [|by iwp]. iwp; by apply (Hh k Hk).
Qed.

Lemma authorize_get a : wp (get_inv (QAuthorize a)) (λ _ _, True) (authorize a) [].
Proof.
  unfold authorize. apply wp_bind.
  apply (wp_call_lemma _ _ (λ h o, match o with Ok p => in_hand (QAuthorize a) h p.2 | _ => True end)).
  { destruct a as [u|r].
    - iwp; simpl; try (left; set_solver). intros k Hk. right. subst. eexists u, _. split; [by left|].
      unfold state_keys. match goal with H : s_stage _ = _ |- _ => rewrite H end. rewrite Hk. set_solver.
    - iwp. intros k Hk. left. simpl in *. rewrite Hk. set_solver. }
  intros h [[is_par r]|e|w] Hh; unfold bindQ; [|done..]. simpl in Hh.
  match goal with |- wp _ _ ?p _ => assert (safe (QAuthorize a) (λ h, in_hand (QAuthorize a) h r) p) as Hs; [|by apply Hs] end.
  clear h Hh.
  sbinds in_hand_stable;
    try (apply safe_noread; intros h; by iwp).
  - apply safe_authorize_verify.
  - apply safe_authorize_process.
Qed.

Lemma par_get r : wp (get_inv (QPar r)) (λ _ _, True) (par r) [].
Proof.
  assert (safe (QPar r) (λ h, in_hand (QPar r) h r) (par r)) as H.
  { unfold par, par_process.
    sbinds in_hand_stable;
      try (apply safe_noread; intros h; by iwp). apply safe_authorize_verify. }
  apply H. intros k Hk. left. simpl. rewrite Hk. set_solver.
Qed.

Lemma noread_retain_details r items : noread (retain_details r items).
Proof.
  unfold retain_details. destruct (tr_authorization_details r); [|intros h; by iwp].
  do 2 (apply noread_bind; [intros h; by iwp|intros ?]).
  apply noread_mapM. intros d h. unfold token_verify_claims. iwp.
Qed.

Lemma token_get r : wp (get_inv (QToken r)) (λ _ _, True) (token r) [].
Proof.
  assert (token_state_key (tr_grant r) ∈ request_keys (QToken r)) as Hk.
  { simpl. unfold presented, token_state_key. destruct (tr_grant r); set_solver. }
  assert (safe (QToken r) (λ _, True) (token r)) as H; [|by apply H].
  unfold token, token_process.
  sbinds I_stable; try (intros h _; by iwp; simpl; left).
  - intros h _. unfold token_verify, check_scopes. by iwp.
  - apply safe_noread. destruct (tr_grant r); [intros h; by iwp|]. destruct (s_stage _); try (intros h; by iwp).
    apply noread_bind; [intros h; by iwp|]. intros items. apply noread_retain_details.
Qed.

Lemma noread_reject_proof {A} st hint : noread (A := outcome error A) (reject_proof st hint).
Proof. intros h. unfold reject_proof, invalid_proof. by iwp. Qed.
Lemma noread_verify_proofs st nonce jwts did : noread (verify_proofs st nonce jwts did).
Proof.
  revert did. induction jwts as [|jwt jwts IH]; intros did; cbn [verify_proofs]; [intros h; by iwp|].
  apply noread_bind; [intros h; by iwp|]. intros [p|]; [|apply noread_reject_proof].
  destruct (negb _); [apply noread_reject_proof|]. destruct (negb _); [apply noread_reject_proof|].
  destruct (pj_kid p); [apply IH|apply noread_reject_proof].
Qed.

Lemma safe_credential q r : cr_access_token r ∈ request_keys q → safe q (λ _, True) (credential r).
Proof.
  intros Hk. unfold credential.
  sbinds I_stable; try (intros h _; by iwp; simpl; left).
  - apply safe_noread. unfold credential_authorized. destruct (s_stage _); try (intros h; by iwp).
    apply noread_bind; [|intros ? h; by iwp]. destruct (cr_credential r); [intros h; by iwp|].
    apply noread_bind; [intros h; by iwp|]. intros cid.
    apply noread_bind; [apply noread_iterate|]. intros l h. by iwp.
  - apply safe_noread. unfold credential_verify. do 2 (apply noread_bind; [intros h; by iwp|intros ?]).
    destruct (s_stage _); try (intros h; by iwp). do 2 (apply noread_bind; [intros h; by iwp|intros ?]).
    destruct (cc_proof_types _); [|intros h; by iwp]. destruct (cr_proof r); [|apply noread_reject_proof].
    apply noread_bind; [intros h; by iwp|intros ?]. apply noread_verify_proofs.
  - apply safe_noread. unfold credential_process.
    apply noread_bind; [intros h; unfold credential_dataset; by iwp|]. intros ds.
    destruct (ds_pending ds); [intros h; unfold defer_response; by iwp|]. unfold issue_response.
    do 3 (apply noread_bind; [intros h; by iwp|intros ?]).
    apply noread_bind; [|intros ? h; by iwp].
    destruct (cc_format _); try (intros h; by iwp).
    + apply noread_bind; [|intros v h; unfold jwt_vc_json; iwp1; apply wp_lift; destruct (vc_claims_from _ _); unfold bindQ; by iwp].
      unfold w3c_vc. do 5 (apply noread_bind; [intros h; by iwp|intros ?]).
      destruct (match cc_display _ with Some l => create_names l | None => (None, None) end).
      destruct (vcb_build _); intros h; by iwp.
    + intros h. unfold mso_mdoc. by iwp.
Qed.

Lemma deferred_get r : wp (get_inv (QDeferred r)) (λ _ _, True) (deferred r) [].
Proof.
  assert (safe (QDeferred r) (λ _, True) (deferred r)) as H; [|by apply H].
  unfold deferred.
  sbinds I_stable; try (intros h _; by iwp; simpl; left; set_solver).
  destruct (s_stage _); try (intros h _; by iwp).
  sbinds I_stable; try (intros h _; by iwp; simpl; left; set_solver).
  apply safe_credential. simpl. set_solver.
Qed.

Lemma own_keys q p es1 e es2 k :
  path (ihandler q) (es1 ++ e :: es2) p → touched e = Some k → own_key q es1 k.
Proof.
  intros Hp Ht. destruct (is_put e) eqn:He.
  - destruct e as [|k' v x o| |]; try done. simpl in Ht. injection Ht as ->.
    apply put_source in Hp. unfold put_from in Hp.
    assert (∀ r, credential_put r es1 k v x → own_key q es1 k) as Hc.
    { intros r. unfold credential_put. destruct (s_stage v); try done.
      - intros (st & tok' & n & Hg & Hs & Hor & _). 
        destruct Hor as [[-> _]|?]; [|right; right; eauto].
        right. left. eexists _, st. split; [done|]. unfold state_keys. rewrite Hs. set_solver.
      - intros (t & Hx). right. right. naive_solver. }
    destruct q; try done; destruct (s_stage v) eqn:Hs; try done; try by eauto.
    all: try (by right; right; naive_solver).
    all: try (destruct Hp as (? & ? & ? & _ & _ & _ & Hp); by apply Hc in Hp).
    all: try (by apply Hc in Hp).
  - assert (wp (get_inv q) (λ _ _, True) (ihandler q) []) as Hwp.
    { assert (∀ A (m : iprog A) (f : A → ireply), wp (get_inv q) (λ _ _, True) m [] →
        wp (get_inv q) (λ _ _, True) (let! x := m in ok (f x)) []) as Hb.
      { intros A m f H. apply wp_bind. eapply wp_call_lemma; [done|]. intros h [a|e'|w] _; done. }
      destruct q; cbn [ihandler]; apply Hb.
      - apply create_offer_get.
      - unfold credential_offer_endpoint. by iwp; simpl; left; set_solver.
      - apply authorize_get.
      - apply par_get.
      - apply token_get.
      - apply safe_credential; [simpl; set_solver|done].
      - apply deferred_get.
      - unfold notification. by iwp; simpl; left; set_solver.
      - unfold register. by iwp; simpl; left; set_solver.
      - unfold metadata. iwp.
      - unfold oauth_server. iwp. }
    pose proof (wp_event _ _ _ _ [] es1 e es2 Hwp Hp) as H. simpl in H.
    destruct e as [k' o|k' v x o|k' o|x]; try done; simpl in *; simplify_eq/=;
      (destruct H as [H|H]; [by left|by right; left]).
Qed.

Lemma log_own (c : iconfig) n en k :
  ireach c → c_log c !! n = Some en → touched (e_ev en) = Some k →
  ∃ q p, c_pool c !! e_who en = Some (q, p) ∧
    own_key q (calls_of (e_who en) (take n (c_log c))) k.
Proof.
  intros Hr Hn Ht. destruct (pos_path _ _ _ _ _ Hr Hn) as (q & p & es2 & Hq & Hp).
  exists q, p. split; [done|]. by eapply own_keys.
Qed.

Lemma store_frame (c : iconfig) n m k :
  ireach c → n ≤ m →
  (∀ a en q p, n ≤ a < m → c_log c !! a = Some en → c_pool c !! e_who en = Some (q, p) →
     ¬ own_key q (calls_of (e_who en) (take a (c_log c))) k) →
  store_after ∅ (take m (c_log c)) !! k = store_after ∅ (take n (c_log c)) !! k.
Proof.
  intros Hr Hle. induction Hle as [|m Hle IH]; intros Hno; [done|].
  destruct (c_log c !! m) as [en|] eqn:Hm.
  2:{ apply lookup_ge_None in Hm. rewrite (take_ge (c_log c) (S m)) by lia.
      rewrite (take_ge (c_log c) m) in IH by lia. apply IH.
      intros a en q p Ha. apply Hno. lia. }
  rewrite (take_S_r _ _ _ Hm), store_after_app. cbn [store_after foldl].
  etransitivity; [|apply IH; intros a e q p Ha; apply Hno; lia].
  assert (touched (e_ev en) ≠ Some k) as Ht.
  { intros Ht. destruct (log_own _ _ _ _ Hr Hm Ht) as (q & p & Hq & Ho).
    by apply (Hno m en q p); [lia| | |]. }
  unfold apply. destruct (e_ev en) as [k' r|k' v x o|k' o|x]; try done; destruct (e_eff en); try done; simpl in Ht.
  - apply lookup_insert_ne. congruence.
  - apply lookup_delete_ne. congruence.
Qed.

(** ** Panics *)

Definition nopanic {A} (p : iprog A) : Prop :=
  ∀ h, wp (λ _ _, True) (λ _ o, match o with Panic _ => False | _ => True end) p h.
Lemma nopanic_bind {A B} (m : iprog A) (f : A → iprog B) :
  nopanic m → (∀ a, nopanic (f a)) → nopanic (bind m f).
Proof.
  intros H1 H2 h. apply wp_bind. eapply wp_call_lemma; [apply H1|].
  intros h' [a|e|w] Hw; unfold bindQ; [apply H2|done..].
Qed.
Lemma nopanic_mapM {A B} (f : A → iprog B) l : (∀ a, nopanic (f a)) → nopanic (mapM_prog f l).
Proof.
  intros Hf. induction l as [|a l IH]; [intros h; by iwp|]. cbn [mapM_prog].
  apply nopanic_bind; [done|intros b]. apply nopanic_bind; [done|]. intros bs h. by iwp.
Qed.
Lemma nopanic_runs {A} (p : iprog A) es w : nopanic p → runs p es (Panic w) → False.
Proof. intros H Hr. exact (wp_runs _ _ _ [] _ _ (H []) Hr). Qed.

Ltac pbinds := repeat lazymatch goal with
  | |- nopanic (bind _ _) => apply nopanic_bind; [|intros ?]
  end.
Ltac pfin := try solve [intros ?; iwp | intros ? ?; iwp].

Lemma nopanic_iterate {A} (l : list A) : nopanic (iterate l).
Proof. intros h. unfold iterate. by iwp. Qed.
Lemma nopanic_verify_details iss l acc : nopanic (verify_authorization_details iss l acc).
Proof.
  revert acc. induction l as [|d l IH]; intros acc; cbn [verify_authorization_details]; [pfin|].
  apply nopanic_bind; pfin. intros [config_id claims]. apply nopanic_bind; pfin. intros _. apply IH.
Qed.
Lemma nopanic_authorize_verify iss is_par r : nopanic (authorize_verify iss is_par r).
Proof.
  unfold authorize_verify, check_scopes, verify_scope. pbinds; pfin.
  destruct (ro_authorization_details r); [apply nopanic_verify_details|pfin].
Qed.
Lemma nopanic_authorize a : nopanic (authorize a).
Proof.
  unfold authorize. apply nopanic_bind; pfin. intros [is_par r].
  apply nopanic_bind; pfin. intros ?. apply nopanic_bind; pfin. intros ?.
  apply nopanic_bind; [apply nopanic_authorize_verify|]. intros ctx.
  unfold authorize_process. pbinds; pfin; try apply nopanic_iterate;
    apply nopanic_mapM; intros ? ?; by iwp.
Qed.
Lemma nopanic_par r : nopanic (par r).
Proof.
  unfold par. apply nopanic_bind; pfin. intros ?. apply nopanic_bind; pfin. intros ?.
  apply nopanic_bind; [apply nopanic_authorize_verify|]. intros ctx. unfold par_process. pfin.
Qed.
Lemma nopanic_token r : nopanic (token r).
Proof.
  unfold token, token_process, token_verify, check_scopes. pbinds; pfin.
  destruct (tr_grant r); pfin. destruct (s_stage _); pfin. apply nopanic_bind; pfin. intros ?.
  unfold retain_details. destruct (tr_authorization_details r); pfin. pbinds; pfin.
  apply nopanic_mapM. intros ? ?. unfold token_verify_claims. iwp.
Qed.

Lemma create_offer_panic r es w :
  runs (create_offer r) es (Panic w) →
  ∃ iss, X (VIssuer (co_credential_issuer r) (Some iss)) ∈ es ∧ is_authorization_servers iss = Some [].
Proof.
  intros Hr.
  assert (wp (λ _ _, True) (λ h o, match o with Panic _ => ∃ iss,
    X (VIssuer (co_credential_issuer r) (Some iss)) ∈ h ∧ is_authorization_servers iss = Some [] | _ => True end)
    (create_offer r) []) as Hwp; [|exact (wp_runs _ _ _ [] _ _ Hwp Hr)].
  unfold create_offer. iwx iss'. iwo iss Hiss. iwx srv'. iwo srv Hsrv. subst.
  apply wp_bind. eapply wp_call_lemma.
  { instantiate (1 := λ h o, X (VIssuer (co_credential_issuer r) (Some iss)) ∈ h ∧
      match o with Panic _ => False | _ => True end).
    unfold create_offer_verify. iwp; (split; [set_solver|done]). }
  intros h [u|e|w'] [Hin Hp]; unfold bindQ; [|done..].
  unfold create_offer_process. apply wp_bind. eapply wp_call_lemma.
  { instantiate (1 := λ h o, match o with Panic _ =>
      X (VIssuer (co_credential_issuer r) (Some iss)) ∈ h ∧ is_authorization_servers iss = Some [] | _ => True end).
    unfold make_credential_offer. iwp. split; [set_solver|done]. }
  intros h' [o|e|w'] Ho; unfold bindQ; [|done|eauto].
  match goal with |- wp _ _ ?p _ => assert (nopanic p) as Hn end.
  2:{ eapply wp_call_lemma; [apply Hn|]. by intros h'' []. }
  pbinds; pfin. destruct (_ || _); pfin. pbinds; pfin.
  - destruct (contains _ _); pfin. apply nopanic_bind; pfin. apply nopanic_mapM. intros ? ?. by iwp.
  - unfold state_key. intros ?. by iwp.
Qed.

Lemma nopanic_reject {A} st hint : nopanic (A := A) (reject_proof st hint).
Proof. intros h. unfold reject_proof, invalid_proof. by iwp. Qed.
Lemma nopanic_verify_proofs st nonce jwts did : nopanic (verify_proofs st nonce jwts did).
Proof.
  revert did. induction jwts as [|jwt jwts IH]; intros did; cbn [verify_proofs]; pfin.
  apply nopanic_bind; pfin. intros [p|]; [|apply nopanic_reject].
  destruct (negb _); [apply nopanic_reject|]. destruct (negb _); [apply nopanic_reject|].
  destruct (pj_kid p); [apply IH|apply nopanic_reject].
Qed.
Lemma claims_one v t s : vc_subject v = QOne s → ∃ vcl, @vc_claims_from error v t = Ok vcl.
Proof. unfold vc_claims_from. intros ->. eauto. Qed.
Lemma vcb_no_panic b w : vcb_build b ≠ Panic w.
Proof. unfold vcb_build. repeat case_match; congruence. Qed.
Lemma nopanic_w3c st iss cfg did def ds signer date :
  nopanic (let! v := w3c_vc st iss cfg did def ds in jwt_vc_json signer v date).
Proof.
  intros h. unfold w3c_vc. apply wp_bind.
  iwo types H1. iwo ctype H2. iwo subj H3. iwx status'. iwo status H4.
  destruct (match cc_display cfg with Some l => create_names l | None => (None, None) end) as [name descr].
  destruct (vcb_build _) as [v|e|w] eqn:Hv.
  - apply wp_ok. unfold bindQ, jwt_vc_json. apply vcb_build_ok in Hv. subst v.
    apply wp_bind, wp_lift.
    match goal with |- context [vc_claims_from ?v ?t] =>
      destruct (claims_one v t (CredentialSubject (Some did) (ds_claims ds)) eq_refl) as [vcl ->] end.
    unfold bindQ. by iwp.
  - by iwp.
  - by apply vcb_no_panic in Hv.
Qed.

Lemma credential_panic r h0 :
  wp (λ _ _, True) (λ h o, match o with Panic _ => ∃ iss id cfg,
    X (VIssuer (cr_credential_issuer r) (Some iss)) ∈ h ∧ (id, cfg) ∈ is_configurations iss ∧
    unimplemented (cc_format cfg) | _ => True end) (credential r) h0.
Proof.
  unfold credential. iwx st'. iwo st Hst. iwx iss'. iwo iss Hiss. subst.
  set (h := (h0 ++ _) ++ _). assert (X (VIssuer (cr_credential_issuer r) (Some iss)) ∈ h) as Hh.
  { unfold h. hin. }
  clearbody h. apply wp_bind, wp_prefix. eapply wp_call_lemma.
  { unfold credential_authorized. assert (nopanic (credential_authorized st iss r)) as Hn; [|apply Hn].
    unfold credential_authorized. destruct (s_stage st); pfin. apply nopanic_bind; pfin.
    destruct (cr_credential r); pfin. apply nopanic_bind; pfin. intros ?.
    apply nopanic_bind; [apply nopanic_iterate|]. pfin. }
  intros h1 [auth|e|w] Ho [es1 ->]; unfold bindQ; [|done..]. iwo cfg Hcfg.
  apply wp_bind, wp_prefix. eapply wp_call_lemma.
  { assert (nopanic (credential_verify st cfg r)) as Hn; [|apply Hn].
    unfold credential_verify. apply nopanic_bind; pfin. intros ?. apply nopanic_bind; pfin. intros ?.
    destruct (s_stage st); pfin. apply nopanic_bind; pfin. intros ?. apply nopanic_bind; pfin. intros ?.
    destruct (cc_proof_types cfg); pfin. destruct (cr_proof r); [|apply nopanic_reject].
    apply nopanic_bind; pfin. intros ?. apply nopanic_verify_proofs. }
  intros h2 [did|e|w] Ho2 [es2 ->]; unfold bindQ; [|done..].
  unfold credential_process. apply wp_bind, wp_prefix. eapply wp_call_lemma.
  { assert (nopanic (credential_dataset st auth r)) as Hn; [|apply Hn]. unfold credential_dataset. pfin. }
  intros h3 [ds|e|w] Ho3 [es3 ->]; unfold bindQ; [|done..].
  destruct (ds_pending ds); [unfold defer_response; by iwp|].
  assert ((au_configuration_id auth, cfg) ∈ is_configurations iss) as Hin by by apply assoc_in.
  unfold issue_response. iwx date. iwx signer. iwe Hsg.
  apply wp_bind. eapply wp_call_lemma.
  { instantiate (1 := λ h o, match o with Panic _ => X (VIssuer (cr_credential_issuer r) (Some iss)) ∈ h ∧
      unimplemented (cc_format cfg) | _ => True end).
    destruct (cc_format cfg) eqn:Hf.
    - eapply wp_call_lemma; [apply nopanic_w3c|]. by intros h' [].
    - apply wp_panic. split; [|done]. repeat (apply elem_of_app; left). done.
    - apply wp_panic. split; [|done]. repeat (apply elem_of_app; left). done.
    - unfold mso_mdoc. by iwp.
    - apply wp_panic. split; [|done]. repeat (apply elem_of_app; left). done. }
  intros h' [resp|e|w] Hr; unfold bindQ; [by iwp|done|].
  exists iss, (au_configuration_id auth), cfg. naive_solver.
Qed.

Lemma panics q es w : runs (ihandler q) es (Panic w) → panic_cause q es.
Proof.
  intros Hr.
  assert (∀ A (m : iprog A) (f : A → ireply), runs (let! x := m in ok (f x)) es (Panic w) →
    runs m es (Panic w)) as Hb.
  { intros A m f H. apply runs_bind in H as [(e1 & e2 & a & -> & H1 & H2)|[(e & H & He)|(w' & H & He)]]; try done.
    - destruct e2; [by injection H2|done].
    - by injection He as ->. }
  destruct q; cbn [ihandler] in Hr; apply Hb in Hr; simpl.
  - by apply create_offer_panic in Hr.
  - eapply nopanic_runs; [|done]. unfold credential_offer_endpoint. pfin.
  - eapply nopanic_runs; [|done]. apply nopanic_authorize.
  - eapply nopanic_runs; [|done]. apply nopanic_par.
  - eapply nopanic_runs; [|done]. apply nopanic_token.
  - exact (wp_runs _ _ _ [] _ _ (credential_panic _ []) Hr).
  - assert (wp (λ _ _, True) (λ h o, match o with Panic _ => panic_cause (QDeferred r) h | _ => True end)
      (deferred r) []) as Hwp; [|exact (wp_runs _ _ _ [] _ _ Hwp Hr)].
    unfold deferred. iwx st'. iwo st Hst. iwx t. iwe He. destruct (s_stage st); try by iwp.
    iwp1. iwp1; [done|unfold bindQ|done].
    apply wp_bind. eapply wp_call_lemma; [apply credential_panic|].
    intros h [resp|e|w'] Ho; unfold bindQ; [by iwp|done|done].
  - eapply nopanic_runs; [|done]. unfold notification. pfin.
  - eapply nopanic_runs; [|done]. unfold register. pfin.
  - eapply nopanic_runs; [|done]. unfold metadata. pfin.
  - eapply nopanic_runs; [|done]. unfold oauth_server. pfin.
Qed.

(** ** Failed requests *)

Definition saved (e : ievent) : Prop := match e with EPut _ _ _ true => True | _ => False end.
Definition nosave (h : ihist) : Prop := ∀ e, e ∈ h → ¬ saved e.

Lemma nosave_app h1 h2 : nosave (h1 ++ h2) ↔ nosave h1 ∧ nosave h2.
Proof. unfold nosave. setoid_rewrite elem_of_app. naive_solver. Qed.
Lemma nosave_snoc h e : nosave h → ¬ saved e → nosave (h ++ [e]).
Proof. intros H1 H2 e' [?|?%elem_of_list_singleton]%elem_of_app; [auto|by subst]. Qed.
Lemma no_puts_nosave h : no_puts h → nosave h.
Proof. unfold no_puts. rewrite Forall_forall. intros H e He Hs. apply H in He. by destruct e. Qed.

(** [clean P p]: every error of [p] comes with nothing saved, unless it is one of [P]. *)
Definition cleanQ {A} (P : error → Prop) (h : ihist) (o : outcome error A) : Prop :=
  match o with Ok _ => nosave h | Err e => nosave h ∨ P e | Panic _ => True end.
Definition clean {A} (P : error → Prop) (p : iprog A) : Prop :=
  ∀ h, nosave h → wp (λ _ _, True) (cleanQ P) p h.
(** The same for the last part of a program, which may save. *)
Definition cleanlyQ {A} (P : error → Prop) (h : ihist) (o : outcome error A) : Prop :=
  match o with Err e => nosave h ∨ P e | _ => True end.
Definition cleanly {A} (P : error → Prop) (p : iprog A) : Prop :=
  ∀ h, nosave h → wp (λ _ _, True) (cleanlyQ P) p h.

Lemma cleanly_bind P {A B} (m : iprog A) (f : A → iprog B) :
  clean P m → (∀ a, cleanly P (f a)) → cleanly P (bind m f).
Proof.
  intros H1 H2 h Hh. apply wp_bind. eapply wp_call_lemma; [by apply H1|].
  intros h' [a|e|w] Ho; unfold bindQ; simpl in *; [by apply H2|done..].
Qed.
Lemma clean_noput P {A} (p : iprog A) : noput p → clean P p.
Proof.
  intros Hn h Hh. apply wp_intro; [done|]. intros es o Hr. apply (noput_path _ _ _ Hn) in Hr.
  assert (nosave (h ++ es)) by (apply nosave_app; split; [done|by apply no_puts_nosave]).
  destruct o; simpl; auto.
Qed.
Lemma cleanly_noput P {A} (p : iprog A) : noput p → cleanly P p.
Proof.
  intros Hn h Hh. eapply wp_call_lemma; [by apply (clean_noput P)|]. intros h' []; simpl; auto.
Qed.
Lemma cleanly_runs P {A} (p : iprog A) es e : cleanly P p → runs p es (Err e) → nosave es ∨ P e.
Proof. intros H Hr. refine (wp_runs _ _ _ [] _ _ (H [] _) Hr). intros e' He. set_solver. Qed.

Ltac nosv := solve [repeat first [assumption | apply nosave_snoc; [|by intros []]]].
Ltac cbinds := repeat lazymatch goal with
  | |- cleanly _ (bind _ _) => apply cleanly_bind; [|intros ?]
  end.
Ltac cfin := try solve [apply clean_noput; intros ?; by iwp
                       | intros ? ?; iwp; simpl; first [done | left; nosv | nosv]].

Lemma token_clean r es e : runs (token r) es (Err e) → nosave es.
Proof.
  intros Hr. assert (cleanly (λ _, False) (token r)) as H; [|by destruct (cleanly_runs _ _ _ _ H Hr)].
  clear es e Hr. unfold token. cbinds; cfin.
  - apply clean_noput. unfold token_verify, check_scopes. intros h. iwp.
  - unfold token_process. apply cleanly_bind.
    { apply clean_noput. destruct (tr_grant r); [intros h; by iwp|]. destruct (s_stage _); try (intros h; by iwp).
      apply noput_bind; [intros h; by iwp|]. intros items. apply noput_retain_details. }
    intros items. cfin.
Qed.
Lemma par_clean r es e : runs (par r) es (Err e) → nosave es.
Proof.
  intros Hr. assert (cleanly (λ _, False) (par r)) as H; [|by destruct (cleanly_runs _ _ _ _ H Hr)].
  clear es e Hr. unfold par. cbinds; cfin.
  - apply clean_noput, noput_authorize_verify.
  - unfold par_process. cfin.
Qed.
Lemma authorize_clean a es e :
  runs (authorize a) es (Err e) → nosave es ∨ e = ServerError "issue purging offer state".
Proof.
  intros Hr. assert (cleanly (λ e, e = ServerError "issue purging offer state") (authorize a)) as H;
    [|by destruct (cleanly_runs _ _ _ _ H Hr); auto].
  clear es e Hr. unfold authorize. cbinds; cfin. destruct a0 as [is_par r]. cbinds; cfin.
  - apply clean_noput, noput_authorize_verify.
  - unfold authorize_process.
    apply cleanly_bind; [apply clean_noput, noput_iterate|intros ?].
    apply cleanly_bind; [apply clean_noput, noput_authorize_items|intros ?].
    apply cleanly_bind; [apply clean_noput, noput_iterate|intros ?].
    apply cleanly_bind; [apply clean_noput, noput_authorize_items|intros ?].
    intros h Hh. iwp; simpl; try done; try (left; nosv); by right.
Qed.
Lemma credential_offer_clean r es e : runs (credential_offer_endpoint r) es (Err e) → nosave es.
Proof.
  intros Hr. apply no_puts_nosave. eapply noput_path; [|done]. unfold credential_offer_endpoint. intros h. by iwp.
Qed.

Lemma clean_reject {A} st hint : clean (A := A) renewing (reject_proof st hint).
Proof. intros h Hh. unfold reject_proof, invalid_proof. iwp; simpl; try done; try (left; nosv); by right. Qed.
Lemma clean_verify_proofs st nonce jwts did : clean renewing (verify_proofs st nonce jwts did).
Proof.
  revert did. induction jwts as [|jwt jwts IH]; intros did; cbn [verify_proofs]; cfin.
  intros h Hh. iwp1. iwp1; [done|]. unfold bindQ.
  assert (nosave (h ++ [X (VDecodeProof jwt r)])) as Hh' by nosv.
  destruct r as [p|]; [|by apply clean_reject].
  destruct (negb _); [by apply clean_reject|]. destruct (negb _); [by apply clean_reject|].
  destruct (pj_kid p); [by apply IH|by apply clean_reject].
Qed.

(** The credential endpoint: an error other than these leaves nothing saved, and so does
    the part before the response is made. *)
Lemma credential_clean r : cleanly renewing (credential r).
Proof.
  unfold credential. cbinds; cfin.
  - apply clean_noput, noput_credential_authorized.
  - intros h Hh. unfold credential_verify. iwp1. iwp1; [done|]. unfold bindQ. iwp1.
    apply wp_ensure; intros _; unfold bindQ; [|left; nosv].
    destruct (s_stage _); try (apply wp_fail; left; nosv). iwp1. iwp1; [done|]. unfold bindQ. iwp1.
    apply wp_ensure; intros _; unfold bindQ; [|left; nosv].
    destruct (cc_proof_types _); [|apply wp_ok; simpl; nosv].
    destruct (cr_proof r); [|apply clean_reject; nosv].
    iwp1. apply wp_ensure; intros _; unfold bindQ; [|left; nosv]. apply clean_verify_proofs. nosv.
  - unfold credential_process. apply cleanly_bind; [apply clean_noput, noput_credential_dataset|]. intros ds.
    destruct (ds_pending ds); [unfold defer_response; cfin|]. unfold issue_response. 
    apply cleanly_bind; cfin. intros ?. apply cleanly_bind; cfin. intros ?. apply cleanly_bind; cfin. intros ?.
    apply cleanly_bind.
    { apply clean_noput. destruct (cc_format _); try (intros h; by iwp).
      - apply noput_bind; [|intros v h; unfold jwt_vc_json; iwp1; apply wp_lift; destruct (vc_claims_from _ _); unfold bindQ; by iwp].
        unfold w3c_vc. do 5 (apply noput_bind; [intros h; by iwp|intros ?]).
        destruct (match cc_display _ with Some l => create_names l | None => (None, None) end).
        destruct (vcb_build _); intros h; by iwp.
      - intros h. unfold mso_mdoc. by iwp. }
    intros resp h Hh. destruct (s_stage _); iwp; simpl; try done; try (left; nosv); by right.
Qed.

Lemma deferred_clean r es e :
  runs (deferred r) es (Err e) → nosave es ∨ renewing e ∨ e = IssuancePending 5.
Proof.
  intros Hr. assert (cleanly (λ e, renewing e ∨ e = IssuancePending 5) (deferred r)) as H;
    [|by destruct (cleanly_runs _ _ _ _ H Hr); auto].
  clear es e Hr. unfold deferred. cbinds; cfin. destruct (s_stage _); cfin.
  intros h Hh. iwp1. iwp1; [done|unfold bindQ|left; nosv].
  iwp1. eapply wp_call_lemma; [apply credential_clean; nosv|].
  intros h' [resp|e|w] Ho; unfold bindQ; simpl in *; [|tauto|done].
  destruct (crs_response resp); iwp; simpl; auto.
Qed.

Lemma authorize_clean_put a es e :
  runs (authorize a) es (Err e) → e ≠ ServerError "issue purging offer state" →
  ∀ k v x, Put k v x true ∉ es.
Proof. intros H Hne k v x Hin. destruct (authorize_clean _ _ _ H) as [Hs|Hs]; [|done]. by apply (Hs _ Hin). Qed.
Lemma deferred_clean_put r es e :
  runs (deferred r) es (Err e) → ¬ renewing e → e ≠ IssuancePending 5 →
  ∀ k v x, Put k v x true ∉ es.
Proof.
  intros H Hn Hne k v x Hin. destruct (deferred_clean _ _ _ H) as [Hs|[Hs|Hs]]; [|done..]. by apply (Hs _ Hin).
Qed.
