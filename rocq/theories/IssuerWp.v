(** What the issuer's endpoints save, on every path (completed or not). *)
From Verif Require Import Base Json CoreModel VcModel Prog ProgFacts IssuerTypes ClaimsModel
  Sha256 IssuerModel IssuerSpec IssuerFacts.

Notation ihist := (list ievent).

Section rules.
Context (Φ : ihist → ievent → Prop).
Implicit Types h : ihist.

Lemma wp_call {A} (Q : ihist → A → Prop) c k h :
  (∀ r, Φ h (mkev c r) ∧ wp Φ Q (k r) (h ++ [mkev c r])) → wp Φ Q (Call c k) h.
Proof. done. Qed.
Lemma wp_ok {A} (Q : ihist → outcome error A → Prop) a h : Q h (Ok a) → wp Φ Q (ok a) h.
Proof. done. Qed.
Lemma wp_fail {A} (Q : ihist → outcome error A → Prop) e h : Q h (Err e) → wp Φ Q (fail e) h.
Proof. done. Qed.
Lemma wp_panic {A} (Q : ihist → outcome error A → Prop) w h : Q h (Panic w) → wp Φ Q (panic w) h.
Proof. done. Qed.
Lemma wp_lift {A} (Q : ihist → outcome error A → Prop) o h : Q h o → wp Φ Q (lift o) h.
Proof. done. Qed.
Lemma wp_ensure (Q : ihist → outcome error unit → Prop) b e h :
  (b = true → Q h (Ok tt)) → (b = false → Q h (Err e)) → wp Φ Q (ensure b e) h.
Proof. intros H1 H2. destruct b; [by apply H1|by apply H2]. Qed.
Lemma wp_of_opt {A} (Q : ihist → outcome error A → Prop) o e h :
  (∀ a, o = Some a → Q h (Ok a)) → (o = None → Q h (Err e)) → wp Φ Q (of_opt o e) h.
Proof. intros H1 H2. destruct o; [by apply H1|by apply H2]. Qed.
Lemma wp_xcall x (Q : ihist → outcome error (ians x) → Prop) h :
  (∀ r : ians x, Φ h (X (imk x r)) ∧ Q (h ++ [X (imk x r)]) (Ok r)) → wp Φ Q (xcall x) h.
Proof. done. Qed.
Lemma wp_now (Q : ihist → outcome error Z → Prop) h :
  (∀ r, Φ h (X (VNow r)) ∧ Q (h ++ [X (VNow r)]) (Ok r)) → wp Φ Q now h.
Proof. done. Qed.
Lemma wp_gen g (Q : ihist → outcome error string → Prop) h :
  (∀ r, Φ h (X (VGen g r)) ∧ Q (h ++ [X (VGen g r)]) (Ok r)) → wp Φ Q (gen g) h.
Proof. done. Qed.
Lemma wp_sget k (Q : ihist → outcome error (option state) → Prop) h :
  (∀ r, Φ h (Get k r) ∧ Q (h ++ [Get k r]) (Ok r)) → wp Φ Q (sget k) h.
Proof. done. Qed.
Lemma wp_sput k v x e (Q : ihist → outcome error unit → Prop) h :
  (∀ r, Φ h (Put k v x r)) → Q (h ++ [Put k v x true]) (Ok tt) →
  Q (h ++ [Put k v x false]) (Err e) → wp Φ Q (sput k v x e) h.
Proof. intros H1 H2 H3. apply wp_call. intros r. split; [apply H1|]. by destruct r. Qed.
Lemma wp_spurge k e (Q : ihist → outcome error unit → Prop) h :
  (∀ r, Φ h (Purge k r)) → Q (h ++ [Purge k true]) (Ok tt) →
  Q (h ++ [Purge k false]) (Err e) → wp Φ Q (spurge k e) h.
Proof. intros H1 H2 H3. apply wp_call. intros r. split; [apply H1|]. by destruct r. Qed.

(** [R h done bs]: the loop has processed [done] with results [bs]. *)
Lemma wp_mapM {A B} (f : A → iprog B) l (R : ihist → list A → list B → Prop)
    (Q : ihist → outcome error (list B) → Prop) h :
  R h [] [] →
  (∀ a dn bs h, R h dn bs →
     wp Φ (λ h' o, match o with
                   | Ok b => R h' (dn ++ [a]) (bs ++ [b])
                   | Err e => Q h' (Err e)
                   | Panic w => Q h' (Panic w)
                   end) (f a) h) →
  (∀ h' bs, R h' l bs → Q h' (Ok bs)) → wp Φ Q (mapM_prog f l) h.
Proof.
  intros H0 Hs HQ.
  assert (∀ l2 dn bs h (K : ihist → outcome error (list B) → Prop),
    R h dn bs → dn ++ l2 = l →
    (∀ h' bs2, R h' l (bs ++ bs2) → K h' (Ok bs2)) →
    (∀ h' e, Q h' (Err e) → K h' (Err e)) → (∀ h' w, Q h' (Panic w) → K h' (Panic w)) →
    wp Φ K (mapM_prog f l2) h) as Hgen.
  2:{ apply (Hgen l [] []); auto. }
  clear h H0. induction l2 as [|a l2 IH]; intros dn bs h K HR Hl HOk HErr HPanic; simpl.
  - rewrite app_nil_r in Hl. subst. apply wp_ok, HOk. by rewrite app_nil_r.
  - apply wp_bind. apply (wp_mono Φ Φ _ _ _ _ (λ _ _ H, H)) with (2 := Hs a dn bs h HR).
    intros h' [b|e|w] Hb; simpl; [|auto..]. apply wp_bind.
    apply (IH (dn ++ [a]) (bs ++ [b])).
    + done.
    + by rewrite <-app_assoc.
    + intros h'' bs2 HR2. simpl. apply wp_ok, HOk. by rewrite <-app_assoc in HR2.
    + intros h'' e He. simpl. auto.
    + intros h'' w Hw. simpl. auto.
Qed.
End rules.

(** Apply one rule. *)
Ltac iwp1 :=
  lazymatch goal with
  | |- wp _ _ (bind _ _) _ => apply wp_bind
  | |- wp _ _ (ok _) _ => apply wp_ok
  | |- wp _ _ (fail _) _ => apply wp_fail
  | |- wp _ _ (panic _) _ => apply wp_panic
  | |- wp _ _ (lift _) _ => apply wp_lift
  | |- wp _ _ (ensure _ _) _ => apply wp_ensure; intros ?
  | |- wp _ _ (of_opt _ _) _ => apply wp_of_opt; [intros ? ?|intros ?]
  | |- wp _ _ (xcall _) _ => apply wp_xcall; cbn [ians imk]; intros ?; split
  | |- wp _ _ now _ => apply wp_now; intros ?; split
  | |- wp _ _ (gen _) _ => apply wp_gen; intros ?; split
  | |- wp _ _ (sget _) _ => apply wp_sget; intros ?; split
  | |- wp _ _ (sput _ _ _ _) _ => apply wp_sput; [intros ?| |]
  | |- wp _ _ (spurge _ _) _ => apply wp_spurge; [intros ?| |]
  | |- wp _ _ (match ?x with _ => _ end) _ => destruct x eqn:?
  | |- wp _ _ (if ?x then _ else _) _ => destruct x eqn:?
  | |- bindQ _ _ _ _ _ => unfold bindQ
  end.
Ltac iwp := repeat (iwp1; try done).

(** Named steps. *)
Tactic Notation "iwx" ident(r) :=
  apply wp_bind;
  first [apply wp_xcall; cbn [ians imk] | apply wp_now | apply wp_gen | apply wp_sget];
  intros r; split; [try done|unfold bindQ].
Tactic Notation "iwo" ident(a) ident(H) :=
  apply wp_bind; apply wp_of_opt; [intros a H; unfold bindQ|intros H; unfold bindQ; try done].
Tactic Notation "iwe" ident(H) :=
  apply wp_bind; apply wp_ensure; intros H; unfold bindQ; [|try done].

(** Membership in a history. *)
Ltac hin :=
  solve [repeat first [ assumption
               | apply elem_of_app; right; apply elem_of_list_singleton; reflexivity
               | apply elem_of_app; left ]].

Definition is_put (e : ievent) : bool := match e with EPut _ _ _ _ => true | _ => false end.
Definition no_puts (h : ihist) : Prop := Forall (λ e, is_put e = false) h.
Definition puts_pending (e : ievent) : bool :=
  match e with
  | EPut _ v _ _ => match s_stage v with Pending _ => true | _ => false end
  | _ => false
  end.
Definition no_pending (h : ihist) : Prop := Forall (λ e, puts_pending e = false) h.

(** The authorization request an authorization request refers to. *)
Definition resolves (a : authorization_request) (h : ihist) (r : request_object) : Prop :=
  match a with
  | ARObject r' => r = r'
  | ARUri u => ∃ st exp t, Get u (Some st) ∈ h ∧ X (VNow t) ∈ h ∧
      s_stage st = PushedAuthorization r exp ∧ (t ≤ exp)%Z
  end.

Definition stage_items (s : stage) : list authorized_item :=
  match s with
  | Offered o => default [] (off_items o)
  | StAuthorized a => az_items a
  | _ => []
  end.

(** What a credential request (made directly, or again by the deferred endpoint) saves. *)
Definition credential_put (r : credential_request) (h : ihist) (k : string) (v : state) (x : Z) : Prop :=
  match s_stage v with
  | Validated tok => ∃ st tok0 t,
      Get (cr_access_token r) (Some st) ∈ h ∧ s_stage st = Validated tok0 ∧
      (k = tk_access_token tok0 ∧ no_puts h ∨ X (VGen GNotificationId k) ∈ h) ∧
      tk_access_token tok = tk_access_token tok0 ∧ tk_credentials tok = tk_credentials tok0 ∧
      X (VGen GNonce (tk_c_nonce tok)) ∈ h ∧
      s_subject_id v = s_subject_id st ∧ X (VNow t) ∈ h ∧
      s_expires_at v = (t + minutes 15)%Z ∧ x = s_expires_at v
  | Deferred txn r' => ∃ t, k = txn ∧ r' = r ∧ X (VGen GTransactionId k) ∈ h ∧
      no_puts h ∧ s_subject_id v = None ∧ X (VNow t) ∈ h ∧
      s_expires_at v = (t + minutes 15)%Z ∧ x = s_expires_at v
  | _ => False
  end.

(** [put_from q h k v x]: request [q], having made the calls [h], may save [v] under [k]
    with expiry [x]. *)
Definition put_from (q : irequest) (h : ihist) (k : string) (v : state) (x : Z) : Prop :=
  match q, s_stage v with
  | QCreateOffer r, Offered o => ∃ t,
      X (VGen GAuthCode k) ∈ h ∧ no_puts h ∧ s_subject_id v = co_subject_id r ∧
      X (VNow t) ∈ h ∧ s_expires_at v = (t + minutes 5)%Z ∧ x = s_expires_at v ∧
      (if wants r PreAuthorizedCode
       then ∃ its, off_items o = Some its ∧ Forall2 offer_item_ok (co_configuration_ids r) its ∧
         Forall (λ it, auth_ev (default "" (co_subject_id r)) it ∈ h) its
       else off_items o = None) ∧
      (if co_tx_code_required r && wants r PreAuthorizedCode
       then ∃ c, off_tx_code o = Some c ∧ X (VGen GTxCode c) ∈ h
       else off_tx_code o = None)
  | QCreateOffer r, Pending o => ∃ t code asrv,
      X (VGen GUriToken k) ∈ h ∧ no_pending h ∧ s_subject_id v = co_subject_id r ∧
      X (VNow t) ∈ h ∧ s_expires_at v = (t + minutes 5)%Z ∧ x = s_expires_at v ∧
      X (VGen GAuthCode code) ∈ h ∧ o = offer_for r code asrv
  | QAuthorize a, StAuthorized z => ∃ r t,
      resolves a h r ∧ X (VGen GAuthCode k) ∈ h ∧ no_puts h ∧
      s_subject_id v = Some (ro_subject_id r) ∧
      X (VNow t) ∈ h ∧ s_expires_at v = (t + minutes 5)%Z ∧ x = s_expires_at v ∧
      az_client_id z = ro_client_id r ∧ az_redirect_uri z = ro_redirect_uri r ∧
      az_code_challenge z = ro_code_challenge r ∧
      Forall (λ it, auth_ev (ro_subject_id r) it ∈ h) (az_items z)
  | QPar r, PushedAuthorization r' exp => ∃ tok t1 t2,
      r' = r ∧ X (VGen GUriToken tok) ∈ h ∧ k = "urn:ietf:params:oauth:request_uri:" +:+ tok ∧
      no_puts h ∧ s_subject_id v = None ∧ X (VNow t1) ∈ h ∧ X (VNow t2) ∈ h ∧
      exp = (t1 + seconds 600)%Z ∧ s_expires_at v = (t2 + seconds 600)%Z ∧ x = s_expires_at v
  | QToken r, Validated tok => ∃ st items,
      k = tk_access_token tok ∧ X (VGen GToken k) ∈ h ∧ X (VGen GNonce (tk_c_nonce tok)) ∈ h ∧
      Get (token_state_key (tr_grant r)) (Some st) ∈ h ∧
      Purge (token_state_key (tr_grant r)) true ∈ h ∧ no_puts h ∧
      s_subject_id v = s_subject_id st ∧ s_expires_at v = s_expires_at st ∧ x = s_expires_at v ∧
      tk_credentials tok = authorized_credentials items ∧
      (∀ it, it ∈ items → it ∈ stage_items (s_stage st)) ∧
      match tr_grant r with
      | TGAuthorizationCode _ _ _ => ∃ a, s_stage st = StAuthorized a
      | TGPreAuthorizedCode _ _ => ∃ o, s_stage st = Offered o
      end
  | QCredential r, _ => credential_put r h k v x
  | QDeferred r, _ => ∃ st txn cr, Get (dr_transaction_id r) (Some st) ∈ h ∧
      s_stage st = Deferred txn cr ∧ Purge (dr_transaction_id r) true ∈ h ∧
      credential_put (CredentialRequest (dr_credential_issuer r) (dr_access_token r)
        (cr_credential cr) (cr_proof cr)) h k v x
  | _, _ => False
  end.

Definition put_inv (q : irequest) (h : ihist) (e : ievent) : Prop :=
  match e with EPut k v x _ => put_from q h k v x | _ => True end.

Lemma no_puts_snoc h e : no_puts h → is_put e = false → no_puts (h ++ [e]).
Proof. intros H1 H2. apply Forall_app. split; [done|]. by constructor. Qed.
Lemma no_pending_snoc h e : no_pending h → puts_pending e = false → no_pending (h ++ [e]).
Proof. intros H1 H2. apply Forall_app. split; [done|]. by constructor. Qed.
Ltac nop := solve [repeat first [assumption | apply no_puts_snoc; [|reflexivity] | apply Forall_nil_2]].

Lemma elem_snoc {A} (x : A) l y : x ∈ l → x ∈ l ++ [y].
Proof. intros H. apply elem_of_app. by left. Qed.

(** *** create_offer *)

Lemma offer_authorize_wp q r h :
  no_puts h →
  wp (put_inv q) (λ h' o, no_puts h' ∧ (∀ e, e ∈ h → e ∈ h') ∧
     match o with
     | Ok its => Forall2 offer_item_ok (co_configuration_ids r) its ∧
        Forall (λ it, auth_ev (default "" (co_subject_id r)) it ∈ h') its
     | _ => True end) (offer_authorize r) h.
Proof.
  intros Hh. unfold offer_authorize.
  apply (wp_mapM _ _ _ (λ h' dn bs, no_puts h' ∧ (∀ e, e ∈ h → e ∈ h') ∧
    Forall2 offer_item_ok dn bs ∧ Forall (λ it, auth_ev (default "" (co_subject_id r)) it ∈ h') bs)).
  - split_and!; auto.
  - intros c dn bs h' (H1 & H2 & H3 & H4). iwp; subst.
    + split; [nop|]. split; [intros; apply elem_snoc; auto|]. split.
      * apply Forall2_app; [done|]. by repeat constructor.
      * apply Forall_app. split.
        -- eapply Forall_impl; [done|]. intros it Hit. simpl. by apply elem_snoc.
        -- constructor; [|done]. simpl. hin.
    + split; [nop|]. split; [intros; apply elem_snoc; auto|]. done.
  - intros h' bs (H1 & H2 & H3 & H4). auto.
Qed.

Lemma make_credential_offer_wp q iss r h :
  wp (put_inv q) (λ h' o, ∃ code, h' = h ++ [X (VGen GAuthCode code)] ∧
      match o with Ok o => ∃ asrv, o = offer_for r code asrv | _ => True end)
    (make_credential_offer iss r) h.
Proof.
  unfold make_credential_offer. iwp; eexists; (split; [done|]); try done;
    unfold offer_for, wants; eexists; f_equal; do 2 destruct (contains _ _); done.
Qed.

Lemma state_key_wp q r code asrv h :
  wants r PreAuthorizedCode || wants r AuthorizationCode = true →
  wp (put_inv q) (λ h' o, h' = h ∧ o = Ok code) (state_key (of_grants (offer_for r code asrv))) h.
Proof.
  intros Hw. unfold state_key, offer_for. cbn [of_grants]. rewrite Hw.
  iwp; simplify_eq/=; destruct (wants r PreAuthorizedCode), (wants r AuthorizationCode);
    simplify_eq/=; done.
Qed.

Lemma wp_trivial {A} Φ (Q : ihist → A → Prop) p h :
  (∀ h a, Q h a) → wp Φ (λ _ _, True) p h → wp Φ Q p h.
Proof. intros H. apply wp_mono; auto. Qed.

Lemma wp_call_lemma {A} Φ (Q Q' : ihist → A → Prop) p h :
  wp Φ Q' p h → (∀ h' a, Q' h' a → Q h' a) → wp Φ Q p h.
Proof. intros H1 H2. eapply wp_mono; [done|apply H2|done]. Qed.

Lemma create_offer_wp r : wp (put_inv (QCreateOffer r)) (λ _ _, True) (create_offer r) [].
Proof.
  unfold create_offer. iwx iss'. iwo iss Hiss. iwx srv'. iwo srv Hsrv. subst.
  apply wp_bind.
  apply (wp_call_lemma _ _ (λ h' _, h' = ([] ++ [X (VIssuer (co_credential_issuer r) (Some iss))]) ++
      [X (VServer (co_credential_issuer r) None (Some srv))])).
  { unfold create_offer_verify. iwp. }
  intros h' [u|e|w] ->; [|done..]. unfold bindQ, create_offer_process.
  apply wp_bind. eapply wp_call_lemma; [apply make_credential_offer_wp|].
  intros h' [o|e|w] (code & -> & Ho); [|done..]. destruct Ho as (asrv & ->). unfold bindQ.
  apply wp_bind.
  apply (wp_call_lemma _ _ (λ h' o, no_puts h' ∧ X (VGen GAuthCode code) ∈ h' ∧
     ∃ tx, o = Ok tx ∧
     if co_tx_code_required r && wants r PreAuthorizedCode
     then ∃ c, tx = Some c ∧ X (VGen GTxCode c) ∈ h' else tx = None)).
  { unfold wants. iwp; (split; [nop|]); (split; [hin|]); eexists; (split; [done|]); [|done].
    eexists. split; [done|]. hin. }
  intros h1 o (Hnp & Hcode & tx & -> & Htx). unfold bindQ. apply wp_bind.
  apply (wp_call_lemma _ _ (λ h' o, no_pending h' ∧ X (VGen GAuthCode code) ∈ h')).
  { change (contains (default [] (co_grant_types r))) with (wants r).
    assert (no_pending h1) as Hnpe.
    { eapply Forall_impl; [done|]. intros [] H; done. }
    destruct (wants r PreAuthorizedCode || wants r AuthorizationCode) eqn:Hw; [|by iwp].
    apply wp_bind.
    apply (wp_call_lemma _ _ (λ h' o, no_puts h' ∧ (∀ e, e ∈ h1 → e ∈ h') ∧
      match o with
      | Ok items => if wants r PreAuthorizedCode
         then ∃ its, items = Some its ∧ Forall2 offer_item_ok (co_configuration_ids r) its ∧
           Forall (λ it, auth_ev (default "" (co_subject_id r)) it ∈ h') its
         else items = None
      | _ => True end)).
    { destruct (wants r PreAuthorizedCode); [|by iwp]. apply wp_bind.
      eapply wp_call_lemma; [by apply offer_authorize_wp|].
      intros h' [its|e|w] (H1 & H2 & H3); unfold bindQ; [|done..]. apply wp_ok. naive_solver. }
    assert (∀ h', no_puts h' → no_pending h') as Hnp'.
    { intros h' H'. eapply Forall_impl; [done|]. intros [] H; done. }
    intros h' [items|e|w] (H1 & H2 & H3); unfold bindQ; [|by auto..].
    apply wp_bind. eapply wp_call_lemma; [by apply state_key_wp|].
    intros h2 o [-> ->]. unfold bindQ. iwx t. iwp1.
    - simpl. eexists. split; [apply elem_snoc; auto|]. split; [nop|]. split; [done|].
      split; [hin|]. split; [done|]. split; [done|]. split.
      + destruct (wants r PreAuthorizedCode); [|done]. destruct H3 as (its & -> & H3 & H4).
        exists its. split; [done|]. split; [done|]. eapply Forall_impl; [done|].
        intros it Hit. simpl. by apply elem_snoc.
      + destruct (_ && _); [|done]. destruct Htx as (c & -> & Hc). exists c. split; [done|].
        apply elem_snoc; auto.
    - split; [|do 2 apply elem_snoc; auto]. repeat (apply no_pending_snoc; [|done]). auto.
    - split; [|do 2 apply elem_snoc; auto]. repeat (apply no_pending_snoc; [|done]). auto. }
  intros h2 [u'|e|w] (H1 & H2); unfold bindQ; [|done..].
  destruct (co_send_type r); iwp1; try done.
  iwp. simpl. eexists _, code, asrv. split; [hin|]. split.
  { repeat (apply no_pending_snoc; [|done]). auto. }
  split; [done|]. split; [hin|]. split; [done|]. split; [done|]. split; [hin|]. done.
Qed.

(** *** authorize and par *)

(** Programs that save nothing. *)
Definition noput {A} (p : prog ISig A) : Prop :=
  ∀ h, wp (λ _ e, is_put e = false) (λ _ _, True) p h.

Lemma noput_path {A} (p q : prog ISig A) es : noput p → path p es q → no_puts es.
Proof.
  intros Hn Hp. apply Forall_forall. intros e He. apply elem_of_list_split in He as (l1 & l2 & ->).
  apply (wp_event _ _ _ _ [] l1 e l2 (Hn []) Hp).
Qed.

Lemma wp_noput {A} q (p : prog ISig A) (Q : ihist → A → Prop) h :
  noput p → (∀ es a, runs p es a → no_puts es → Q (h ++ es) a) → wp (put_inv q) Q p h.
Proof.
  intros Hn HQ. apply wp_intro.
  - intros es1 e es2 p' Hp. apply (noput_path _ _ _ Hn) in Hp. apply Forall_app in Hp as [_ Hp].
    apply Forall_cons in Hp as [Hp _]. by destruct e.
  - intros es a Hr. apply HQ; [done|]. by eapply noput_path.
Qed.

Lemma noput_bind {A B} (m : iprog A) (f : A → iprog B) :
  noput m → (∀ a, noput (f a)) → noput (bind m f).
Proof.
  intros H1 H2 h. apply wp_bind. eapply wp_call_lemma; [apply H1|].
  intros h' [a|e|w] _; unfold bindQ; [apply H2|done..].
Qed.
Lemma noput_mapM {A B} (f : A → iprog B) l : (∀ a, noput (f a)) → noput (mapM_prog f l).
Proof.
  intros Hf h. apply (wp_mapM _ _ _ (λ _ _ _, True)); [done| |done].
  intros a dn bs h' _. eapply wp_call_lemma; [apply Hf|]. by intros h'' [].
Qed.

Lemma noput_verify_authorization_details iss l acc : noput (verify_authorization_details iss l acc).
Proof.
  revert acc. induction l as [|d l IH]; intros acc; cbn [verify_authorization_details].
  { intros h. iwp. }
  apply noput_bind; [intros h; iwp|]. intros [config_id claims].
  apply noput_bind; [intros h; by iwp|]. intros _. apply IH.
Qed.

Lemma noput_authorize_verify iss is_par r : noput (authorize_verify iss is_par r).
Proof.
  unfold authorize_verify. repeat (apply noput_bind; [intros h; unfold check_scopes, verify_scope; try by iwp|intros ?]).
  - destruct (ro_authorization_details r); [apply noput_verify_authorization_details|by iwp].
  - intros h. by iwp.
Qed.
Lemma noput_authorize_items {A} subj (mk : A → item_type) l : noput (authorize_items subj mk l).
Proof. apply noput_mapM. intros p h. by iwp. Qed.
Lemma noput_iterate {A} (l : list A) : noput (iterate l).
Proof. intros h. unfold iterate. by iwp. Qed.

Lemma no_puts_app h1 h2 : no_puts (h1 ++ h2) ↔ no_puts h1 ∧ no_puts h2.
Proof. apply Forall_app. Qed.

Lemma authorize_wp a : wp (put_inv (QAuthorize a)) (λ _ _, True) (authorize a) [].
Proof.
  unfold authorize. apply wp_bind.
  apply (wp_call_lemma _ _ (λ h o, no_puts h ∧
    match o with Ok p => resolves a h p.2 | _ => True end)).
  { unfold resolves. destruct a as [u|r]; iwp; (split; [nop|]); try done. subst.
    eexists _, _, _. split; [hin|]. split; [hin|]. split; [done|]. bools.
    match goal with H : Z.ltb _ _ = false |- _ => apply Z.ltb_ge in H end. done. }
  intros h [[is_par r]|e|w] [Hh Hr]; unfold bindQ; [|done..]. simpl in Hr.
  iwx iss'. iwo iss Hiss. subst. apply wp_bind. apply wp_noput; [apply noput_authorize_verify|].
  intros es [ctx|e|w] _ Hnp; unfold bindQ; [|done..].
  unfold authorize_process.
  apply wp_bind. apply wp_noput; [apply noput_iterate|]. intros es1 [l1|e|w] _ Hnp1; unfold bindQ; [|done..].
  apply wp_bind. apply wp_noput; [apply noput_authorize_items|].
  intros es2 [items1|e|w] Hi1 Hnp2; unfold bindQ; [|done..].
  apply wp_bind. apply wp_noput; [apply noput_iterate|]. intros es3 [l2|e|w] _ Hnp3; unfold bindQ; [|done..].
  apply wp_bind. apply wp_noput; [apply noput_authorize_items|].
  intros es4 [items2|e|w] Hi2 Hnp4; unfold bindQ; [|done..].
  apply authorize_items_ok in Hi1 as [-> _]. apply authorize_items_ok in Hi2 as [-> _].
  iwe Hne. iwx t. iwx code.
  apply wp_bind. iwp1; [|unfold bindQ; by iwp..].
  simpl. exists r, t. split_and!; try done.
  - unfold resolves in *. destruct a as [u|r']; [|done].
    destruct Hr as (st & exp & t' & ? & ? & ? & ?). exists st, exp, t'.
    split_and!; [| |done|done]; (repeat (apply elem_of_app; left)); done.
  - hin.
  - repeat (apply no_puts_app; split); try done; by constructor.
  - hin.
  - apply Forall_forall. intros it Hit. apply elem_of_app in Hit as [Hit|Hit].
    + do 4 apply elem_of_app, or_introl. apply elem_of_app, or_intror. by apply elem_of_list_fmap_1.
    + do 2 apply elem_of_app, or_introl. apply elem_of_app, or_intror. by apply elem_of_list_fmap_1.
Qed.

Lemma par_wp r : wp (put_inv (QPar r)) (λ _ _, True) (par r) [].
Proof.
  unfold par. iwx iss'. iwo iss Hiss. apply wp_bind. apply wp_noput; [apply noput_authorize_verify|].
  intros es [ctx|e|w] _ Hnp; unfold bindQ; [|done..].
  unfold par_process. iwx tok. iwx t1. iwx t2. apply wp_bind. iwp1; [|unfold bindQ; by iwp..].
  cbn [put_inv put_from s_stage]. exists tok, t1, t2. split_and!; try done; try hin.
  repeat (apply no_puts_app; split); try done; by constructor.
Qed.

(** *** token *)

Lemma noput_retain_details r items : noput (retain_details r items).
Proof.
  unfold retain_details. destruct (tr_authorization_details r); [|intros h; by iwp].
  do 2 (apply noput_bind; [intros h; by iwp|intros ?]).
  apply noput_mapM. intros d h. unfold token_verify_claims. iwp.
Qed.

Lemma find_item_elem c items it : find_item c items = Some it → it ∈ items.
Proof.
  induction items as [|i items IH]; simpl; [done|].
  destruct (ai_item i); [destruct (credential_authorization_eqb _ _)|];
    intros; simplify_eq; [left|right; auto|right; auto].
Qed.

Lemma token_wp r : wp (put_inv (QToken r)) (λ _ _, True) (token r) [].
Proof.
  unfold token. set (key := token_state_key (tr_grant r)).
  iwx st'. iwo st Hst. subst. apply wp_bind. iwp1; [done|unfold bindQ|done].
  apply wp_bind. apply wp_noput.
  { unfold token_verify, check_scopes. intros h. iwp. }
  intros es [u|e|w] _ Hnp; unfold bindQ; [|done..].
  unfold token_process. apply wp_bind.
  apply (wp_call_lemma _ _ (λ h o, ∃ es', h = ((([] ++ [Get key (Some st)]) ++ [Purge key true]) ++ es) ++ es' ∧
    no_puts es' ∧
    match o with
    | Ok items => (∀ it, it ∈ items → it ∈ stage_items (s_stage st)) ∧
       match tr_grant r with
       | TGAuthorizationCode _ _ _ => ∃ a, s_stage st = StAuthorized a
       | TGPreAuthorizedCode _ _ => ∃ o, s_stage st = Offered o
       end
    | _ => True
    end)).
  { destruct (tr_grant r) as [code ru cv|code tx].
    - destruct (s_stage st); iwp1; exists []; rewrite !app_nil_r;
        (split; [done|]); (split; [by constructor|]); simpl; eauto.
    - destruct (s_stage st) as [| |o| | | | |];
        try (iwp1; exists []; rewrite !app_nil_r;
        (split; [done|]); (split; [by constructor|]); simpl; eauto; fail).
      apply wp_bind. apply wp_of_opt; intros; unfold bindQ.
      2:{ exists []. rewrite !app_nil_r. split; [done|]. split; [by constructor|done]. }
      apply wp_noput; [apply noput_retain_details|].
      intros es' o' Hr Hnp'. exists es'. split; [done|]. split; [done|].
      destruct o' as [items|e|w]; [|done..]. split; [|eauto]. simpl. rewrite H. simpl.
      apply retain_details_ok in Hr. destruct (tr_authorization_details r).
      + destruct Hr as (iss & _ & Hf). intros it Hit.
        apply elem_of_list_lookup in Hit as [n Hn].
        destruct (Forall2_lookup_r _ _ _ _ _ Hf Hn) as (d & _ & Hd & _). by eapply find_item_elem.
      + destruct Hr as [_ ->]. auto. }
  intros h [items|e|w] (es' & -> & Hnp' & Hi); unfold bindQ; [|done..]. destruct Hi as [Hi Hs].
  iwx tok. iwx nonce. iwx t. apply wp_bind. iwp1; [|unfold bindQ; by iwp..].
  cbn [put_inv put_from s_stage]. exists st, items. split_and!; try done; try hin.
  repeat (apply no_puts_app; split); try done; by constructor.
Qed.

(** *** credential and deferred *)

Section credential.
Context (Φ : ihist → ievent → Prop) (h0 : ihist) (r : credential_request).
Hypothesis HΦ : ∀ h e, is_put e = false → Φ h e.
Hypothesis HΦp : ∀ h k v x o, (∀ e, e ∈ h0 → e ∈ h) → credential_put r h k v x → Φ h (Put k v x o).

Lemma wp_noput_gen {A} (p : prog ISig A) (Q : ihist → A → Prop) h :
  noput p → (∀ es a, runs p es a → no_puts es → Q (h ++ es) a) → wp Φ Q p h.
Proof.
  intros Hn HQ. apply wp_intro.
  - intros es1 e es2 p' Hp. apply (noput_path _ _ _ Hn) in Hp. apply Forall_app in Hp as [_ Hp].
    apply Forall_cons in Hp as [Hp _]. by apply HΦ.
  - intros es a Hr. apply HQ; [done|]. by eapply noput_path.
Qed.

Lemma noput_credential_authorized st iss : noput (credential_authorized st iss r).
Proof.
  unfold credential_authorized. destruct (s_stage st); try (intros h; by iwp).
  apply noput_bind; [|intros a h; by iwp]. destruct (cr_credential r); [intros h; by iwp|].
  apply noput_bind; [intros h; by iwp|]. intros cid.
  apply noput_bind; [apply noput_iterate|]. intros l h. by iwp.
Qed.
Lemma noput_credential_dataset st auth : noput (credential_dataset st auth r).
Proof. intros h. unfold credential_dataset. by iwp. Qed.

(** The state that was read and the calls made so far. *)
Definition reads (st : state) (tok : token_state) (h : ihist) : Prop :=
  Get (cr_access_token r) (Some st) ∈ h ∧ s_stage st = Validated tok ∧
  (∀ e, e ∈ h0 → e ∈ h).

Lemma reads_app st tok h h' : reads st tok h → reads st tok (h ++ h').
Proof.
  intros (H1 & H2 & H3). split; [|split; [done|]]; intros; apply elem_of_app; left; auto.
Qed.

Lemma reject_proof_wp {A} st tok hint h (Q : ihist → outcome error A → Prop) :
  reads st tok h → no_puts h → (∀ h e, Q h (Err e)) → wp Φ Q (reject_proof st hint) h.
Proof.
  intros Hr Hn HQ. unfold reject_proof, invalid_proof. apply wp_bind.
  apply wp_bind. iwp1; [by apply HΦ|]. unfold bindQ. apply wp_bind. iwp1; [by apply HΦ|].
  unfold bindQ. destruct Hr as (H1 & H2 & H3). rewrite H2. apply wp_bind.
  iwp1; [by apply HΦ|]. unfold bindQ. apply wp_bind. iwp1.
  - apply HΦp; [intros; repeat apply elem_snoc; auto|]. unfold credential_put. simpl s_stage. cbv iota.
    exists st, tok, r1. split; [by repeat apply elem_snoc|]. split; [done|].
    split; [left; split; [done|nop]|]. cbn. split; [done|]. split; [done|]. split; [hin|]. split; [done|].
    split; [hin|]. done.
  - by unfold bindQ; iwp.
  - unfold bindQ. apply HQ.
Qed.

Lemma verify_proofs_wp st tok nonce jwts did h :
  reads st tok h → no_puts h →
  wp Φ (λ h' o, match o with Ok _ => reads st tok h' ∧ no_puts h' | _ => True end)
    (verify_proofs st nonce jwts did) h.
Proof.
  revert did h. induction jwts as [|jwt jwts IH]; intros did h Hr Hn; cbn [verify_proofs]; [by iwp|].
  apply wp_bind. iwp1; [by apply HΦ|]. unfold bindQ.
  assert (reads st tok (h ++ [X (VDecodeProof jwt r0)])) as Hr' by by apply reads_app.
  assert (no_puts (h ++ [X (VDecodeProof jwt r0)])) as Hn' by nop.
  destruct r0 as [p|]; [|by apply (reject_proof_wp _ tok)].
  destruct (negb _); [by apply (reject_proof_wp _ tok)|].
  destruct (negb _); [by apply (reject_proof_wp _ tok)|].
  destruct (pj_kid p); [|by apply (reject_proof_wp _ tok)].
  apply IH; [done|]. nop.
Qed.

Lemma credential_wp : no_puts h0 → wp Φ (λ _ _, True) (credential r) h0.
Proof.
  intros Hh0. unfold credential.
  apply wp_bind. iwp1; [by apply HΦ|]. unfold bindQ. iwo st Hst. subst.
  apply wp_bind. iwp1; [by apply HΦ|]. unfold bindQ. iwo iss Hiss. subst.
  apply wp_bind. apply wp_noput_gen; [apply noput_credential_authorized|].
  intros es [auth|e|w] Ha Hnp; unfold bindQ; [|done..].
  apply credential_authorized_ok in Ha as (tok & Htok & _).
  iwo cfg Hcfg.
  set (h := (((h0 ++ _) ++ _) ++ es)).
  assert (reads st tok h ∧ no_puts h) as [Hr Hn].
  { split.
    - split; [unfold h; apply elem_of_app; left; hin|]. split; [done|].
      intros e He. unfold h. apply elem_of_app. left. by do 2 apply elem_snoc.
    - unfold h. apply no_puts_app. split; [nop|done]. }
  clearbody h. apply wp_bind.
  apply (wp_call_lemma _ _ (λ h' o, match o with Ok _ => reads st tok h' ∧ no_puts h' | _ => True end)).
  { unfold credential_verify. apply wp_bind. iwp1; [by apply HΦ|]. unfold bindQ. iwe He.
    rewrite Htok. apply wp_bind. iwp1; [by apply HΦ|]. unfold bindQ. iwe He'.
    assert (reads st tok ((h ++ [X (VNow r0)]) ++ [X (VNow r1)])) as Hr' by by repeat apply reads_app.
    assert (no_puts ((h ++ [X (VNow r0)]) ++ [X (VNow r1)])) as Hn' by nop.
    destruct (cc_proof_types cfg); [|by iwp].
    destruct (cr_proof r); [|by apply (reject_proof_wp _ tok)].
    iwe Hj. by apply verify_proofs_wp. }
  clear h Hr Hn. intros h [did|e|w] H; unfold bindQ; [|done..]. destruct H as [Hr Hn].
  unfold credential_process. apply wp_bind. apply wp_noput_gen; [apply noput_credential_dataset|].
  intros es2 [ds|e|w] _ Hnp2; unfold bindQ; [|done..].
  assert (reads st tok (h ++ es2) ∧ no_puts (h ++ es2)) as [Hr2 Hn2].
  { split; [by apply reads_app|]. by apply no_puts_app. }
  clear Hr Hn. revert Hr2 Hn2. generalize (h ++ es2). clear h es2 Hnp2. intros h Hr Hn.
  destruct (ds_pending ds).
  - unfold defer_response. apply wp_bind. iwp1; [by apply HΦ|]. unfold bindQ.
    apply wp_bind. iwp1; [by apply HΦ|]. unfold bindQ. apply wp_bind. iwp1; [|by unfold bindQ; iwp..].
    apply HΦp. { intros e He. do 2 apply elem_snoc. by apply Hr. }
    unfold credential_put. simpl s_stage. cbv iota. exists r1. split_and!; try done; try hin. nop.
  - unfold issue_response. apply wp_bind. iwp1; [by apply HΦ|]. unfold bindQ.
    apply wp_bind. iwp1; [by apply HΦ|]. unfold bindQ. iwe Hsg.
    apply wp_bind. apply wp_noput_gen.
    { unfold w3c_vc, jwt_vc_json, mso_mdoc. intros h'. destruct (cc_format cfg); try by iwp.
      apply wp_bind. do 5 (apply wp_bind; iwp1; try done; unfold bindQ).
      all: try done.
      destruct (match cc_display cfg with Some l => create_names l | None => (None, None) end).
      iwp. destruct (vc_claims_from _ _); by iwp. }
    intros es3 [resp|e|w] _ Hnp3; unfold bindQ; [|done..].
    rewrite Htok. apply wp_bind. iwp1; [by apply HΦ|]. unfold bindQ.
    apply wp_bind. iwp1; [by apply HΦ|]. unfold bindQ.
    apply wp_bind. iwp1; [by apply HΦ|]. unfold bindQ.
    destruct Hr as (Hr1 & Hr2 & Hr3).
    apply wp_bind. iwp1; [|unfold bindQ|by unfold bindQ].
    + apply HΦp. { intros e He. repeat (apply elem_of_app; left). by apply Hr3. }
      unfold credential_put. simpl s_stage. cbv iota. exists st, tok, r2.
      split; [repeat (apply elem_of_app; left); done|]. split; [done|].
      split; [left; split; [done|]; repeat (apply no_puts_app; split); try done; by constructor|].
      cbn. split; [done|]. split; [done|]. split; [hin|]. split; [done|]. split; [hin|]. done.
    + apply wp_bind. iwp1; [by apply HΦ|]. unfold bindQ. apply wp_bind.
      iwp1; [|unfold bindQ|by unfold bindQ].
      * apply HΦp. { intros e He. repeat (apply elem_of_app; left). by apply Hr3. }
        unfold credential_put. simpl s_stage. cbv iota. exists st, tok, r2.
        split; [repeat (apply elem_of_app; left); done|]. split; [done|]. split; [right; hin|].
        cbn. split; [done|]. split; [done|]. split; [hin|]. split; [done|]. split; [hin|]. done.
      * apply wp_bind. iwp1; [by apply HΦ|]. unfold bindQ. by iwp.
Qed.
End credential.

Lemma deferred_wp r : wp (put_inv (QDeferred r)) (λ _ _, True) (deferred r) [].
Proof.
  unfold deferred. iwx st'. iwo st Hst. subst. iwx t. iwe He.
  destruct (s_stage st) as [| | | | | | |txn cr] eqn:Hs; try by iwp.
  apply wp_bind. iwp1; [done|unfold bindQ|done].
  apply wp_bind. eapply wp_call_lemma.
  - apply (credential_wp (put_inv (QDeferred r))).
    + intros h e He'. by destruct e.
    + intros h k v x o Hh Hp. cbn [put_inv put_from]. exists st, txn, cr.
      split; [apply Hh; hin|]. split; [done|]. split; [apply Hh; hin|]. exact Hp.
    + nop.
  - intros h [resp|e|w] _; unfold bindQ; [|done..]. by iwp.
Qed.

Lemma put_source q p es1 k v x o es2 :
  path (ihandler q) (es1 ++ Put k v x o :: es2) p → put_from q es1 k v x.
Proof.
  assert (∀ A (m : iprog A) (f : A → ireply), wp (put_inv q) (λ _ _, True) m [] →
    wp (put_inv q) (λ _ _, True) (let! x := m in ok (f x)) []) as Hb.
  { intros A m f H. apply wp_bind. eapply wp_call_lemma; [done|]. intros h [a|e|w] _; done. }
  assert (wp (put_inv q) (λ _ _, True) (ihandler q) []) as Hwp.
  { destruct q; cbn [ihandler]; apply Hb.
    - apply create_offer_wp.
    - unfold credential_offer_endpoint. iwp.
    - apply authorize_wp.
    - apply par_wp.
    - apply token_wp.
    - apply credential_wp; [|done|nop]. intros h e He. by destruct e.
    - apply deferred_wp.
    - unfold notification. iwp.
    - unfold register. iwp.
    - unfold metadata. iwp.
    - unfold oauth_server. iwp. }
  intros Hp. apply (wp_event _ _ _ _ _ _ _ _ Hwp Hp).
Qed.
