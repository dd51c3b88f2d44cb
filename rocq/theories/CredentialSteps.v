(** What the wallet's requests for credentials do, exactly. *)
From Verif Require Import Base Json CoreModel VcModel Prog ProgFacts ExecSpec ExecFacts IssuerTypes
  MatcherModel VerifierModel HolderModel HolderSpec HolderFacts HolderExec HolderRuns WalletStepSpec HolderSteps.
From Verif Require IssuerSpec IssuerToken.

(** ** Taking in a response *)
Definition all_checking (h : hhist) : Prop := ∀ e, e ∈ h → checking e.
Lemma all_checking_app h h' : all_checking h → all_checking h' → all_checking (h ++ h').
Proof. unfold all_checking. set_solver. Qed.
Lemma all_checking_nil : all_checking [].
Proof. intros e ?%elem_of_nil. done. Qed.
Lemma all_checking_snoc h e : all_checking h → checking e → all_checking (h ++ [e]).
Proof. intros H He e2 [Hin|Hin]%elem_of_app; [by apply H|]. apply elem_of_list_singleton in Hin. by subst e2. Qed.
Lemma timestamp_exists t : timestamp_ok t = true ↔ date_exists t.
Proof.
  unfold timestamp_ok, date_exists. rewrite andb_true_iff, !Z.leb_le.
  assert (days_to (-262143) * 24 * 60 * 60 = -8334601228800)%Z as -> by (vm_compute; reflexivity).
  assert (days_to 262143 * 24 * 60 * 60 = 8210266876800)%Z as -> by (vm_compute; reflexivity). lia.
Qed.
(** What can be said of the steps [h] in which the credentials [l] were taken in. *)
Definition took (cfg : credential_configuration) (l : list (kind vc)) (h : hhist) : Prop :=
  all_checking h ∧ smooth h ∧ (∀ k, k ∈ l → ∃ jwt, k = KString jwt) ∧
  (∀ jwt v t, HX (EVerifyVc jwt (Some (v, t))) ∈ h → date_exists t) ∧ (l ≠ [] → cc_display cfg ≠ Some []).
Definition cannot_take (cfg : credential_configuration) (l : list (kind vc)) (h : hhist) : Prop :=
  all_checking h ∧
  ¬ (smooth h ∧ (∀ k, k ∈ l → ∃ jwt, k = KString jwt) ∧
     (∀ jwt v t, HX (EVerifyVc jwt (Some (v, t))) ∈ h → date_exists t) ∧ (l ≠ [] → cc_display cfg ≠ Some [])).
Lemma cannot_app cfg l1 l2 h1 h2 : all_checking h1 → cannot_take cfg l2 h2 → cannot_take cfg (l1 ++ l2) (h1 ++ h2).
Proof.
  intros H1 [H2 Hn]. split; [by apply all_checking_app|]. intros (Hs & Hk & Ht & Hd). apply Hn. split; [|split; [|split]].
  - by apply smooth_app in Hs as [_ ?].
  - intros k Hin. apply Hk. set_solver.
  - intros jwt v t Hin. apply (Ht jwt v). set_solver.
  - intros Hne. apply Hd. by destruct l1.
Qed.
Lemma cannot_more cfg l1 l2 h1 : cannot_take cfg l1 h1 → cannot_take cfg (l1 ++ l2) h1.
Proof.
  intros [H1 Hn]. split; [done|]. intros (Hs & Hk & Ht & Hd). apply Hn. split; [done|split; [|split; [done|]]].
  - intros k Hin. apply Hk. set_solver.
  - intros Hne. apply Hd. by destruct l1.
Qed.
Ltac checking_tac := repeat (apply all_checking_snoc; [|exact I]); apply all_checking_nil.
Lemma wp_shift {A} (p : prog HSig A) h1 h2 (Q : hhist → A → Prop) :
  wp anyE (λ h' o, Q (h1 ++ h') o) p h2 → wp anyE Q p (h1 ++ h2).
Proof.
  revert h2. induction p as [o|q f IH]; intros h2; [done|].
  intros H. assert (∀ r, anyE h2 (mkev q r) ∧ wp anyE (λ h' o, Q (h1 ++ h') o) (f r) (h2 ++ [mkev q r])) as H2 by exact H.
  assert (∀ r, anyE h2 (mkev q r) ∧ wp anyE Q (f r) ((h1 ++ h2) ++ [mkev q r])) as G; [|exact G].
  intros r. destruct (H2 r) as [? Hr].
  split; [done|]. rewrite <-app_assoc. by apply IH.
Qed.
Lemma take_credential_exact cfg k (h : hhist) (Q : hhist → outcome string wcredential → Prop) :
  (∀ h' c, took cfg [k] h' → k = KString (wc_issued c) → Q (h ++ h') (Ok c)) →
  (∀ h' o, cannot_take cfg [k] h' → (∀ c, o ≠ Ok c) → Q (h ++ h') o) →
  wp anyE Q (take_credential cfg k) h.
Proof.
  intros E1 E2. unfold take_credential.
  rewrite <-(app_nil_r h). apply wp_shift. hwp.
  all: try (apply E2; [|done]; split; [checking_tac|]; intros (Hs & Hk & Ht & Hd)).
  all: try rough.
  all: try match goal with |- False => first [by destruct Hd | match type of Hk with ∀ k, k ∈ [?x] → _ => destruct (Hk x) as [? Hx]; [by apply elem_of_list_singleton|discriminate Hx] end |
    match goal with H : timestamp_ok ?p.2 = false |- _ => apply not_true_iff_false in H; apply H, timestamp_exists; destruct p; simpl; eapply Ht; hhin end] end.
  all: apply E1; [|done]; split; [checking_tac|]; split; [smooth_tac|]; split; [set_solver|]; split; [|naive_solver].
  all: intros jwt v t Hin; inv_in; by apply timestamp_exists.
Qed.
Lemma took_app cfg l1 l2 h1 h2 : took cfg l1 h1 → took cfg l2 h2 → took cfg (l1 ++ l2) (h1 ++ h2).
Proof.
  intros (A1 & A2 & A3 & A4 & A5) (B1 & B2 & B3 & B4 & B5). split; [by apply all_checking_app|].
  split; [by apply smooth_app|]. split; [|split].
  - intros k [?|?]%elem_of_app; eauto.
  - intros jwt v t [?|?]%elem_of_app; eauto.
  - intros Hne. destruct l1; [by apply B5|by apply A5].
Qed.
Lemma took_nil cfg : took cfg [] [].
Proof. split; [apply all_checking_nil|]. split; [apply smooth_nil|]. set_solver. Qed.
Lemma take_credentials_exact cfg l (h : hhist) (Q : hhist → outcome string (list wcredential) → Prop) :
  (∀ h' cs, took cfg l h' → l = map (λ c, KString (wc_issued c)) cs → Q (h ++ h') (Ok cs)) →
  (∀ h' o, cannot_take cfg l h' → (∀ c, o ≠ Ok c) → Q (h ++ h') o) →
  wp anyE Q (take_credentials cfg l) h.
Proof.
  revert h Q. induction l as [|k l IH]; intros h Q E1 E2; simpl.
  { apply hwp_ok. rewrite <-(app_nil_r h). apply E1; [apply took_nil|done]. }
  apply wp_bind, take_credential_exact; unfold bindQ.
  2: { intros h' o Hc Hn. destruct o as [c| |]; [by destruct (Hn c)| |]; (apply E2; [by apply (cannot_more cfg [k])|done]). }
  intros h1 cr Hh1 ->. apply wp_bind, IH; unfold bindQ.
  2: { intros h' o Hc Hn. rewrite <-app_assoc. destruct o as [c| |]; [by destruct (Hn c)| |];
       (apply E2; [apply (cannot_app cfg [_]); [apply Hh1|done]|done]). }
  intros h2 cs Hh2 ->. apply hwp_ok. rewrite <-app_assoc. apply E1; [by apply (took_app cfg [_])|done].
Qed.
Lemma take_response_exact id cfg resp i (h : hhist) (Q : hhist → outcome string issuance → Prop) :
  (∀ h' v, took cfg (credentials_in resp) h' → taken_in id resp i v → same_origin i v → same_pkce i v →
     hi_token v = hi_token i → hi_accepted v = hi_accepted i → hi_pin v = hi_pin i → hi_status v = hi_status i →
     hi_notification_id v = hi_notification_id i → Q (h ++ h') (Ok v)) →
  (∀ h' o, cannot_take cfg (credentials_in resp) h' → (∀ c, o ≠ Ok c) → Q (h ++ h') o) →
  wp anyE Q (take_response id cfg resp i) h.
Proof.
  intros E1 E2. unfold take_response. unfold credentials_in, taken_in in *. destruct (wr_response resp) as [k|l|tx] eqn:Hr.
  - apply wp_bind, take_credential_exact; unfold bindQ.
    2: { intros h' o Hc Hn. destruct o as [c| |]; [by destruct (Hn c)| |]; by apply E2. }
    intros h1 cr Hh1 ->. apply hwp_ok, E1; try done. split; [|done]. unfold credentials_in. simpl. by rewrite Hr, map_app.
  - apply wp_bind, take_credentials_exact; unfold bindQ.
    2: { intros h' o Hc Hn. destruct o as [c| |]; [by destruct (Hn c)| |]; by apply E2. }
    intros h1 cr Hh1 ->. apply hwp_ok, E1; try done. split; [|done]. unfold credentials_in. simpl. by rewrite Hr, map_app.
  - apply hwp_ok. rewrite <-(app_nil_r h). apply E1; try done; [apply took_nil|]. split.
    + unfold credentials_in. rewrite Hr. simpl. by rewrite app_nil_r.
    + intros t. simpl. apply assoc_ainsert.
Qed.

(** ** Deferred credentials *)
Lemma assoc_aremove {A} k k' (l : list (string * A)) :
  assoc k (aremove k' l) = if bool_decide (k' = k) then None else assoc k l.
Proof.
  induction l as [|[k0 a] l IH]; simpl; [by case_bool_decide|].
  destruct (bool_decide (k0 = k')) eqn:E; simpl.
  - apply bool_decide_eq_true in E as ->. rewrite IH. repeat case_bool_decide; congruence.
  - rewrite IH. apply bool_decide_eq_false in E. repeat case_bool_decide; congruence.
Qed.
Definition deferred_post (id tx cf : string) (es : hhist) (o : outcome string credentials_response) : Prop :=
  ((∃ y, o = Ok y) ↔ ∃ i cfg, HGet id (Some (HSIssuance i)) ∈ es ∧ hi_status i = STokenReceived ∧
     assoc cf (is_configurations (hi_issuer i)) = Some cfg ∧ smooth es ∧
     ∀ q resp, HX (EDeferred q (Some resp)) ∈ es → digestible cfg resp es) ∧
  (∀ y, o = Ok y → ∃ i q resp v, HGet id (Some (HSIssuance i)) ∈ es ∧ HX (EDeferred q (Some resp)) ∈ es ∧
     same_origin i v ∧ same_pkce i v ∧ hi_token v = hi_token i ∧ hi_accepted v = hi_accepted i ∧ hi_pin v = hi_pin i ∧
     hi_status v = hi_status i ∧ hi_notification_id v = hi_notification_id i ∧
     map (λ c, KString (wc_issued c)) (hi_credentials v) =
       map (λ c, KString (wc_issued c)) (hi_credentials i) ++ credentials_in resp ∧
     (∀ t, assoc t (hi_deferred v) =
        let before := if bool_decide (tx = t) then None else assoc t (hi_deferred i) in
        match wr_response resp with
        | WRTransactionId t' => if bool_decide (t' = t) then Some cf else before
        | _ => before
        end) ∧
     (hi_deferred v = [] ∧ hi_credentials v = [] ∧ HPurge (hi_id i) true ∈ es ∧ (∀ k w x b, HPut k w x b ∉ es) ∨
      (hi_deferred v ≠ [] ∨ hi_credentials v ≠ []) ∧ (∀ k b, HPurge k b ∉ es) ∧
        ∃ x, HPut (hi_id i) (HSIssuance v) x true ∈ es) ∧
     y = CredentialsResponse (hi_id i) (match hi_deferred v with [] => None | l => Some l end)).
(** Membership in a history with a part in which credentials are checked. *)
Ltac inv_steps := repeat match goal with
  | H : _ ∈ _ ++ _ |- _ => apply elem_of_app in H as [H|H]
  | H : _ ∈ [_] |- _ => apply elem_of_list_singleton in H; try discriminate H
  | H : _ ∈ [] |- _ => by apply elem_of_nil in H
  | H : _ ∈ ?h, C : all_checking ?h |- _ => by destruct (C _ H)
  end; simplify_eq.
Ltac smooth_steps := repeat first [apply smooth_nil | assumption | apply smooth_snoc; [|exact (λ x, x)] | apply smooth_app; split].
Ltac rough_steps := match goal with H : smooth _ |- _ => exfalso; revert H; eapply rough_in;
  [apply elem_of_app; right; by apply elem_of_list_singleton|exact I] end.
Lemma took_digestible cfg resp h h0 h1 :
  took cfg (credentials_in resp) h →
  (∀ jwt v t, HX (EVerifyVc jwt (Some (v, t))) ∈ h0 ++ h1 → date_exists t) →
  digestible cfg resp ((h0 ++ h) ++ h1).
Proof.
  intros (_ & _ & Hk & Ht & Hd) H. split; [done|]. split; [|done]. intros jwt v t Hin.
  apply elem_of_app in Hin as [[?|?]%elem_of_app|?]; [|by eapply Ht|]; apply (H jwt v); set_solver.
Qed.
Lemma deferred_posts id tx cf : wp anyE (deferred_post id tx cf) (h_deferred id tx cf) [].
Proof.
  unfold h_deferred. hwp; unfold bindQ.
  - apply bool_decide_eq_true in H. apply take_response_exact.
    + intros h' v Htook [Hcr Hdf] Hso Hpk Htk Hac Hpin Hst Hnt.
      assert (all_checking h') as Hchk by apply Htook. assert (smooth h') as Hsm by apply Htook.
      assert (∀ z, (∀ jwt v t, HX (EVerifyVc jwt (Some (v, t))) ∈ z → date_exists t) →
        digestible a0 a (((([] ++ [HGet id (Some (HSIssuance i))]) ++ [HX (EDeferred {|
            dr_credential_issuer := is_credential_issuer (hi_issuer (set_deferred (aremove tx (hi_deferred i)) i));
            dr_access_token := trs_access_token (hi_token (set_deferred (aremove tx (hi_deferred i)) i));
            dr_transaction_id := tx |} (Some a))]) ++ h') ++ z)) as Hdig.
      { intros z Hz. apply took_digestible; [done|]. intros jwt w t Hin. inv_steps. by eapply Hz. }
      set (q := {| dr_credential_issuer := _ |}) in *.
      destruct (hi_deferred v) as [|d ds] eqn:Ed; [destruct (hi_credentials v) as [|c cs] eqn:Ec|]; hwp.
      all: try (split; [|done]; split; [by intros [? ?]|]; intros (j & cfg & Hin & Hst' & Hcf & Hs & Hd); rough_steps).
      all: split; [split; [intros _|by eauto]|intros ? [= <-]; exists i, q, a, v].
      all: try (exists i, a0; split; [hhin|]; split; [done|]; split; [done|]; split; [smooth_steps|]; intros q0 resp Hin;
        inv_steps; apply Hdig; intros jwt w t Hin; inv_steps).
      all: destruct Hso as (Hid & Hso); change (hi_id v = hi_id i) in Hid.
      all: split; [hhin|]; split; [hhin|]; split; [by split|]; do 6 (split; [done|]); split; [first [rewrite Ec; exact Hcr|exact Hcr]|].
      all: split; [intros t; rewrite Ed, Hdf; simpl; by rewrite assoc_aremove|].
      all: split; [|unfold deferred_result; by rewrite Hid, ?Ed].
      * left. split; [done|]. split; [done|]. split; [rewrite <-Hid; hhin|]. intros k w x b Hin. inv_steps.
      * right. split; [by right; rewrite Ec|]. split; [intros k b Hin; inv_steps|]. rewrite <-Hid. eexists. hhin.
      * right. split; [by left; rewrite Ed|]. split; [intros k b Hin; inv_steps|]. rewrite <-Hid. eexists. hhin.
    + intros h' o [Hchk Hno] Hn.
      assert (deferred_post id tx cf (((([] ++ [HGet id (Some (HSIssuance i))]) ++ [HX (EDeferred {|
            dr_credential_issuer := is_credential_issuer (hi_issuer (set_deferred (aremove tx (hi_deferred i)) i));
            dr_access_token := trs_access_token (hi_token (set_deferred (aremove tx (hi_deferred i)) i));
            dr_transaction_id := tx |} (Some a))]) ++ h')) (Err "")) as Hf.
      { refused. intros (j & cfg & Hin & Hst' & Hcf & Hs & Hd). inv_steps. simpl in H0, Hcf.
        assert (cfg = a0) as -> by congruence. edestruct Hd as (D1 & D2 & D3); [hhin|]. destruct Hno. split; [by apply smooth_app in Hs as [_ ?]|].
        split; [exact D1|]. split; [|exact D3]. intros jwt w t Hin. apply (D2 jwt w). apply elem_of_app. by right. }
      destruct o as [c| |]; [by destruct (Hn c)| |]; (split; [|done]); (split; [by intros [? ?]|]); intros Hc;
        destruct Hf as [Hf _]; apply Hf in Hc as [? ?]; done.
  - refused. intros (j & cfg & Hin & Hst' & Hcf & Hs & Hd). inv_steps. simpl in *. congruence.
  - refused. intros (j & cfg & Hin & Hst' & Hcf & Hs & Hd). rough_steps.
  - refused. intros (j & cfg & Hin & Hst' & Hcf & Hs & Hd). inv_steps. by apply bool_decide_eq_false in H.
  - refused. intros (j & cfg & Hin & Hst' & Hcf & Hs & Hd). inv_steps. naive_solver.
Qed.
Lemma deferred_exact id tx cf es o : runs (h_deferred id tx cf) es o → deferred_post id tx cf es o.
Proof. intros H. exact (wp_runs _ _ _ _ _ _ (deferred_posts id tx cf) H). Qed.

(** ** Credentials by scope *)
Lemma find_by_scope_first md sc f id c :
  find_by_scope sc f (is_configurations md) = Some (id, c) ↔ first_in_scope md sc f id c.
Proof.
  unfold first_in_scope. generalize (is_configurations md) as l. clear md. induction l as [|[k c0] l IH]; simpl.
  { split; [done|]. intros (l1 & l2 & E & _). by destruct l1. }
  destruct (bool_decide (cc_scope c0 = sc) && format_eqb (cc_format c0) f) eqn:E.
  - apply andb_true_iff in E as [E1%bool_decide_eq_true E2%IssuerToken.format_eqb_spec]. split.
    + intros [= -> ->]. exists [], l. split; [done|]. split; [done|]. split; [done|]. intros ? ? []%elem_of_nil.
    + intros (l1 & l2 & El & ? & ? & Hn). destruct l1 as [|[k' c'] l1]; simplify_eq/=; [done|].
      destruct (Hn k' c'); [by left|done].
  - assert (¬ (cc_scope c0 = sc ∧ IssuerSpec.same_format (cc_format c0) f)) as Hno.
    { intros [E1 E2%IssuerToken.format_eqb_spec]. rewrite E2, bool_decide_true in E by done. done. }
    rewrite IH. split.
    + intros (l1 & l2 & -> & ? & ? & Hn). exists ((k, c0) :: l1), l2. do 3 (split; [done|]).
      intros k' c' [[= -> ->]|?]%elem_of_cons; [done|by eapply Hn].
    + intros (l1 & l2 & El & ? & ? & Hn). destruct l1 as [|[k' c'] l1]; simplify_eq/=; [by destruct Hno|].
      exists l1, l2. do 3 (split; [done|]). intros k2 c2 Hin. eapply Hn. by right.
Qed.
Lemma first_unique md sc f id c id' c' : first_in_scope md sc f id c → first_in_scope md sc f id' c' → id = id' ∧ c = c'.
Proof. rewrite <-!find_by_scope_first. naive_solver. Qed.
Definition scope_post (r : credentials_request) (es : hhist) (o : outcome string credentials_response) : Prop :=
  ∀ i, HGet (hc_issuance_id r) (Some (HSIssuance i)) ∈ es → hi_scope i ≠ None →
  ((∃ y, o = Ok y) ↔ hi_status i = STokenReceived ∧ hc_identifiers r = None ∧ smooth es ∧
     ∃ f id c, hc_format r = Some f ∧ first_in_scope (hi_issuer i) (hi_scope i) f id c ∧
       ∀ q resp, HX (ECredential q (Some resp)) ∈ es → digestible c resp es) ∧
  (∀ q x, HX (ECredential q x) ∈ es → hi_status i = STokenReceived ∧ hc_identifiers r = None ∧
     cr_credential_issuer q = is_credential_issuer (hi_issuer i) ∧ cr_access_token q = trs_access_token (hi_token i) ∧
     ∃ f id c, hc_format r = Some f ∧ first_in_scope (hi_issuer i) (hi_scope i) f id c ∧
       cr_credential q = CIFormat (cc_format c)) ∧
  (∀ y, o = Ok y → ∃ f id c q resp v x, hc_format r = Some f ∧ first_in_scope (hi_issuer i) (hi_scope i) f id c ∧
     HX (ECredential q (Some resp)) ∈ es ∧ HPut (hi_id i) (HSIssuance v) x true ∈ es ∧ taken_in id resp i v ∧
     same_origin i v ∧ same_pkce i v ∧ hi_token v = hi_token i ∧ hi_accepted v = hi_accepted i ∧ hi_pin v = hi_pin i ∧
     hi_status v = hi_status i ∧ hi_notification_id v = hi_notification_id i).

(** ** Credentials by identifier *)
Definition all_fetching (h : hhist) : Prop := ∀ e, e ∈ h → checking e ∨ ∃ q x, e = HX (ECredential q x).
Lemma all_fetching_app h h' : all_fetching h → all_fetching h' → all_fetching (h ++ h').
Proof. unfold all_fetching. set_solver. Qed.
Lemma all_fetching_nil : all_fetching [].
Proof. intros e ?%elem_of_nil. done. Qed.
Lemma checking_fetching h : all_checking h → all_fetching h.
Proof. intros H e He. left. by apply H. Qed.
Lemma fetching_one q x : all_fetching [HX (ECredential q x)].
Proof. intros e ->%elem_of_list_singleton. right. eauto. Qed.
Lemma all_digestible_app h h' : all_digestible (h ++ h') ↔ all_digestible h ∧ all_digestible h'.
Proof.
  unfold all_digestible. split.
  - intros [H1 H2]. split; split; intros; (eapply H1 || eapply H2); try done; apply elem_of_app; by (left + right).
  - intros [[H1 H2] [H3 H4]]. split.
    + intros q resp k [?|?]%elem_of_app; eauto.
    + intros jwt v t [?|?]%elem_of_app; eauto.
Qed.
Lemma all_digestible_nil : all_digestible [].
Proof. split; intros * []%elem_of_nil. Qed.
Lemma checking_digestible h : all_checking h → (∀ jwt v t, HX (EVerifyVc jwt (Some (v, t))) ∈ h → date_exists t) → all_digestible h.
Proof. intros Hc Ht. split; [|done]. intros q resp k Hin. by destruct (Hc _ Hin). Qed.
Lemma one_digestible q resp : (∀ k, k ∈ credentials_in resp → ∃ jwt, k = KString jwt) ↔ all_digestible [HX (ECredential q (Some resp))].
Proof.
  split.
  - intros H. split.
    + intros q' resp' k Hin%elem_of_list_singleton. simplify_eq. apply H.
    + intros ? ? ? Hin%elem_of_list_singleton. done.
  - intros [H _] k Hk. eapply H; [by apply elem_of_list_singleton|done].
Qed.
Lemma by_identifiers_exact r jwt id cfg ids i (h : hhist) (Q : hhist → outcome string issuance → Prop) :
  cc_display cfg ≠ Some [] →
  (∀ h' v, all_fetching h' → smooth h' → all_digestible h' → hi_issuer v = hi_issuer i → Q (h ++ h') (Ok v)) →
  (∀ h' o, all_fetching h' → ¬ (smooth h' ∧ all_digestible h') → (∀ c, o ≠ Ok c) → Q (h ++ h') o) →
  wp anyE Q (by_identifiers r jwt id cfg ids i) h.
Proof.
  intros Hdisp. revert i h Q. induction ids as [|x ids IH]; intros i h Q E1 E2; cbn [by_identifiers].
  { apply hwp_ok. rewrite <-(app_nil_r h). by apply E1; [apply all_fetching_nil|apply smooth_nil|apply all_digestible_nil|]. }
  destruct (match hc_identifiers r with Some l => contains l x | None => true end); [|by apply IH].
  apply wp_bind, hwp_try, hwp_zcall. cbn [hmk hans]. intros resp. split; [done|].
  unfold bindQ. set (q := CredentialRequest _ _ _ _). apply hwp_of_opt.
  2: { intros ->. apply E2; [apply fetching_one| |done]. intros [Hs _]. eapply Hs; [by apply elem_of_list_singleton|exact I]. }
  intros resp' ->. apply wp_bind, take_response_exact; unfold bindQ.
  - intros h1 v1 (K1 & K2 & K3 & K4 & K5) _ (_ & _ & _ & _ & Hiss & _) _ _ _ _ _ _. rewrite <-app_assoc. apply IH.
    + intros h2 v F1 F2 F3 F4. rewrite <-app_assoc. apply E1.
      * repeat apply all_fetching_app; [apply fetching_one|by apply checking_fetching|done].
      * apply smooth_app. split; [|done]. apply smooth_app. split; [|done].
        intros e ->%elem_of_list_singleton. exact (λ x, x).
      * apply all_digestible_app. split; [|done]. apply all_digestible_app. split; [by apply one_digestible|].
        by apply checking_digestible.
      * rewrite F4. exact Hiss.
    + intros h2 o F1 F2 F3. rewrite <-app_assoc. apply E2; [|..|done].
      * repeat apply all_fetching_app; [apply fetching_one|by apply checking_fetching|done].
      * intros [Hs%smooth_app Hd%all_digestible_app]. apply F2. split; [apply Hs|apply Hd].
  - intros h1 o [K1 K2] Hn. rewrite <-app_assoc. 
    assert (Q (h ++ [HX (ECredential q (Some resp'))] ++ h1) o) as HQ.
    { apply E2; [|..|done].
      * apply all_fetching_app; [apply fetching_one|by apply checking_fetching].
      * intros [Hs%smooth_app [Hd1 Hd2]%all_digestible_app]. apply K2. split; [apply Hs|]. split; [by eapply one_digestible|].
        split; [apply Hd2|done]. }
    destruct o as [c| |]; [by destruct (Hn c)|done|done].
Qed.
Lemma by_details_exact r jwt l i (h : hhist) (Q : hhist → outcome string issuance → Prop) :
  ¬ bare_display (hi_issuer i) →
  (∀ h' v, all_fetching h' → smooth h' → all_digestible h' →
     (∀ d, d ∈ l → ∃ id, stands_for (hi_issuer i) d id ∧ is_Some (assoc id (is_configurations (hi_issuer i)))) →
     Q (h ++ h') (Ok v)) →
  (∀ h' o, all_fetching h' → ¬ (smooth h' ∧ all_digestible h' ∧
     ∀ d, d ∈ l → ∃ id, stands_for (hi_issuer i) d id ∧ is_Some (assoc id (is_configurations (hi_issuer i)))) →
     (∀ c, o ≠ Ok c) → Q (h ++ h') o) →
  wp anyE Q (by_details r jwt l i) h.
Proof.
  revert i h Q. induction l as [|d l IH]; intros i h Q Hb E1 E2; cbn [by_details].
  { apply hwp_ok. rewrite <-(app_nil_r h). apply E1; [apply all_fetching_nil|apply smooth_nil|apply all_digestible_nil|].
    intros ? []%elem_of_nil. }
  apply wp_bind, hwp_of_opt; unfold bindQ.
  2: { intros Hn. rewrite <-(app_nil_r h). apply E2; [apply all_fetching_nil| |done]. intros (_ & _ & H).
       destruct (H d) as (id & Hid & _); [by left|]. apply detail_stands in Hid. congruence. }
  intros cfg_id Hcf%detail_stands. apply wp_bind, hwp_of_opt; unfold bindQ.
  2: { intros Hn. rewrite <-(app_nil_r h). apply E2; [apply all_fetching_nil| |done]. intros (_ & _ & H).
       destruct (H d) as (id & Hid & [? ?]); [by left|]. rewrite (stands_unique _ _ _ _ Hid Hcf) in *. congruence. }
  intros cfg Hcfg. apply wp_bind, by_identifiers_exact; unfold bindQ.
  - intros Hd. apply Hb. exists cfg_id, cfg. split; [by apply assoc_in|done].
  - intros h1 v F1 F2 F3 F4. apply IH; rewrite F4; [done|..].
    + intros h2 w G1 G2 G3 G4. rewrite <-app_assoc. apply E1; [by apply all_fetching_app|by apply smooth_app|by apply all_digestible_app|].
      intros d' [->|Hd']%elem_of_cons; [|by apply G4]. exists cfg_id. split; [done|by eexists].
    + intros h2 o G1 G2 G3. rewrite <-app_assoc. apply E2; [by apply all_fetching_app| |done].
      intros (Hs%smooth_app & Hd%all_digestible_app & Hall). apply G2. split; [apply Hs|]. split; [apply Hd|].
      intros d' Hd'. apply Hall. by right.
  - intros h1 o F1 F2 Hn. assert (Q (h ++ h1) o).
    { apply E2; [done| |done]. intros (Hs & Hd & Hall). by apply F2. }
    destruct o as [c| |]; [by destruct (Hn c)|done|done].
Qed.
Lemma by_identifiers_fetching r jwt id cfg ids i (h : hhist) (Q : hhist → outcome string issuance → Prop) :
  (∀ h' o, all_fetching h' → Q (h ++ h') o) → wp anyE Q (by_identifiers r jwt id cfg ids i) h.
Proof.
  revert i h Q. induction ids as [|x ids IH]; intros i h Q E; cbn [by_identifiers].
  { apply hwp_ok. rewrite <-(app_nil_r h). apply E, all_fetching_nil. }
  destruct (match hc_identifiers r with Some l => contains l x | None => true end); [|by apply IH].
  apply wp_bind, hwp_try, hwp_zcall. cbn [hmk hans]. intros resp. split; [done|].
  unfold bindQ. set (q := CredentialRequest _ _ _ _). apply hwp_of_opt.
  2: { intros ->. apply E, fetching_one. }
  intros resp' ->. apply wp_bind, take_response_exact; unfold bindQ.
  - intros h1 v1 (K1 & _) _ _ _ _ _ _ _ _. rewrite <-app_assoc. apply IH. intros h2 o F. rewrite <-app_assoc. apply E.
    repeat apply all_fetching_app; [apply fetching_one|by apply checking_fetching|done].
  - intros h1 o [K1 _] Hn. rewrite <-app_assoc. assert (all_fetching ([HX (ECredential q (Some resp'))] ++ h1)) as F.
    { apply all_fetching_app; [apply fetching_one|by apply checking_fetching]. }
    destruct o as [c| |]; [by destruct (Hn c)|by apply E..].
Qed.
Lemma by_details_fetching r jwt l i (h : hhist) (Q : hhist → outcome string issuance → Prop) :
  (∀ h' o, all_fetching h' → Q (h ++ h') o) → wp anyE Q (by_details r jwt l i) h.
Proof.
  revert i h Q. induction l as [|d l IH]; intros i h Q E; cbn [by_details].
  { apply hwp_ok. rewrite <-(app_nil_r h). apply E, all_fetching_nil. }
  apply wp_bind, hwp_of_opt; unfold bindQ; [|intros _; rewrite <-(app_nil_r h); apply E, all_fetching_nil].
  intros cfg_id _. apply wp_bind, hwp_of_opt; unfold bindQ; [|intros _; rewrite <-(app_nil_r h); apply E, all_fetching_nil].
  intros cfg _. apply wp_bind, by_identifiers_fetching. unfold bindQ. intros h1 o F1. destruct o as [v| |]; [|by apply E..].
  apply IH. intros h2 o F2. rewrite <-app_assoc. apply E. by apply all_fetching_app.
Qed.
Ltac inv_steps ::= repeat match goal with
  | H : _ ∈ _ ++ _ |- _ => apply elem_of_app in H as [H|H]
  | H : _ ∈ [_] |- _ => apply elem_of_list_singleton in H; try discriminate H
  | H : _ ∈ [] |- _ => by apply elem_of_nil in H
  | H : _ ∈ ?h, C : all_checking ?h |- _ => by destruct (C _ H)
  | H : _ ∈ ?h, C : all_fetching ?h |- _ => by destruct (C _ H) as [[]|(? & ? & ?)]
  end; simplify_eq.
Ltac sc_refused := intros j Hj Hsc; split; [split; [by intros [? ?]|intros (G1 & G2 & Hs & f & k & c & Hfm & Hc & Hd)]|].
Lemma scope_posts r : wp anyE (scope_post r) (h_credentials r) [].
Proof.
  unfold h_credentials. hwp; unfold bindQ.
  - unfold credential_by_format. hwp.
    + apply bool_decide_eq_true in H.
      match goal with x : (string * credential_configuration)%type |- _ => destruct x as [id cfg] end.
      match goal with F : find_by_scope _ _ _ = Some _ |- _ => apply find_by_scope_first in F as Hfind end.
      assert (hc_identifiers r = None) as Hids by by destruct (hc_identifiers r).
      apply take_response_exact; unfold bindQ.
      * intros h' v Htook Htk Hso Hpk Hto Hac Hpin Hst Hnt.
        assert (all_checking h') as Hchk by apply Htook. assert (smooth h') as Hsm by apply Htook.
        set (q := {| cr_credential_issuer := _ |}) in *.
        hwp.
        -- intros j Hj Hsc. inv_steps. split; [split; [intros _|by eauto]|]; [|split].
           ++ split; [done|]. split; [done|]. split; [smooth_steps|]. exists a0, id, cfg. split; [done|]. split; [done|].
              intros q0 resp Hin. inv_steps. apply took_digestible; [done|]. intros jwt w t Hin. inv_steps.
           ++ intros q0 x Hin. inv_steps. do 4 (split; [done|]). exists a0, id, cfg. done.
           ++ intros y [= <-]. exists a0, id, cfg, q, a2, v. eexists. do 2 (split; [done|]). split; [hhin|].
              split; [|done]. destruct Hso as [<- _]. hhin.
        -- sc_refused; [rough_steps|]. split; [|done]. intros q0 x Hin. inv_steps. do 4 (split; [done|]). exists a0, id, cfg. done.
      * intros h' o [Hchk Hno] Hn.
        assert (scope_post r ((((([] ++ [HGet (hc_issuance_id r) (Some (HSIssuance i))]) ++ [HX (ENow r0)]) ++
          [HX (ESignProof {| pc_iss := Some (hi_client_id i); pc_aud := of_credential_issuer (hi_offer i);
                 pc_iat := timestamp r0; pc_nonce := trs_c_nonce (hi_token i) |} (Some a))]) ++
          [HX (ECredential {| cr_credential_issuer := is_credential_issuer (hi_issuer i);
                cr_access_token := trs_access_token (hi_token i); cr_credential := CIFormat (cc_format (id, cfg).2);
                cr_proof := Some (PSingle a) |} (Some a2))]) ++ h') (Err "")) as Hf.
        { sc_refused.
          - exfalso. inv_steps. destruct (first_unique _ _ _ _ _ _ _ Hc Hfind) as [-> ->].
            edestruct Hd as (D1 & D2 & D3); [hhin|]. apply Hno. split; [by apply smooth_app in Hs as [_ ?]|].
            split; [exact D1|]. split; [|exact D3]. intros jwt w t Hin. apply (D2 jwt w). apply elem_of_app. by right.
          - split; [|done]. intros q0 x Hin. inv_steps. do 4 (split; [done|]). exists a0, id, cfg. done. }
        destruct o as [c| |]; [by destruct (Hn c)| |]; intros j Hj Hsc; specialize (Hf j Hj Hsc) as (G1 & G2 & G3);
          (split; [|by split]); (split; [by intros [? ?]|]); intros Hc; apply G1 in Hc as [? ?]; done.
    + sc_refused; [rough_steps|]. match goal with x : (string * credential_configuration)%type |- _ => destruct x as [id cfg] end.
      match goal with F : find_by_scope _ _ _ = Some _ |- _ => apply find_by_scope_first in F as Hfind end.
      apply bool_decide_eq_true in H. assert (hc_identifiers r = None) as Hids by by destruct (hc_identifiers r).
      split; [|done]. intros q0 x Hin. inv_steps. do 4 (split; [done|]). exists a0, id, cfg. done.
    + sc_refused; [|split; [|done]; intros q0 x Hin; inv_steps]. inv_steps.
      apply find_by_scope_first in Hc. congruence.
    + sc_refused; [|split; [|done]; intros q0 x Hin; inv_steps]. congruence.
    + sc_refused; [|split; [|done]; intros q0 x Hin; inv_steps]. by rewrite G2 in *.
  - unfold credential_by_identifier. hwp.
    + apply by_details_fetching. intros h' o F. unfold bindQ. destruct o as [v| |].
      * hwp; intros j Hj Hsc; inv_steps; congruence.
      * intros j Hj Hsc; inv_steps; congruence.
      * intros j Hj Hsc; inv_steps; congruence.
    + intros j Hj Hsc; inv_steps; congruence.
  - sc_refused; [rough_steps|]. split; [|done]. intros q0 x Hin. inv_steps.
  - sc_refused; [|split; [|done]; intros q0 x Hin; inv_steps]. inv_steps. by apply bool_decide_eq_false in H.
  - intros j Hj Hsc. inv_steps. naive_solver.
Qed.
Lemma scope_exact r es o : runs (h_credentials r) es o → scope_post r es o.
Proof. intros H. exact (wp_runs _ _ _ _ _ _ (scope_posts r) H). Qed.

(** When a request by identifier goes through. *)
Lemma classic_bare md : bare_display md ∨ ¬ bare_display md.
Proof.
  assert (Decision (Exists (λ p : string * credential_configuration, match cc_display p.2 with Some [] => true | _ => false end = true)
    (is_configurations md))) as [H|H] by apply _.
  - left. apply Exists_exists in H as ([id c] & Hin & Hc). exists id, c. split; [done|]. simpl in Hc. by destruct (cc_display c) as [[]|].
  - right. intros (id & c & Hin & Hc). apply H, Exists_exists. exists (id, c). simpl. by rewrite Hc.
Qed.
Definition identifier_post (r : credentials_request) (es : hhist) (o : outcome string credentials_response) : Prop :=
  ∀ i, HGet (hc_issuance_id r) (Some (HSIssuance i)) ∈ es → hi_scope i = None → ¬ bare_display (hi_issuer i) →
  (∃ y, o = Ok y) ↔ hi_status i = STokenReceived ∧ smooth es ∧ all_digestible es ∧
     ∃ ds, trs_authorization_details (hi_token i) = Some ds ∧
       ∀ d, d ∈ ds → ∃ id, stands_for (hi_issuer i) d id ∧ is_Some (assoc id (is_configurations (hi_issuer i))).
Lemma identifier_posts r : wp anyE (identifier_post r) (h_credentials r) [].
Proof.
  unfold h_credentials. hwp; unfold bindQ.
  - unfold credential_by_format. hwp; try (intros j Hj Hsc; inv_steps; congruence).
    apply take_response_exact; unfold bindQ.
    + intros h' v (Hchk & _) _ _ _ _ _ _ _ _. hwp; intros j Hj Hsc; inv_steps; congruence.
    + intros h' o [Hchk _] Hn. destruct o as [c| |]; [by destruct (Hn c)| |]; intros j Hj Hsc; inv_steps; congruence.
  - unfold credential_by_identifier. apply bool_decide_eq_true in H. hwp.
    + destruct (classic_bare (hi_issuer i)) as [Hb|Hb].
      * apply by_details_fetching. intros h' o F. unfold bindQ. destruct o as [v| |]; [hwp|..]; intros j Hj Hsc; inv_steps; done.
      * apply by_details_exact; [done|..]; unfold bindQ.
        -- intros h' v F1 F2 F3 F4. hwp; intros j Hj Hsc Hbb; inv_steps.
           ++ split; [intros _|by eauto]. split; [done|]. split; [smooth_steps|]. split; [|by exists a0].
              apply all_digestible_app. split; [|by split; intros; inv_steps]. apply all_digestible_app. split; [|done].
              split; intros; inv_steps.
           ++ split; [by intros [? ?]|]. intros (_ & Hs & _). rough_steps.
        -- intros h' o F1 F2 Hn.
           destruct o as [c| |]; [by destruct (Hn c)| |]; intros j Hj Hsc Hbb; inv_steps; (split; [by intros [? ?]|]);
             intros (_ & Hs & Hd & ds & Hds & Hall); destruct F2; simplify_eq; (split; [by apply smooth_app in Hs as [_ ?]|]);
             (split; [by apply all_digestible_app in Hd as [_ ?]|done]).
    + intros j Hj Hsc Hbb. inv_steps. split; [by intros [? ?]|]. intros (_ & _ & _ & ds & Hds & _). congruence.
  - intros j Hj Hsc Hbb. inv_steps. split; [by intros [? ?]|]. intros (_ & Hs & _). rough_steps.
  - intros j Hj Hsc Hbb. inv_steps. split; [by intros [? ?]|]. intros (Hst & _). by apply bool_decide_eq_false in H.
  - intros j Hj Hsc Hbb. inv_steps. naive_solver.
Qed.
Lemma identifier_exact r es o : runs (h_credentials r) es o → identifier_post r es o.
Proof. intros H. exact (wp_runs _ _ _ _ _ _ (identifier_posts r) H). Qed.
