(** What the single steps of the wallet do, exactly. *)
From Verif Require Import Base Json CoreModel VcModel Prog ProgFacts ExecSpec ExecFacts Sha256 IssuerTypes
  MatcherModel VerifierModel HolderModel HolderSpec HolderFacts HolderExec HolderRuns WalletStepSpec.
From Verif Require IssuerSpec IssuerToken.

Notation anyE := (λ (_ : hhist) (_ : hevent), True).

Lemma smooth_nil : smooth [].
Proof. intros e ?%elem_of_nil. done. Qed.
Lemma smooth_snoc h e : smooth h → ¬ hfailed e → smooth (h ++ [e]).
Proof. intros H He e2 Hin. apply elem_of_app in Hin as [?|Hin]; [by apply H|]. apply elem_of_list_singleton in Hin. by subst e2. Qed.
Lemma smooth_app h h' : smooth (h ++ h') ↔ smooth h ∧ smooth h'.
Proof. unfold smooth. set_solver. Qed.
Lemma rough_in h e : e ∈ h → hfailed e → ¬ smooth h.
Proof. intros Hin Hf Hs. by apply (Hs e). Qed.
(** On concrete histories. *)
Ltac smooth_tac := repeat (apply smooth_snoc; [|exact (λ x, x)]); first [apply smooth_nil|assumption].
Ltac inv_in := repeat match goal with
  | H : _ ∈ _ ++ [_] |- _ => apply elem_of_app in H as [H|H%elem_of_list_singleton]; try discriminate H
  | H : _ ∈ [] |- _ => by apply elem_of_nil in H
  end; simplify_eq.
(** A failed call is in the history. *)
Ltac rough := match goal with H : smooth _ |- _ => exfalso; revert H; eapply rough_in;
  [apply elem_of_app; right; by apply elem_of_list_singleton|exact I] end.

(** ** Offers *)
Lemma offered_configs_ok sup ids acc l : offered_configs sup ids acc = Some l →
  ∀ k c, assoc k l = Some c ↔ (k ∈ ids ∧ assoc k sup = Some c) ∨ (k ∉ ids ∧ assoc k acc = Some c).
Proof.
  revert acc. induction ids as [|id ids IH]; intros acc; simpl.
  - intros [= <-] k c. set_solver.
  - destruct (assoc id sup) as [cfg|] eqn:E; [|done]. intros H k c. rewrite (IH _ H).
    rewrite assoc_ainsert. case_bool_decide as Hd.
    + subst id. destruct (decide (k ∈ ids)); rewrite E; set_solver.
    + set_solver.
Qed.
Lemma offered_configs_some sup ids acc :
  is_Some (offered_configs sup ids acc) ↔ ∀ id, id ∈ ids → is_Some (assoc id sup).
Proof.
  revert acc. induction ids as [|id ids IH]; intros acc; simpl.
  - split; [intros _ ? ?%elem_of_nil; done|eauto].
  - destruct (assoc id sup) as [cfg|] eqn:E.
    + rewrite IH. split; [|set_solver]. intros H k [->|Hk]%elem_of_cons; [by rewrite E|by apply H].
    + split; [by intros [? ?]|]. intros H. destruct (H id) as [? ?]; [by left|congruence].
Qed.

Definition offer_post (cl sb : string) (o : credential_offer) (es : hhist) (r : outcome string offer_response) : Prop :=
  ((∃ y, r = Ok y) ↔ of_configuration_ids o ≠ [] ∧ smooth es ∧
     ∀ md id, HX (EMetadata (of_credential_issuer o) (Some md)) ∈ es → id ∈ of_configuration_ids o →
       is_Some (assoc id (is_configurations md))) ∧
  (∀ y, r = Ok y → ∃ id md srv v x,
     HX (EUuid id) ∈ es ∧ HX (EMetadata (of_credential_issuer o) (Some md)) ∈ es ∧
     HX (EServer (of_credential_issuer o) (Some srv)) ∈ es ∧ HPut id (HSIssuance v) x true ∈ es ∧
     or_issuance_id y = id ∧ or_issuer y = of_credential_issuer o ∧ or_grants y = of_grants o ∧
     (∀ k c, assoc k (or_offered y) = Some c ↔ k ∈ of_configuration_ids o ∧ assoc k (is_configurations md) = Some c) ∧
     hi_id v = id ∧ hi_client_id v = cl ∧ hi_subject_id v = sb ∧ hi_status v = SReady ∧ hi_offer v = o ∧
     hi_issuer v = md ∧ hi_server v = srv ∧ hi_scope v = None ∧ new_issuance v).
Lemma offer_posts cl sb o : wp anyE (offer_post cl sb o) (h_offer cl sb o) [].
Proof.
  unfold h_offer, fetch_issuer. hwp.
  - split.
    + split; [|by eauto]. intros _. split; [by intros Hn; rewrite Hn in *|]. split; [smooth_tac|].
      intros md id Hmd Hid. inv_in. eapply offered_configs_some; [|done]. by eexists.
    + intros y [= <-]. do 5 eexists. do 4 (split; [hhin|]). do 3 (split; [done|]). split; [|done].
      intros k c. rewrite (offered_configs_ok _ _ _ _ H0). simpl. set_solver.
  - split; [|done]. split; [by intros [? ?]|]. intros (Hne & Hs & Hall). exfalso.
    assert (is_Some (offered_configs (is_configurations a) (of_configuration_ids o) [])) as [? ?]; [|simpl in *; congruence].
    apply offered_configs_some. intros id Hid. eapply Hall; [|done]. hhin.
  - split; [|done]. split; [by intros [? ?]|]. intros (Hne & Hs & Hall). rough.
  - split; [|done]. split; [by intros [? ?]|]. intros (Hne & Hs & Hall). rough.
  - split; [|done]. split; [by intros [? ?]|]. intros (Hne & Hs & Hall). rough.
  - split; [|done]. split; [by intros [? ?]|]. intros (Hne & Hs & Hall). by destruct (of_configuration_ids o).
Qed.
Lemma offer_exact cl sb o es r : runs (h_offer cl sb o) es r → offer_post cl sb o es r.
Proof. intros H. exact (wp_runs _ _ _ _ _ _ (offer_posts cl sb o) H). Qed.

(** ** Accepting *)
Lemma narrow_specs_some sup l : is_Some (narrow_specs sup l) ↔
  ∀ s, s ∈ l → as_claims s ≠ None → is_Some (assoc (as_configuration_id s) sup).
Proof.
  induction l as [|s l IH]; simpl.
  - split; [intros _ ? ?%elem_of_nil; done|eauto].
  - destruct (as_claims s) as [cl|] eqn:Ec.
    + destruct (assoc (as_configuration_id s) sup) as [cfg|] eqn:Ea.
      * destruct (narrow_specs sup l) as [ds|].
        -- split; [|eauto]. intros _ s' [->|Hs']%elem_of_cons Hc; [by rewrite Ea|]. by apply IH.
        -- split; [by intros [? ?]|]. intros H. apply IH. intros s' Hs'. apply H. by right.
      * split; [by intros [? ?]|]. intros H. destruct (H s) as [? ?]; [by left|by rewrite Ec|congruence].
    + destruct (narrow_specs sup l) as [ds|].
      * split; [|eauto]. intros _ s' [->|Hs']%elem_of_cons Hc; [done|]. by apply IH.
      * split; [by intros [? ?]|]. intros H. apply IH. intros s' Hs'. apply H. by right.
Qed.
Lemma narrow_scope_some sup a : is_Some (narrow_scope sup a) ↔
  ∀ l s, a = Some l → s ∈ l → as_claims s ≠ None → is_Some (assoc (as_configuration_id s) sup).
Proof.
  destruct a as [l|]; simpl.
  - rewrite fmap_is_Some, narrow_specs_some. split; [|by eauto]. intros H l' s [= <-]. apply H.
  - split; [done|eauto].
Qed.
Lemma needs_pin_iff o : needs_pin o = true ↔ wants_code o.
Proof.
  unfold needs_pin, wants_code. destruct (of_grants o) as [g|]; [|naive_solver].
  destruct (gr_pre_authorized_code g) as [p|] eqn:E; [|naive_solver].
  destruct (pg_tx_code p) eqn:E2; naive_solver.
Qed.
Definition accept_post (id : string) (a : option (list auth_spec)) (es : hhist) (r : outcome string string) : Prop :=
  ((∃ y, r = Ok y) ↔ ∃ i, HGet id (Some (HSIssuance i)) ∈ es ∧ hi_status i = SReady ∧ a ≠ Some [] ∧
     (∀ l s, a = Some l → s ∈ l → as_claims s ≠ None →
        is_Some (assoc (as_configuration_id s) (is_configurations (hi_issuer i)))) ∧ smooth es) ∧
  (∀ y, r = Ok y → ∃ i v x, HGet id (Some (HSIssuance i)) ∈ es ∧ HPut (hi_id i) (HSIssuance v) x true ∈ es ∧
     y = hi_id i ∧ same_origin i v ∧ same_pkce i v ∧ same_received i v ∧ hi_pin v = hi_pin i ∧
     hi_token v = hi_token i ∧ asks_as_specified a (hi_accepted v) ∧
     (wants_code (hi_offer i) ∧ hi_status v = SPendingPin ∨ ¬ wants_code (hi_offer i) ∧ hi_status v = SAccepted)).
Ltac refused := split; [|done]; split; [by intros [? ?]|].
Lemma accept_posts id a : wp anyE (accept_post id a) (h_accept id a) [].
Proof.
  unfold h_accept. hwp.
  - apply bool_decide_eq_true in H. split.
    + split; [|by eauto]. intros _. exists i. split; [hhin|]. split; [done|].
      split; [by intros Hn; rewrite Hn in *|]. split; [apply narrow_scope_some; by eexists|smooth_tac].
    + intros y [= <-]. do 3 eexists. do 2 (split; [hhin|]). do 6 (split; [done|]).
      split; [by eapply narrow_scope_asks|]. rewrite <-needs_pin_iff. simpl.
      destruct (needs_pin (hi_offer i)); [by left|by right].
  - refused. intros (j & Hin & Hst & Hne & Hall & Hs). rough.
  - refused. intros (j & Hin & Hst & Hne & Hall & Hs). inv_in. apply narrow_scope_some in Hall as [? ?]. congruence.
  - refused. intros (j & Hin & Hst & Hne & Hall & Hs). by destruct a as [[|]|].
  - refused. intros (j & Hin & Hst & Hne & Hall & Hs). inv_in. by apply bool_decide_eq_false in H.
  - refused. intros (j & Hin & Hst & Hne & Hall & Hs). inv_in. naive_solver.
Qed.
Lemma accept_exact id a es r : runs (h_accept id a) es r → accept_post id a es r.
Proof. intros H. exact (wp_runs _ _ _ _ _ _ (accept_posts id a) H). Qed.

(** ** The transaction code *)
Definition pin_post (id p : string) (es : hhist) (r : outcome string string) : Prop :=
  ((∃ y, r = Ok y) ↔ ∃ i, HGet id (Some (HSIssuance i)) ∈ es ∧ hi_status i = SPendingPin ∧ smooth es) ∧
  (∀ y, r = Ok y → ∃ i v x, HGet id (Some (HSIssuance i)) ∈ es ∧ HPut (hi_id i) (HSIssuance v) x true ∈ es ∧
     y = hi_id i ∧ same_origin i v ∧ same_pkce i v ∧ same_received i v ∧ hi_token v = hi_token i ∧
     hi_accepted v = hi_accepted i ∧ hi_pin v = Some p ∧ hi_status v = SAccepted).
Lemma pin_posts id p : wp anyE (pin_post id p) (h_pin id p) [].
Proof.
  unfold h_pin. hwp.
  - apply bool_decide_eq_true in H. split.
    + split; [|by eauto]. intros _. exists i. split; [hhin|]. split; [done|smooth_tac].
    + intros y [= <-]. do 3 eexists. do 2 (split; [hhin|]). done.
  - refused. intros (j & Hin & Hst & Hs). rough.
  - refused. intros (j & Hin & Hst & Hs). inv_in. by apply bool_decide_eq_false in H.
  - refused. intros (j & Hin & Hst & Hs). inv_in. naive_solver.
Qed.
Lemma pin_exact id p es r : runs (h_pin id p) es r → pin_post id p es r.
Proof. intros H. exact (wp_runs _ _ _ _ _ _ (pin_posts id p) H). Qed.

(** ** The token *)
Lemma find_configuration_first f l id : find_configuration f l = Some id ↔
  ∃ l1 c l2, l = l1 ++ (id, c) :: l2 ∧ IssuerSpec.same_format (cc_format c) f ∧
    ∀ k c', (k, c') ∈ l1 → ¬ IssuerSpec.same_format (cc_format c') f.
Proof.
  induction l as [|[k c] l IH]; simpl.
  - split; [done|]. by intros ([|] & ? & ? & ? & _).
  - destruct (format_eqb (cc_format c) f) eqn:E.
    + apply IssuerToken.format_eqb_spec in E. split.
      * intros [= <-]. exists [], c, l. split; [done|]. split; [done|]. by intros ? ? ?%elem_of_nil.
      * intros ([|[k1 c1] l1] & c2 & l2 & El & E2 & Hall); simpl in El.
        { by injection El as -> -> ->. }
        injection El as -> -> ->. by destruct (Hall k1 c1); [left|].
    + assert (¬ IssuerSpec.same_format (cc_format c) f) as Hno by (rewrite <-IssuerToken.format_eqb_spec; congruence).
      rewrite IH. split.
      * intros (l1 & c2 & l2 & -> & E2 & Hall). exists ((k, c) :: l1), c2, l2. split; [done|]. split; [done|].
        intros k' c' [[= -> ->]|Hin]%elem_of_cons; [done|]. by eapply Hall.
      * intros ([|[k1 c1] l1] & c2 & l2 & El & E2 & Hall); simpl in El.
        { by injection El as -> -> ->. }
        injection El as -> -> ->. exists l1, c2, l2. split; [done|]. split; [done|]. intros k' c' Hin. eapply Hall. by right.
Qed.
Lemma detail_stands md d id : detail_configuration md d = Some id ↔ stands_for md d id.
Proof.
  unfold detail_configuration, stands_for. destruct (ad_credential (atd_detail d)) as [k p|f].
  - naive_solver.
  - apply find_configuration_first.
Qed.
Lemma stands_unique md d id id' : stands_for md d id → stands_for md d id' → id = id'.
Proof. rewrite <-!detail_stands. congruence. Qed.
Lemma authorized_map_some md l acc : is_Some (authorized_map md l acc) ↔ ∀ d, d ∈ l → ∃ id, stands_for md d id.
Proof.
  revert acc. induction l as [|d l IH]; intros acc; simpl.
  - split; [intros _ ? ?%elem_of_nil; done|eauto].
  - destruct (detail_configuration md d) as [id|] eqn:E.
    + rewrite IH. split.
      * intros H d' [->|Hd']%elem_of_cons; [exists id; by apply detail_stands|by apply H].
      * intros H d' Hd'. apply H. by right.
    + split; [by intros [? ?]|]. intros H. destruct (H d) as [id Hid]; [by left|].
      apply detail_stands in Hid. congruence.
Qed.
Lemma authorized_map_ok md l acc m : authorized_map md l acc = Some m → ∀ id ids, assoc id m = Some ids ↔
  (∃ d1 d d2, l = d1 ++ d :: d2 ∧ stands_for md d id ∧ atd_identifiers d = ids ∧
     ∀ d', d' ∈ d2 → ¬ stands_for md d' id) ∨
  ((∀ d, d ∈ l → ¬ stands_for md d id) ∧ assoc id acc = Some ids).
Proof.
  revert acc. induction l as [|d l IH]; intros acc; simpl.
  - intros [= <-] id ids. split; [right; split; [by intros ? ?%elem_of_nil|done]|].
    intros [([|] & ? & ? & ? & _)|[_ ?]]; done.
  - destruct (detail_configuration md d) as [id0|] eqn:E; [|done]. intros H id ids.
    apply detail_stands in E. rewrite (IH _ H), assoc_ainsert. split.
    + intros [(d1 & d' & d2 & -> & ?)|[Hn Ha]].
      * left. exists (d :: d1), d', d2. done.
      * case_bool_decide as Hd.
        -- subst id0. injection Ha as <-. left. exists [], d, l. done.
        -- right. split; [|done]. intros d' [->|Hd']%elem_of_cons; [|by apply Hn].
           intros Hs. apply Hd. by eapply stands_unique.
    + intros [([|d0 d1] & d' & d2 & El & Hs & Hi & Hn)|[Hn Ha]].
      * simplify_eq/=. right. split; [done|]. rewrite bool_decide_true; [done|by eapply stands_unique].
      * simplify_eq/=. left. by exists d1, d', d2.
      * right. split; [intros d' Hd'; apply Hn; by right|]. rewrite bool_decide_false; [done|].
        intros ->. by apply (Hn d); [left|].
Qed.
Lemma authorized_map_reports md l m : authorized_map md l [] = Some m → reports md l m.
Proof. intros H id ids. rewrite (authorized_map_ok _ _ _ _ H). simpl. naive_solver. Qed.

Definition token_post (id : string) (es : hhist) (r : outcome string authorized_credentials) : Prop :=
  ((∃ y, r = Ok y) ↔ ∃ i g, HGet id (Some (HSIssuance i)) ∈ es ∧ hi_status i = SAccepted ∧
     (∃ gs, of_grants (hi_offer i) = Some gs ∧ gr_pre_authorized_code gs = Some g) ∧ smooth es ∧
     ∀ q tok ds d, HX (EToken q (Some tok)) ∈ es → trs_authorization_details tok = Some ds → d ∈ ds →
       ∃ k, stands_for (hi_issuer i) d k) ∧
  (∀ y, r = Ok y → ∃ i q tok v x, HGet id (Some (HSIssuance i)) ∈ es ∧ HX (EToken q (Some tok)) ∈ es ∧
     HPut (hi_id i) (HSIssuance v) x true ∈ es ∧ ac_issuance_id y = hi_id i ∧
     same_origin i v ∧ same_pkce i v ∧ same_received i v ∧ hi_accepted v = hi_accepted i ∧ hi_pin v = hi_pin i ∧
     hi_token v = tok ∧ hi_status v = STokenReceived ∧
     match trs_authorization_details tok, ac_authorized y with
     | Some ds, Some m => reports (hi_issuer i) ds m
     | None, None => True
     | _, _ => False
     end).
Lemma pre_authorized_iff o g : pre_authorized o = Some g ↔
  ∃ gs, of_grants o = Some gs ∧ gr_pre_authorized_code gs = Some g.
Proof. unfold pre_authorized. destruct (of_grants o); naive_solver. Qed.
Lemma token_posts id : wp anyE (token_post id) (h_token id) [].
Proof.
  unfold h_token. hwp.
  - destruct (bool_decide (hi_status i = SAccepted)) eqn:Hst; [|done]. apply bool_decide_eq_true in Hst.
    apply pre_authorized_iff in H. split.
    + split; [|by eauto]. intros _. exists i, a. split; [hhin|]. split; [done|]. split; [done|]. split; [smooth_tac|].
      intros q tok ds d Hin Hds. inv_in. intros Hd. by eapply authorized_map_some; [eexists|].
    + intros y [= <-]. do 5 eexists. do 3 (split; [hhin|]). do 8 (split; [done|]). simpl.
      rewrite Heqo. by apply authorized_map_reports.
  - refused. intros (j & g & Hin & Hst & Hg & Hs & Hd). rough.
  - refused. intros (j & g & Hin & Hst & Hg & Hs & Hd). inv_in.
    assert (is_Some (authorized_map (hi_issuer i) l [])) as [? ?]; [|simpl in *; congruence].
    apply authorized_map_some. intros d. eapply Hd; [hhin|done].
  - destruct (bool_decide (hi_status i = SAccepted)) eqn:Hst; [|done]. apply bool_decide_eq_true in Hst.
    apply pre_authorized_iff in H. split.
    + split; [|by eauto]. intros _. exists i, a. split; [hhin|]. split; [done|]. split; [done|]. split; [smooth_tac|].
      intros q tok ds d Hin Hds. inv_in.
    + intros y [= <-]. do 5 eexists. do 3 (split; [hhin|]). do 8 (split; [done|]). simpl. by rewrite Heqo.
  - refused. intros (j & g & Hin & Hst & Hg & Hs & Hd). rough.
  - refused. intros (j & g & Hin & Hst & Hg & Hs & Hd). rough.
  - refused. intros (j & g & Hin & Hst & Hg & Hs & Hd). inv_in.
    rewrite bool_decide_true in H by done. apply pre_authorized_iff in Hg. congruence.
  - refused. intros (j & g & Hin & Hst & Hg & Hs & Hd). inv_in. naive_solver.
Qed.
Lemma token_exact id es r : runs (h_token id) es r → token_post id es r.
Proof. intros H. exact (wp_runs _ _ _ _ _ _ (token_posts id) H). Qed.

(** ** Cancelling *)
Definition cancel_post (id : string) (es : hhist) (r : outcome string string) : Prop :=
  ((∃ y, r = Ok y) ↔ ∃ i, HGet id (Some (HSIssuance i)) ∈ es ∧ smooth es) ∧
  (∀ y, r = Ok y → HPurge id true ∈ es) ∧
  (∀ q e b, HX (ENotify q e b) ∈ es → ∃ i, HGet id (Some (HSIssuance i)) ∈ es ∧ e = CredentialDeleted ∧
     hi_notification_id i = Some (nr_notification_id q) ∧ nr_access_token q = trs_access_token (hi_token i)) ∧
  (∀ i n, HGet id (Some (HSIssuance i)) ∈ es → hi_notification_id i = Some n →
     ∃ q b, HX (ENotify q CredentialDeleted b) ∈ es).
Lemma cancel_posts id : wp anyE (cancel_post id) (h_cancel id) [].
Proof.
  unfold h_cancel, notify. hwp; cbn [hans] in *; subst.
  - split; [split; [|by eauto]; intros _; exists i; split; [hhin|smooth_tac]|].
    split; [intros; hhin|]. split.
    + intros q e b Hin. inv_in. exists i. split; [hhin|done].
    + intros j n Hin Hn. inv_in. eexists _, _. hhin.
  - split; [split; [by intros [? ?]|]; intros (j & _ & Hs); rough|]. split; [done|]. split.
    + intros q e b Hin. inv_in. exists i. split; [hhin|done].
    + intros j n Hin Hn. inv_in. eexists _, _. hhin.
  - split; [split; [by intros [? ?]|]; intros (j & _ & Hs); rough|]. split; [done|]. split.
    + intros q e b Hin. inv_in. exists i. split; [hhin|done].
    + intros j n Hin Hn. inv_in. eexists _, _. hhin.
  - split; [split; [|by eauto]; intros _; exists i; split; [hhin|smooth_tac]|].
    split; [intros; hhin|]. split; [intros q e b Hin; by inv_in|]. intros j n Hin Hn. inv_in.
  - split; [split; [by intros [? ?]|]; intros (j & _ & Hs); rough|]. split; [done|].
    split; [intros q e b Hin; by inv_in|]. intros j n Hin Hn. inv_in.
  - split; [split; [by intros [? ?]|]; intros (j & Hin & Hs); inv_in; naive_solver|]. split; [done|].
    split; [intros q e b Hin; by inv_in|]. intros j n Hin Hn. inv_in. naive_solver.
Qed.
Lemma cancel_exact id es r : runs (h_cancel id) es r → cancel_post id es r.
Proof. intros H. exact (wp_runs _ _ _ _ _ _ (cancel_posts id) H). Qed.

(** ** Presentation requests *)

Lemma build_filter_iff req f : build_filter req = Some f ↔ answerable req f.
Proof.
  unfold build_filter, answerable. destruct (vo_definition req) as [u|d].
  { split; [done|]. by intros (? & ? & ? & ? & _). }
  destruct (pd_input_descriptors d) as [|x rest] eqn:E.
  { split; [done|]. intros (? & ? & ? & [= <-] & ? & _). congruence. }
  split.
  - intros [= <-]. by exists d, x, rest.
  - intros (? & ? & ? & [= <-] & ? & ->). congruence.
Qed.
Definition request_post (url : string) (es : hhist) (r : outcome string request_response) : Prop :=
  ((∃ y, r = Ok y) ↔ smooth es ∧
     (∀ u o, HX (ERequestObject u (Some o)) ∈ es → ∃ jwt, o = RoJwt jwt) ∧
     ∃ req f, (HX (EParseRequest url (Some req)) ∈ es ∨ ∃ jwt, HX (EDecodeRequest jwt (Some req)) ∈ es) ∧
       answerable req f) ∧
  (∀ y, r = Ok y → ∃ id req f creds p x, HX (EUuid id) ∈ es ∧
     (HX (EParseRequest url (Some req)) ∈ es ∨
      ∃ u jwt, HX (ERequestObject u (Some (RoJwt jwt))) ∈ es ∧ HX (EDecodeRequest jwt (Some req)) ∈ es) ∧
     answerable req f ∧ HX (EFind f (Some creds)) ∈ es ∧ HPut id (HSPresentation p) x true ∈ es ∧
     p = Presentation id PRequested req creds f ∧
     hq_id y = id ∧ hq_status y = PRequested ∧ hq_credentials y = creds).
Lemma request_posts url : wp anyE (request_post url) (h_request url) [].
Proof.
  unfold h_request. hwp.
  - apply build_filter_iff in H. split.
    + split; [|by eauto]. intros _. split; [smooth_tac|]. split; [intros; by inv_in|].
      eexists _, _. split; [left; hhin|done].
    + intros y [= <-]. eexists _, _, _, _, _, _. split; [hhin|]. split; [left; hhin|]. split; [done|].
      do 2 (split; [hhin|]). done.
  - refused. intros (Hs & _). rough.
  - refused. intros (Hs & _). rough.
  - refused. intros (_ & _ & req & f & [Hin|[jwt Hin]] & Ha); inv_in. apply build_filter_iff in Ha. congruence.
  - refused. intros (Hs & _). rough.
  - match goal with F : build_filter _ = Some _ |- _ => apply build_filter_iff in F end.
    destruct a0 as [o|jwt]; [done|]. injection H as ->. split.
    + split; [|by eauto]. intros _. split; [smooth_tac|]. split; [intros; inv_in; by eexists|].
      eexists _, _. split; [right; eexists; hhin|done].
    + intros y [= <-]. eexists _, _, _, _, _, _. split; [hhin|].
      split; [right; eexists _, _; split; hhin|]. split; [done|]. do 2 (split; [hhin|]). done.
  - refused. intros (Hs & _). rough.
  - refused. intros (Hs & _). rough.
  - refused. intros (_ & _ & req & f & [Hin|[jwt Hin]] & Ha); inv_in. apply build_filter_iff in Ha. congruence.
  - refused. intros (Hs & _). rough.
  - refused. intros (_ & Hro & _). destruct a0 as [o|jwt]; [|done].
    edestruct Hro as [jwt Hj]; [hhin|done].
  - refused. intros (Hs & _). rough.
  - refused. intros (Hs & _). rough.
Qed.
Lemma request_exact url es r : runs (h_request url) es r → request_post url es r.
Proof. intros H. exact (wp_runs _ _ _ _ _ _ (request_posts url) H). Qed.

(** ** Consent *)
Definition consent_post (id : string) (es : hhist) (r : outcome string presentation_status) : Prop :=
  ((∃ y, r = Ok y) ↔ ∃ p, HGet id (Some (HSPresentation p)) ∈ es ∧ hp_status p = PRequested ∧ smooth es) ∧
  (∀ y, r = Ok y → y = PAuthorized ∧ ∃ p x, HGet id (Some (HSPresentation p)) ∈ es ∧
     HPut (hp_id p) (HSPresentation (Presentation (hp_id p) PAuthorized (hp_request p) (hp_credentials p) (hp_filter p)))
       x true ∈ es).
Lemma consent_posts id : wp anyE (consent_post id) (h_consent id) [].
Proof.
  unfold h_consent. hwp.
  - apply bool_decide_eq_true in H. split.
    + split; [|by eauto]. intros _. exists p. split; [hhin|]. split; [done|smooth_tac].
    + intros y [= <-]. split; [done|]. do 2 eexists. split; hhin.
  - refused. intros (j & Hin & Hst & Hs). rough.
  - refused. intros (j & Hin & Hst & Hs). inv_in. by apply bool_decide_eq_false in H.
  - refused. intros (j & Hin & Hst & Hs). inv_in. naive_solver.
Qed.
Lemma consent_exact id es r : runs (h_consent id) es r → consent_post id es r.
Proof. intros H. exact (wp_runs _ _ _ _ _ _ (consent_posts id) H). Qed.

(** ** Presenting *)

Lemma consts_some d : definition_consts d ≠ [] ↔ has_const d.
Proof.
  unfold definition_consts, has_const. split.
  - intros Hne. destruct (concat _) as [|s l] eqn:E; [done|]. assert (s ∈ s :: l) as Hin by left. rewrite <-E in Hin.
    apply elem_of_list_In, in_concat in Hin as (l1 & Hl1 & Hs).
    apply elem_of_list_In, elem_of_list_fmap in Hl1 as (x & -> & Hx).
    apply in_concat in Hs as (l2 & Hl2 & Hs). apply elem_of_list_In, elem_of_list_fmap in Hl2 as (f & -> & Hf).
    destruct (cn_fields (id_constraints x)) as [fs|] eqn:Efs; simpl in Hf; [|by apply elem_of_nil in Hf].
    unfold field_const in Hs. destruct (fd_filter f) as [[t fv]|] eqn:Ef; [|done]. simpl in Hs.
    destruct fv as [v|v|v]; [|done..]. by exists x, fs, f, t, v.
  - intros (x & fs & f & t & v & Hx & Hfs & Hf & Hfl) E.
    assert (v ∈ concat (map (λ x, concat (map field_const (default [] (cn_fields (id_constraints x))))) (pd_input_descriptors d))) as Hin.
    { apply elem_of_list_In, in_concat. eexists. split; [apply elem_of_list_In, elem_of_list_fmap; by exists x|].
      rewrite Hfs. simpl. apply in_concat. eexists. split; [apply elem_of_list_In, elem_of_list_fmap; by exists f|].
      unfold field_const. rewrite Hfl. by left. }
    rewrite E in Hin. by apply elem_of_nil in Hin.
Qed.
Lemma create_vp_iff u h d l : (∃ v, create_vp u h d l = Ok v) ↔ has_const d.
Proof.
  rewrite <-consts_some. unfold create_vp.
  set (b0 := vpb_holder h _).
  assert (length (vp_context b0) = 2 ∧ ∃ t, vp_type b0 = QOne t) as Hb0 by (split; [done|by eexists]). clearbody b0.
  set (b1 := fold_left (λ b t, vpb_add_type t b) (definition_consts d) b0).
  assert (length (vp_context b1) = 2 ∧ (definition_consts d ≠ [] ↔ ∃ t, vp_type b1 = QMany t)) as Hb1.
  { unfold b1. clear b1. destruct Hb0 as [Hc [t Ht]].
    assert (∀ l b, length (vp_context b) = 2 → (∃ t, vp_type b = QMany t) →
      length (vp_context (fold_left (λ b t, vpb_add_type t b) l b)) = 2 ∧
      ∃ t, vp_type (fold_left (λ b t, vpb_add_type t b) l b) = QMany t) as Hmany.
    { clear. induction l as [|x l IH]; intros b Hc Ht; simpl; [done|]. apply IH; [done|]. simpl.
      destruct Ht as [t ->]. by eexists. }
    destruct (definition_consts d) as [|x l']; simpl.
    - split; [done|]. rewrite Ht. split; [done|]. by intros [? ?].
    - destruct (Hmany l' (vpb_add_type x b0)) as [H1 H2]; [done|simpl; rewrite Ht; by eexists|].
      split; [done|]. split; [by intros _|done]. }
  clearbody b1. clear Hb0 b0. destruct Hb1 as [Hc Hiff]. rewrite Hiff. clear Hiff.
  set (b2 := fold_left _ l b1).
  assert (vp_context b2 = vp_context b1 ∧ vp_type b2 = vp_type b1) as [E1 E2].
  { unfold b2. clear. revert b1. induction l as [|x l IH]; intros b1; simpl; [done|].
    destruct (IH (vpb_add_credential (KString (wc_issued x)) b1)) as [-> ->]. done. }
  unfold vpb_build. rewrite E1, E2, Hc. simpl. destruct (vp_type b1) as [t|t].
  - split; [by intros [? ?]|by intros [? ?]].
  - split; [by eexists|by eexists].
Qed.
Definition present_post (id : string) (es : hhist) (r : outcome string response_response) : Prop :=
  ((∃ y, r = Ok y) ↔ ∃ p d, HGet id (Some (HSPresentation p)) ∈ es ∧ hp_status p = PAuthorized ∧
     vo_definition (hp_request p) = KObject d ∧ has_const d ∧ smooth es) ∧
  (∀ y, r = Ok y → ∃ uri rr, HX (EPresent uri rr (Some y)) ∈ es).
Lemma present_posts id : wp anyE (present_post id) (h_present id) [].
Proof.
  unfold h_present. hwp.
  - destruct (vo_definition (hp_request p)) as [u|d] eqn:Ed; [done|]. injection H0 as ->.
    apply bool_decide_eq_true in H.
    destruct (create_vp _ _ _ _) as [v|e|w] eqn:Ev; unfold bindQ; hwp.
    + split.
      * split; [|by eauto]. intros _. exists p, a. split; [hhin|]. do 2 (split; [done|]).
        split; [eapply create_vp_iff; by eexists|smooth_tac].
      * intros y [= ->]. eexists _, _. hhin.
    + refused. intros (j & d & Hin & Hst & Hd & Hc & Hs). rough.
    + refused. intros (j & d & Hin & Hst & Hd & Hc & Hs). rough.
    + refused. intros (j & d & Hin & Hst & Hd & Hc & Hs). inv_in.
      match type of Ev with create_vp ?u ?h _ ?l = _ => apply (create_vp_iff u h _ l) in Hc as [v Hv] end. congruence.
    + by apply create_vp_no_panic in Ev.
  - refused. intros (j & d & Hin & Hst & Hd & Hc & Hs). inv_in. by rewrite Hd in *.
  - refused. intros (j & d & Hin & Hst & Hd & Hc & Hs). inv_in. by apply bool_decide_eq_false in H.
  - refused. intros (j & d & Hin & Hst & Hd & Hc & Hs). inv_in. naive_solver.
Qed.
Lemma present_exact id es r : runs (h_present id) es r → present_post id es r.
Proof. intros H. exact (wp_runs _ _ _ _ _ _ (present_posts id) H). Qed.

(** ** Authorizing *)
Lemma offered_details_some sup ids : is_Some (offered_details sup ids) ↔ ∀ id, id ∈ ids → is_Some (assoc id sup).
Proof.
  induction ids as [|id ids IH]; simpl.
  - split; [intros _ ? ?%elem_of_nil; done|eauto].
  - destruct (assoc id sup) as [c|] eqn:E.
    + destruct (offered_details sup ids) as [ds|].
      * split; [|eauto]. intros _ k [->|Hk]%elem_of_cons; [by rewrite E|]. by apply IH.
      * split; [by intros [? ?]|]. intros H. apply IH. intros k Hk. apply H. by right.
    + split; [by intros [? ?]|]. intros H. destruct (H id) as [? ?]; [by left|congruence].
Qed.
Lemma allows_code_iff i : allows_code i = Some true ↔
  match of_grants (hi_offer i) with
  | Some g => gr_authorization_code g ≠ None
  | None => ∃ l, sv_grant_types_supported (hi_server i) = Some l ∧ AuthorizationCode ∈ l
  end.
Proof.
  unfold allows_code. destruct (of_grants (hi_offer i)) as [g|].
  - destruct (gr_authorization_code g); naive_solver.
  - destruct (sv_grant_types_supported (hi_server i)) as [l|]; simpl; [|naive_solver].
    unfold contains. split.
    + intros [= H%bool_decide_eq_true]. by exists l.
    + intros (? & [= <-] & H). by rewrite bool_decide_true.
Qed.
Definition authorize_post (r : authorize_request) (es : hhist) (o : outcome string authorized_credentials) : Prop :=
  ((∃ y, o = Ok y) ↔ ∃ i, begins r es i ∧ may_authorize r i ∧ something_to_ask r i ∧ complete_server (hi_server i) ∧
     smooth es ∧
     ∀ q tok ds d, HX (EToken q (Some tok)) ∈ es → trs_authorization_details tok = Some ds → d ∈ ds →
       ∃ k, stands_for (hi_issuer i) d k) ∧
  (∀ y, o = Ok y → ∃ i q tok v x, begins r es i ∧ HX (EToken q (Some tok)) ∈ es ∧
     HPut (hi_id i) (HSIssuance v) x true ∈ es ∧ ac_issuance_id y = hi_id i ∧
     same_origin i v ∧ same_received i v ∧ hi_accepted v = hz_details r ∧ hi_pin v = hi_pin i ∧
     hi_token v = tok ∧ hi_status v = STokenReceived ∧
     (∃ verifier, HX (EVerifier verifier) ∈ es ∧ hi_code_verifier v = Some verifier ∧
        hi_code_challenge v = Some (code_challenge verifier)) ∧
     match trs_authorization_details tok, ac_authorized y with
     | Some ds, Some m => reports (hi_issuer i) ds m
     | None, None | Some [], None => True
     | _, _ => False
     end) ∧
  (∀ q x, HX (EAuthorization q x) ∈ es → ro_authorization_details q = None ↔ ro_scope q ≠ None).
Lemma accepted_map md l acc : (∀ d, d ∈ l → ∃ k, stands_for md d k) → authorized_map md l acc ≠ None.
Proof. intros H Hn. apply authorized_map_some with (acc := acc) in H as [? ?]. congruence. Qed.
Lemma offered_nonempty sup ids : (∀ id, id ∈ ids → is_Some (assoc id sup)) → offered_details sup ids ≠ None.
Proof. intros H%offered_details_some Hn. rewrite Hn in H. by destruct H. Qed.
(** A refusal. *)
Ltac az_bad := split; [split; [by intros [? ?]|intros (j & Hb & Hm & Ha & [Hc1 (m' & l' & Hc2)] & Hs & Hd); exfalso;
    first [rough | destruct Hb as (md' & srv' & ? & ? & ? & ? & ? & ? & ? & ? & ?) | idtac]; inv_in;
    try match goal with H : allows_code ?i = None |- _ => destruct Hm as [? Hm]; apply allows_code_iff in Hm; congruence end;
    try match goal with H : allows_code ?i = Some ?b, H2 : ?b && _ = false |- _ =>
      destruct Hm as [? Hm]; apply allows_code_iff in Hm; rewrite bool_decide_true in H2 by done; destruct b; simplify_eq end;
    try congruence;
    try match goal with H : authorized_map _ _ _ = None |- _ => revert H; apply accepted_map; intros d; eapply Hd; [hhin|by simpl] end;
    try match goal with H : negb (match ?x with _ => _ end) = _ |- _ => destruct x; naive_solver end;
    try naive_solver]
  | split; [done|intros q x Hin; inv_in; simpl; naive_solver]].
Ltac az_details :=
  try match goal with H : authorized_map ?md ?l ?acc = Some _ |- _ =>
    assert (is_Some (authorized_map md l acc)) as Hok by (by eexists); rewrite authorized_map_some in Hok; clear H end;
  intros ? ? ? ? ? ? ?; inv_in; simpl in *; simplify_eq; inv_in; try congruence;
  try match goal with H : ∀ d, _ → ∃ k, stands_for _ d k |- _ => by apply H end.
Ltac az_reports := simpl; repeat case_match; simplify_eq; try done; by apply authorized_map_reports.
Lemma authorize_posts r : wp anyE (authorize_post r) (h_authorize r) [].
Proof.
  unfold h_authorize, start_authorize, make_authorization_request, wanted_details, initiator_scope, fetch_issuer,
    authorize_post, begins, may_authorize, something_to_ask, complete_server.
  destruct (hz_initiator r) as [cl iss sc sb|id].
  - assert (∀ (P : issuance → Prop) id md srv, P (Issuance id cl sb (hi_status (issuance_new id cl sb)) (hi_offer (issuance_new id cl sb)) md srv
       (hi_accepted (issuance_new id cl sb)) (hi_pin (issuance_new id cl sb)) (hi_code_verifier (issuance_new id cl sb))
       (hi_code_challenge (issuance_new id cl sb)) (hi_token (issuance_new id cl sb)) sc (hi_deferred (issuance_new id cl sb))
            (hi_notification_id (issuance_new id cl sb)) (hi_credentials (issuance_new id cl sb))) → ∃ i, P i) as Hnew by eauto.
    destruct sc as [sc|].
    + hwp.
      all: try match goal with |- wp _ _ (match ?x with _ => _ end) _ => destruct x eqn:?; hwp end.
      all: lazymatch goal with |- ((∃ y, Ok _ = Ok y) ↔ _) ∧ _ => idtac | |- ((∃ y, Err _ = Ok y) ↔ _) ∧ _ => az_bad
        | |- ((∃ y, Panic _ = Ok y) ↔ _) ∧ _ => az_bad end.
      all: split; [split; [intros _|by eauto]|split; [intros ? [= <-]|intros ? ? Hin; inv_in; done]].
      all: apply (Hnew _ r0 a a0).
      all: try do 4 eexists.
      all: split; [do 2 eexists; do 3 (split; [hhin|]); done|].
      all: try match goal with |- _ ∈ _ ∧ _ => do 2 (split; [hhin|]); do 7 (split; [done|]); split; [eexists; split; [hhin|done]|az_reports] end.
      all: split; [destruct (hz_details r); naive_solver|].
      all: split; [by right|].
      all: split; [split; [simpl in *; congruence|simpl in *; subst; eauto]|]; split; [smooth_tac|az_details].
    + hwp.
      all: try match goal with |- wp _ _ (match ?x with _ => _ end) _ => destruct x eqn:?; hwp end.
      all: lazymatch goal with |- ((∃ y, Ok _ = Ok y) ↔ _) ∧ _ => idtac | |- ((∃ y, Err _ = Ok y) ↔ _) ∧ _ => az_bad
        | |- ((∃ y, Panic _ = Ok y) ↔ _) ∧ _ => az_bad end.
      all: split; [split; [intros _|by eauto]|split; [intros ? [= <-]|intros ? ? Hin; inv_in; done]].
      all: apply (Hnew _ r0 a a0).
      all: try do 4 eexists.
      all: split; [do 2 eexists; do 3 (split; [hhin|]); done|].
      all: try match goal with |- _ ∈ _ ∧ _ => do 2 (split; [hhin|]); do 7 (split; [done|]); split; [eexists; split; [hhin|done]|az_reports] end.
      all: split; [by right|].
      all: split; [left; simpl in *; by destruct (hz_details r)|].
      all: split; [split; [simpl in *; congruence|simpl in *; subst; eauto]|]; split; [smooth_tac|az_details].
  - hwp.
    all: try match goal with |- wp _ _ (match ?x with _ => _ end) _ => destruct x eqn:?; hwp end.
    all: lazymatch goal with |- ((∃ y, Ok _ = Ok y) ↔ _) ∧ _ => idtac | |- ((∃ y, Err _ = Ok y) ↔ _) ∧ _ => az_bad
        | |- ((∃ y, Panic _ = Ok y) ↔ _) ∧ _ => az_bad end.
    all: try match goal with |- False => simpl in *; destruct (hz_details r); [done|];
      destruct Ha as [Ha|Ha]; [done|by apply offered_nonempty in Ha] end.
    all: match goal with H : _ && _ = true |- _ => apply andb_true_iff in H as [-> Hst%bool_decide_eq_true] end.
    all: match goal with H : allows_code _ = Some true |- _ => apply allows_code_iff in H end.
    all: split; [split; [intros _|by eauto]|split; [intros ? [= <-]|intros ? ? Hin; inv_in; done]].
    all: exists i.
    all: try do 4 eexists.
    all: split; [hhin|].
    all: try match goal with |- _ ∈ _ ∧ _ => do 2 (split; [hhin|]); do 7 (split; [done|]); split; [eexists; split; [hhin|done]|az_reports] end.
    all: split; [done|].
    all: split; [simpl in *; destruct (hz_details r); [by left|right; apply offered_details_some; eauto]|].
    all: split; [split; [simpl in *; congruence|simpl in *; subst; eauto]|]; split; [smooth_tac|az_details].
Qed.
Lemma authorize_exact r es o : runs (h_authorize r) es o → authorize_post r es o.
Proof. intros H. exact (wp_runs _ _ _ _ _ _ (authorize_posts r) H). Qed.
(** Without a const filter nothing is ever sent. *)
Lemma present_needs_const id es o p d : runs (h_present id) es o → HGet id (Some (HSPresentation p)) ∈ es →
  vo_definition (hp_request p) = KObject d → ¬ has_const d → ¬ ∃ y, o = Ok y.
Proof.
  intros H Hg Hd Hc [y ->].
  assert (∀ p p', HGet id (Some (HSPresentation p)) ∈ es → HGet id (Some (HSPresentation p')) ∈ es → p = p') as Hone.
  { assert (wp anyE (λ es (_ : outcome string response_response), ∀ p p', HGet id (Some (HSPresentation p)) ∈ es →
      HGet id (Some (HSPresentation p')) ∈ es → p = p') (h_present id) []) as Hw;
      [|exact (wp_runs _ _ _ _ _ _ Hw H)].
    unfold h_present. hwp; try (intros pa pb Ha Hb; by inv_in).
    destruct (create_vp _ _ _ _) as [v|e|w] eqn:Ev; unfold bindQ; hwp;
      try (by apply create_vp_no_panic in Ev); try (intros pa pb Ha Hb; by inv_in). }
  apply present_exact in H as [Hi _]. destruct (proj1 Hi (ex_intro _ y eq_refl)) as (p' & d' & Hg' & _ & Hd' & Hc' & _).
  assert (p = p') as <- by (by apply Hone). rewrite Hd in Hd'. injection Hd' as <-. done.
Qed.
