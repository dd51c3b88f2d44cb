(** Facts about the example wallet. *)
From Coq Require Import Lia.
From Verif Require Import Base StringSpec Json MatcherModel MatcherSpec MatcherFacts JsonParse CoreModel VcModel IssuerTypes SerdeSpec SerdeModel
  SerdeTrips VcSerde VcSpec VcTrips MetaSerde HolderModel RecordSerde RecordTrips QueryModel OfferLink WalletModel WalletSpec.
From Verif Require UrlModel UrlSpec UrlFacts.

(** ** The store *)

Lemma ws_run_app cx l1 l2 s : ws_run cx (l1 ++ l2) s = ws_run cx l2 (ws_run cx l1 s).
Proof. unfold ws_run. by rewrite fold_left_app. Qed.
Lemma ws_run_cons cx o l s : ws_run cx (o :: l) s = ws_run cx l (ws_step cx o s).
Proof. done. Qed.
Lemma ws_run_ind cx (P : wstore → Prop) l s :
  (∀ o s, o ∈ l → P s → P (ws_step cx o s)) → P s → P (ws_run cx l s).
Proof.
  revert s. induction l as [|o l IH]; intros s H Hs; [done|]. rewrite ws_run_cons. apply IH.
  - intros o' s' Ho. apply H. by right.
  - apply H; [apply elem_of_list_here|done].
Qed.

Lemma ws_step_other cx o s id v : about o ≠ Some id → ws_table s !! id = v → ws_file s !! id = v →
  ws_table (ws_step cx o s) !! id = v ∧ ws_file (ws_step cx o s) !! id = v.
Proof.
  intros Ha Ht Hf. destruct o as [c w|id' w| |]; simpl in Ha |- *.
  - assert (kc_id c ≠ id) by congruence. destruct w; simpl; rewrite ?lookup_insert_ne by done; done.
  - assert (id' ≠ id) by congruence. unfold ws_remove. destruct (ws_table s !! id'); [|done].
    destruct w; simpl; rewrite ?lookup_delete_ne by done; done.
  - done.
  - done.
Qed.
Lemma ws_run_other cx l s id v : (∀ o, o ∈ l → about o ≠ Some id) → ws_table s !! id = v → ws_file s !! id = v →
  ws_table (ws_run cx l s) !! id = v ∧ ws_file (ws_run cx l s) !! id = v.
Proof.
  intros Ha Ht Hf. apply (ws_run_ind cx (λ s, ws_table s !! id = v ∧ ws_file s !! id = v)); [|done].
  intros o s' Ho [H1 H2]. apply ws_step_other; auto.
Qed.

(** What is in the table, and in the file, was saved. *)
Definition all_saved (cx : codecs) (ops : list wstore_op) (s : wstore) : Prop :=
  ∀ m, m = ws_table s ∨ m = ws_file s → ∀ id v, m !! id = Some v → ∃ c w, WSave c w ∈ ops ∧ kc_id c = id ∧ v = ser_credential cx c.
Lemma all_saved_step cx ops o s : o ∈ ops → all_saved cx ops s → all_saved cx ops (ws_step cx o s).
Proof.
  intros Ho H m Hm id v Hv.
  assert (m = ws_table s ∨ m = ws_file s ∨ (∃ c w, o = WSave c w ∧ m = <[kc_id c := ser_credential cx c]> (ws_table s)) ∨
    (∃ id', m = delete id' (ws_table s))) as Hc.
  { destruct o as [c w|id' w| |]; simpl in Hm.
    - destruct w; simpl in Hm; destruct Hm as [->| ->]; eauto 7.
    - unfold ws_remove in Hm. destruct (ws_table s !! id'); [|naive_solver]. destruct w; simpl in Hm; destruct Hm as [->| ->]; eauto 7.
    - destruct Hm as [->| ->]; eauto.
    - destruct Hm as [->| ->]; eauto. }
  destruct Hc as [->|[->|[(c & w & -> & ->)|[id' ->]]]].
  - by apply (H (ws_table s)); auto.
  - by apply (H (ws_file s)); auto.
  - destruct (decide (kc_id c = id)) as [E|Hne].
    + rewrite E, lookup_insert in Hv. injection Hv as <-. eauto.
    + rewrite lookup_insert_ne in Hv by done. by apply (H (ws_table s)); auto.
  - apply lookup_delete_Some in Hv as [_ Hv]. by apply (H (ws_table s)); auto.
Qed.
Lemma all_saved_run cx ops : all_saved cx ops (ws_run cx ops ws_empty).
Proof.
  apply ws_run_ind; [intros; by apply all_saved_step|]. intros m [->| ->] id v Hv; done.
Qed.

(** A table all of whose values are credentials under their own identifiers. *)
Definition tidy (cx : codecs) (s : wstore) : Prop :=
  ∀ id v, ws_table s !! id = Some v → ∃ c, kc_id c = id ∧ v = ser_credential cx c ∧ de_credential cx v = Some c.
Lemma tidy_run cx ops : dates_read cx → (∀ c w, WSave c w ∈ ops → readable_vc (kc_vc c)) → tidy cx (ws_run cx ops ws_empty).
Proof.
  intros Hd Hr id v Hv. destruct (all_saved_run cx ops _ (or_introl eq_refl) id v Hv) as (c & w & Hc & <- & ->).
  exists c. split_and!; [done..|]. apply de_credential_ser; [done|by eapply Hr].
Qed.
Lemma mapM_total {A B} (f : A → option B) l : (∀ x, x ∈ l → is_Some (f x)) → ∃ k, mapM f l = Some k.
Proof.
  induction l as [|x l IH]; intros H; [by exists []|]. destruct (H x (elem_of_list_here _ _)) as [y Hy].
  destruct IH as [k Hk]; [intros z Hz; apply H; by right|]. exists (y :: k). simpl. by rewrite Hy, Hk.
Qed.
Lemma mapM_elem {A B} (f : A → option B) l k y : mapM f l = Some k → y ∈ k ↔ ∃ x, x ∈ l ∧ f x = Some y.
Proof.
  intros H%mapM_Some. induction H as [|x z l k Hxz _ IH].
  - split; [by intros ?%elem_of_nil|]. by intros (x & ?%elem_of_nil & _).
  - rewrite elem_of_cons, IH. split.
    + intros [->|(x' & ? & ?)]; [exists x; split; [apply elem_of_list_here|done]|]. exists x'. split; [by right|done].
    + intros (x' & [->|Hx']%elem_of_cons & Hf); [left; congruence|]. right. eauto.
Qed.
Lemma ws_list_elem cx s l c : tidy cx s → ws_list cx s = Some l → c ∈ l ↔ ws_load cx (kc_id c) s = Ok (Some c).
Proof.
  intros Ht Hl. rewrite (mapM_elem _ _ _ c Hl). unfold ws_load. split.
  - intros (v & Hv & Hc). apply elem_of_list_fmap in Hv as ([id v'] & -> & Hv). apply elem_of_map_to_list in Hv. simpl in Hc.
    destruct (Ht id v' Hv) as (c' & <- & _ & Hc'). replace c' with c in * by congruence. by rewrite Hv, Hc.
  - destruct (ws_table s !! kc_id c) as [v|] eqn:E; [|done]. destruct (de_credential cx v) eqn:Ec; [|done]. intros [= ->].
    exists v. split; [|done]. apply elem_of_list_fmap. exists (kc_id c, v). split; [done|]. by apply elem_of_map_to_list.
Qed.
Lemma ws_list_total cx s : tidy cx s → ∃ l, ws_list cx s = Some l.
Proof.
  intros Ht. apply mapM_total. intros v Hv. apply elem_of_list_fmap in Hv as ([id v'] & -> & Hv). apply elem_of_map_to_list in Hv.
  destruct (Ht id v' Hv) as (c & _ & _ & Hc). by exists c.
Qed.
Lemma ws_list_ids cx s l : tidy cx s → ws_list cx s = Some l → map kc_id l = (map_to_list (ws_table s)).*1.
Proof.
  intros Ht Hl%mapM_Some. unfold tidy in Ht.
  assert (∀ p, p ∈ map_to_list (ws_table s) → ∃ c, kc_id c = p.1 ∧ de_credential cx p.2 = Some c) as Hp.
  { intros [id v] Hv%elem_of_map_to_list. destruct (Ht id v Hv) as (c & ? & _ & ?). eauto. }
  revert l Hl Hp. generalize (map_to_list (ws_table s)). intros m. induction m as [|p m IH]; intros l Hl Hp.
  - by inversion Hl.
  - simpl in Hl. inversion Hl as [|? c ? l' Hc Hl']; subst. simpl. f_equal.
    + destruct (Hp p (elem_of_list_here _ _)) as (c' & <- & Hc'). congruence.
    + apply IH; [done|]. intros q Hq. apply Hp. by right.
Qed.
Lemma ws_list_nodup cx s l : tidy cx s → ws_list cx s = Some l → NoDup (map kc_id l).
Proof. intros Ht Hl. rewrite (ws_list_ids cx s l Ht Hl). apply NoDup_fst_map_to_list. Qed.

Lemma ws_filter_elem cx eng k l r c : ws_filter cx eng k l = Ok r → c ∈ r ↔ c ∈ l ∧ meets eng k (ser_vc cx (kc_vc c)).
Proof.
  revert r. induction l as [|x l IH]; intros r; simpl.
  - intros [= <-]. split; [by intros ?%elem_of_nil|by intros [?%elem_of_nil _]].
  - destruct (satisfied eng k _) as [b|e|w] eqn:Es; [| |done].
    + destruct (ws_filter cx eng k l) as [r'| |]; try done. intros [= <-]. specialize (IH r' eq_refl).
      pose proof (satisfied_spec eng k _ b Es) as Hb. rewrite elem_of_cons. destruct b.
      * rewrite elem_of_cons, IH. destruct Hb as [Hb _]. split; [intros [->|[? ?]]; auto|]. intros [[->|?] ?]; auto.
      * rewrite IH. split; [intros [? ?]; auto|]. intros [[->|?] Hm]; [|done]. by apply Hb in Hm.
    + unfold satisfied in Es. destruct (cn_fields k) as [fs|]; [|done]. by destruct (fields_satisfied_spec eng fs (ser_vc cx (kc_vc x))) as (_ & H & _); destruct (H e).
Qed.
Lemma ws_filter_total cx eng k l : (∀ c, c ∈ l → ∀ fs f, cn_fields k = Some fs → f ∈ fs → ¬ stuck eng f (ser_vc cx (kc_vc c))) →
  ∃ r, ws_filter cx eng k l = Ok r.
Proof.
  induction l as [|x l IH]; intros H; [by exists []|]. simpl.
  destruct (satisfied_total eng k (ser_vc cx (kc_vc x))) as [b Hb]; [apply H, elem_of_list_here|]. rewrite Hb.
  destruct IH as [r Hr]; [intros c Hc; apply H; by right|]. rewrite Hr. eauto.
Qed.

(** ** Views *)
Lemma first_display_some o : is_Some (first_display o) ↔ displayed o.
Proof.
  unfold first_display, displayed. destruct o as [[|d l]|]; simpl; split; try (intros [? H]; discriminate H); try (intros (? & ? & H); discriminate H); eauto.
Qed.
Lemma show_credential_some c : is_Some (show_credential c) ↔ displayed (kc_display c).
Proof.
  rewrite <-first_display_some. unfold show_credential. destruct (first_display (kc_display c)); simpl; split; intros [? H]; try discriminate H; eauto.
Qed.
Lemma show_configuration_some c : is_Some (show_configuration c) ↔ displayed (cm_display c).
Proof.
  rewrite <-first_display_some. unfold show_configuration. destruct (first_display (cm_display c)); simpl; split; intros [? H]; try discriminate H; eauto.
Qed.
Lemma run_reset_listed cx w l : ws_list cx (w_store w) = Some l →
  run_reset cx w = emit (Wallet (AppState Credentials l no_issuance no_presentation None) (w_store w)).
Proof. intros H. unfold run_reset. by rewrite H. Qed.
Lemma mapM_none {A B} (f : A → option B) l x : x ∈ l → f x = None → mapM f l = None.
Proof.
  intros Hx Hf. destruct (mapM f l) as [k|] eqn:E; [|done]. exfalso. apply mapM_Some in E.
  apply elem_of_list_lookup in Hx as [i Hi]. destruct (Forall2_lookup_l _ _ _ _ _ E Hi) as (y & _ & Hy). congruence.
Qed.

(** ** Details *)
Lemma fold_claims_other k l (m : gmap string string) : k ∉ l.*1 →
  fold_left (λ m (kv : string * json), <[kv.1 := json_text kv.2]> m) l m !! k = m !! k.
Proof.
  revert m. induction l as [|[k' v] l IH]; intros m H; [done|]. simpl in H. apply not_elem_of_cons in H as [H1 H2].
  simpl. rewrite IH by done. by rewrite lookup_insert_ne.
Qed.
Lemma fold_claims k l (m : gmap string string) v : NoDup l.*1 → (k, v) ∈ l →
  fold_left (λ m (kv : string * json), <[kv.1 := json_text kv.2]> m) l m !! k = Some (json_text v).
Proof.
  revert m. induction l as [|[k' v'] l IH]; intros m Hn Hin; [by apply elem_of_nil in Hin|].
  simpl in Hn. apply NoDup_cons in Hn as [Hk Hn]. apply elem_of_cons in Hin as [[= <- <-]|Hin]; simpl.
  - rewrite fold_claims_other by done. by rewrite lookup_insert.
  - by apply IH.
Qed.

(** ** Sessions *)
Lemma session_app cx ks1 ks2 w :
  session cx (ks1 ++ ks2) w =
  let (w1, t1) := session cx ks1 w in let (w2, t2) := session cx ks2 w1 in (w2, t1 ++ t2).
Proof.
  revert w. induction ks1 as [|k r IH]; intros w; simpl.
  - by destruct (session cx ks2 w).
  - destruct (perform cx k w) as [w' es]. rewrite IH. destruct (session cx r w') as [w1 t1]. by destruct (session cx ks2 w1).
Qed.
Lemma session_ind cx (P : wallet → list (command * list effect) → Prop) w0 :
  P w0 [] → (∀ w tr k, P w tr → P (perform cx k w).1 (tr ++ [(k, (perform cx k w).2)])) →
  ∀ ks w tr, session cx ks w0 = (w, tr) → P w tr.
Proof.
  intros H0 Hs ks. induction ks as [|k ks IH] using rev_ind; intros w tr.
  - by intros [= <- <-].
  - rewrite session_app. destruct (session cx ks w0) as [w1 t1] eqn:E. specialize (IH _ _ eq_refl).
    simpl. destruct (perform cx k w1) as [w2 es] eqn:Ep. intros [= <- <-]. specialize (Hs w1 t1 k IH). by rewrite Ep in Hs.
Qed.

Lemma latest_snoc {E A} (f : E → option A) tr e r : f e = Some r → latest f (tr ++ [e]) r.
Proof. intros H. exists tr, e, []. split_and!; [done..|]. by intros e' ?%elem_of_nil. Qed.
Lemma latest_keep {E A} (f : E → option A) tr e r : f e = None → latest f tr r → latest f (tr ++ [e]) r.
Proof.
  intros H (t1 & e0 & t2 & -> & H1 & H2). exists t1, e0, (t2 ++ [e]). split_and!; [by rewrite <-app_assoc|done|].
  intros e' [?|He]%elem_of_app; [by apply H2|]. by apply elem_of_list_singleton in He as ->.
Qed.
Lemma screen_snoc tr e : screen (tr ++ [e]) = last_shown e.2 (screen tr).
Proof. unfold screen. by rewrite fold_left_app. Qed.
Lemma last_shown_calls l es v : last_shown (map Call l ++ es) v = last_shown es v.
Proof. unfold last_shown. rewrite fold_left_app. f_equal. by induction l. Qed.

(** What a command does to the state of the app. *)
Definition issuance_from (r : offer_answer) (pin : option string) : issuance_state :=
  IssuanceState (oa_id r) (oa_issuer r) (oa_offered r) (tx_code_of (oa_grants r)) pin.
Definition presentation_from (r : request_answer) (s : presentation_status) : presentation_state :=
  PresentationState (ra_id r) s (ra_credentials r).
Inductive change (a : app_state) : option offer_answer → option request_answer → app_state → Prop :=
| ch_offer r : change a (Some r) None (set_issuance Issuing (issuance_from r None) a)
| ch_request r : change a None (Some r) (set_presentation Presenting (presentation_from r (ra_status r)) a)
| ch_reset l : change a None None (AppState Credentials l no_issuance no_presentation None)
| ch_keep a' pin s :
    a_sub_app a' = a_sub_app a →
    a_issuance a' = IssuanceState (as_id (a_issuance a)) (as_issuer (a_issuance a)) (as_offered (a_issuance a)) (as_tx_code (a_issuance a)) pin →
    a_presentation a' = PresentationState (ap_id (a_presentation a)) s (ap_credentials (a_presentation a)) →
    change a None None a'.
Lemma change_same a : change a None None a.
Proof. apply (ch_keep a a (as_pin (a_issuance a)) (ap_status (a_presentation a))); [done| |]; by destruct a as [? ? [] [] ?]. Qed.
Lemma offer_none k es : (∀ t r, k ≠ MakeOffer t r) → (∀ p o r, k ≠ OpenLink p o r) → offer_taken (k, es) = None.
Proof. intros H1 H2. unfold offer_taken. destruct (existsb _ _); [|done]. destruct k; try done; [by destruct (H1 text answer)|by destruct (H2 payload offered requested)]. Qed.
Lemma request_none k es : (∀ t r, k ≠ Request t r) → (∀ p o r, k ≠ OpenLink p o r) → request_taken (k, es) = None.
Proof. intros H1 H2. unfold request_taken. destruct (existsb _ _); [|done]. destruct k; try done; [by destruct (H1 text answer)|by destruct (H2 payload offered requested)]. Qed.
Lemma reset_change cx w : change (w_app w) None None (w_app (run_reset cx w).1).
Proof.
  unfold run_reset. destruct (ws_list cx (w_store w)) as [l|]; simpl; [apply ch_reset|].
  eapply (ch_keep _ _ (as_pin (a_issuance (w_app w))) (ap_status (a_presentation (w_app w)))); simpl; [done| |];
    destruct (w_app w) as [? ? [] [] ?]; done.
Qed.
Ltac kept := match goal with |- change ?a None None _ =>
  eapply (ch_keep a _ (as_pin (a_issuance a)) (ap_status (a_presentation a))); destruct a as [? ? [] [] ?]; done end.
Lemma perform_change cx k w :
  change (w_app w) (offer_taken (k, (perform cx k w).2)) (request_taken (k, (perform cx k w).2)) (w_app (perform cx k w).1).
Proof.
  destruct k; cbn [perform].
  - rewrite offer_none, request_none by done. apply change_same.
  - rewrite offer_none, request_none by done. apply reset_change.
  - rewrite offer_none, request_none by done. apply change_same.
  - rewrite offer_none, request_none by done. unfold run_delete, ws_remove.
    destruct (ws_table (w_store w) !! id); [destruct written|]; simpl; kept.
  - rewrite request_none by done. unfold run_offer. destruct (read_offer text); [|apply change_same].
    destruct answer as [r|]; [apply ch_offer|apply change_same].
  - rewrite offer_none, request_none by done. destruct done; apply change_same.
  - rewrite offer_none, request_none by done. destruct done; [|apply change_same]. simpl.
    eapply (ch_keep _ _ (Some pin) (ap_status (a_presentation (w_app w)))); destruct (w_app w) as [? ? [] [] ?]; done.
  - rewrite offer_none, request_none by done. unfold run_credentials. destruct token; [|apply change_same].
    destruct got; [|apply change_same]. destruct (save_all cx saves (w_store w)) as [s b]. destruct (b && told); simpl; [|apply change_same].
    exact (reset_change cx (Wallet (w_app w) s)).
  - rewrite offer_none by done. unfold run_request. destruct answer as [r|]; [apply ch_request|apply change_same].
  - rewrite offer_none, request_none by done. destruct answer as [s|]; [|apply change_same]. simpl.
    eapply (ch_keep _ _ (as_pin (a_issuance (w_app w))) s); destruct (w_app w) as [? ? [] [] ?]; done.
  - rewrite offer_none, request_none by done. destruct done; [apply reset_change|apply change_same].
  - destruct (link_of payload) as [t|t|]; [| |apply change_same].
    + unfold run_offer. destruct (read_offer t); [|apply change_same]. destruct offered as [r|]; [|apply change_same].
      unfold emit. destruct (show _); apply ch_offer.
    + unfold run_request. destruct requested as [r|]; [|apply change_same]. unfold emit. destruct (show _); apply ch_request.
Qed.
Definition issuance_inv (w : wallet) (tr : list (command * list effect)) : Prop :=
  as_id (a_issuance (w_app w)) = "" ∧ a_sub_app (w_app w) ≠ Issuing ∨
  ∃ r pin, latest offer_taken tr r ∧ a_issuance (w_app w) = issuance_from r pin.
Definition presentation_inv (w : wallet) (tr : list (command * list effect)) : Prop :=
  ap_id (a_presentation (w_app w)) = "" ∧ a_sub_app (w_app w) ≠ Presenting ∨
  ∃ r s, latest request_taken tr r ∧ a_presentation (w_app w) = presentation_from r s.
Lemma flows_inv cx st ks w tr : session cx ks (Wallet app_default st) = (w, tr) → issuance_inv w tr ∧ presentation_inv w tr.
Proof.
  apply (session_ind cx (λ w tr, issuance_inv w tr ∧ presentation_inv w tr)); clear.
  { split; by left. }
  intros w tr k [Hi Hp]. pose proof (perform_change cx k w) as Hc. revert Hc. generalize (perform cx k w). intros [w' es]. cbn [fst snd].
  unfold issuance_inv, presentation_inv in *.
  remember (offer_taken (k, es)) as ot eqn:Ho. remember (request_taken (k, es)) as rt eqn:Hq. symmetry in Ho, Hq.
  remember (w_app w') as a' eqn:Ea. intros Hc.
  destruct Hc as [r|r|l|a' pin s Hs His Hps].
  - simpl. split.
    + right. exists r, None. split; [by apply latest_snoc|done].
    + destruct Hp as [[Hp _]|(r' & s & Hl & Hp)]; [by left|]. right. exists r', s. split; [by apply latest_keep|done].
  - simpl. split.
    + destruct Hi as [[Hi _]|(r' & s & Hl & Hi)]; [by left|]. right. exists r', s. split; [by apply latest_keep|done].
    + right. exists r, (ra_status r). split; [by apply latest_snoc|done].
  - simpl. split; by left.
  - rewrite Hs, His, Hps. simpl. split.
    + destruct Hi as [[Hi ?]|(r' & p & Hl & Hi)]; [by left|]. right. exists r', pin. split; [by apply latest_keep|]. by rewrite Hi.
    + destruct Hp as [[Hp ?]|(r' & p & Hl & Hp)]; [by left|]. right. exists r', s. split; [by apply latest_keep|]. by rewrite Hp.
Qed.

(** What is on the screen. *)
Lemma show_set_error e a : show (set_error e a) = show a. Proof. done. Qed.
Lemma last_shown_emit w l v0 v : Panicked ∉ (calls l (emit w)).2 → last_shown (calls l (emit w)).2 v0 = Some v → show (w_app w) = Some v.
Proof.
  cbn [calls snd emit]. intros Hn. rewrite last_shown_calls. destruct (show (w_app w)) as [v'|] eqn:E; [done|].
  destruct Hn. apply elem_of_app. right. apply elem_of_list_here.
Qed.
Lemma last_shown_fails l w v0 : last_shown (calls l (fails w)).2 v0 = v0.
Proof. cbn [calls snd fails]. by rewrite last_shown_calls. Qed.
Lemma last_shown_reset cx w l v0 v : Panicked ∉ (calls l (run_reset cx w)).2 → last_shown (calls l (run_reset cx w)).2 v0 = Some v →
  show (w_app (run_reset cx w).1) = Some v.
Proof.
  unfold run_reset. destruct (ws_list cx (w_store w)) as [k|].
  - exact (last_shown_emit _ l v0 v).
  - cbn [calls snd]. intros Hn. destruct Hn. apply elem_of_app. right. apply elem_of_list_here.
Qed.
Lemma calls_nil r : calls [] r = r. Proof. by destruct r. Qed.
Local Strategy 1000 [read_offer link_of ws_list save_all show show_detail].
Lemma perform_shown cx k w v0 v : (v0 = Some v → show (w_app w) = Some v) → Panicked ∉ (perform cx k w).2 →
  last_shown (perform cx k w).2 v0 = Some v → show (w_app (perform cx k w).1) = Some v.
Proof.
  intros H0. destruct k; cbn [perform]; intros Hn Hl.
  - rewrite <-(calls_nil (emit w)) in Hn, Hl. by apply last_shown_emit in Hl.
  - rewrite <-(calls_nil (run_reset cx w)) in Hn, Hl. by apply last_shown_reset in Hl.
  - simpl in Hl |- *. destruct (List.find _ _) as [c|]; [|auto]. destruct (show_detail c); auto.
  - unfold run_delete in *. destruct (ws_remove id written (w_store w)) as [s [[]|e|e]].
    + rewrite <-(calls_nil (emit _)) in Hn, Hl. by apply last_shown_emit in Hl.
    + rewrite <-(calls_nil (fails _)) in Hl. rewrite last_shown_fails in Hl. auto.
    + simpl in Hn. destruct Hn. apply elem_of_list_here.
  - unfold run_offer in *. destruct (read_offer text); [|auto]. destruct answer; [by apply last_shown_emit in Hl|].
    rewrite last_shown_fails in Hl. auto.
  - destruct done; [by apply last_shown_emit in Hl|]. rewrite last_shown_fails in Hl. auto.
  - destruct done; [by apply last_shown_emit in Hl|]. rewrite last_shown_fails in Hl. auto.
  - unfold run_credentials in *. destruct token; [|rewrite last_shown_fails in Hl; auto].
    destruct got; [|rewrite last_shown_fails in Hl; auto]. destruct (save_all cx saves (w_store w)) as [s b].
    destruct (b && told); [|rewrite last_shown_fails in Hl; auto]. by apply last_shown_reset in Hl.
  - unfold run_request in *. destruct answer; [by apply last_shown_emit in Hl|]. rewrite last_shown_fails in Hl. auto.
  - destruct answer; [by apply last_shown_emit in Hl|]. rewrite last_shown_fails in Hl. auto.
  - destruct done; [by apply last_shown_reset in Hl|]. rewrite last_shown_fails in Hl. auto.
  - destruct (link_of payload) as [t|t|]; [| |auto].
    + unfold run_offer in *. destruct (read_offer t); [|auto]. destruct offered; [by apply last_shown_emit in Hl|].
      rewrite last_shown_fails in Hl. auto.
    + unfold run_request in *. destruct requested; [by apply last_shown_emit in Hl|]. rewrite last_shown_fails in Hl. auto.
Qed.
Lemma screen_is cx st ks w tr v : session cx ks (Wallet app_default st) = (w, tr) →
  (∀ e, e ∈ tr → Panicked ∉ e.2) → screen tr = Some v → show (w_app w) = Some v.
Proof.
  intros H. revert v. revert H. apply (session_ind cx (λ w tr, ∀ v, (∀ e, e ∈ tr → Panicked ∉ e.2) → screen tr = Some v → show (w_app w) = Some v)).
  { done. }
  clear. intros w tr k IH v Hn Hs. rewrite screen_snoc in Hs. simpl in Hs.
  apply (perform_shown cx k w (screen tr) v); [|apply (Hn (k, (perform cx k w).2)); apply elem_of_app; right; apply elem_of_list_here|done].
  apply IH. intros e He. apply Hn. apply elem_of_app. by left.
Qed.

(** Which flow the library is called for. *)
Lemma elem_calls c l es : Call c ∈ map Call l ++ es → c ∈ l ∨ Call c ∈ es.
Proof. rewrite elem_of_app. intros [H|H]; [|by right]. left. apply elem_of_list_fmap in H as (c' & [= <-] & H). done. Qed.
Lemma emit_call w c : Call c ∉ (emit w).2.
Proof. simpl. rewrite elem_of_list_singleton. by destruct (show _). Qed.
Lemma fails_call w c : Call c ∉ (fails w).2.
Proof. simpl. by rewrite elem_of_list_singleton. Qed.
Lemma reset_call cx w c : Call c ∉ (run_reset cx w).2.
Proof. unfold run_reset. destruct (ws_list cx (w_store w)); [apply emit_call|]. simpl. by rewrite elem_of_list_singleton. Qed.
Lemma perform_call cx k w c : Call c ∈ (perform cx k w).2 →
  (∀ id, issuance_called c = Some id → id = as_id (a_issuance (w_app w))) ∧
  (∀ id, presentation_called c = Some id → id = ap_id (a_presentation (w_app w))).
Proof.
  assert (∀ l r, (∀ c, c ∈ l → (∀ id, issuance_called c = Some id → id = as_id (a_issuance (w_app w))) ∧
     (∀ id, presentation_called c = Some id → id = ap_id (a_presentation (w_app w)))) → (Call c ∉ r.2) → Call c ∈ (calls l r).2 →
     (∀ id, issuance_called c = Some id → id = as_id (a_issuance (w_app w))) ∧
     (∀ id, presentation_called c = Some id → id = ap_id (a_presentation (w_app w)))) as Hg.
  { intros l r Hl Hr H. simpl in H. apply elem_calls in H as [H|H]; [by apply Hl|done]. }
  assert (∀ b w1 w2, Call c ∉ (if b : bool then emit w1 else fails w2).2) as Hb.
  { intros [] w1 w2; [apply emit_call|apply fails_call]. }
  destruct k; cbn [perform]; intros H.
  - by apply emit_call in H.
  - by apply reset_call in H.
  - simpl in H. apply elem_of_list_singleton in H. destruct (List.find _ _) as [x|]; [|done]. by destruct (show_detail x).
  - exfalso. revert H. unfold run_delete. destruct (ws_remove id written (w_store w)) as [s [[]|e|e]]; [apply emit_call|apply fails_call|].
    simpl. by rewrite elem_of_list_singleton.
  - revert H. unfold run_offer. destruct (read_offer text); [|by intros ?%fails_call]. apply Hg; [|destruct answer; [apply emit_call|apply fails_call]].
    intros c' ->%elem_of_list_singleton. by split.
  - revert H. apply Hg; [|apply Hb]. intros c' ->%elem_of_list_singleton. split; [by intros ? [= <-]|done].
  - revert H. apply Hg; [|apply Hb]. intros c' ->%elem_of_list_singleton. split; [by intros ? [= <-]|done].
  - revert H. unfold run_credentials. destruct token; [destruct got; [destruct (save_all cx saves (w_store w)) as [s b]|]|].
    + apply Hg; [|destruct (b && told); [apply reset_call|apply fails_call]].
      intros c' Hc. repeat (apply elem_of_cons in Hc as [->|Hc]; [split; [by intros ? [= <-]|done]|]). by apply elem_of_nil in Hc.
    + apply Hg; [|apply fails_call].
      intros c' Hc. repeat (apply elem_of_cons in Hc as [->|Hc]; [split; [by intros ? [= <-]|done]|]). by apply elem_of_nil in Hc.
    + apply Hg; [|apply fails_call].
      intros c' Hc. repeat (apply elem_of_cons in Hc as [->|Hc]; [split; [by intros ? [= <-]|done]|]). by apply elem_of_nil in Hc.
  - revert H. unfold run_request. apply Hg; [|destruct answer; [apply emit_call|apply fails_call]]. intros c' ->%elem_of_list_singleton. by split.
  - revert H. apply Hg; [|destruct answer; [apply emit_call|apply fails_call]]. intros c' ->%elem_of_list_singleton. split; [done|by intros ? [= <-]].
  - revert H. apply Hg; [|destruct done; [apply reset_call|apply fails_call]]. intros c' ->%elem_of_list_singleton. split; [done|by intros ? [= <-]].
  - destruct (link_of payload) as [t|t|]; [| |by apply elem_of_nil in H].
    + revert H. unfold run_offer. destruct (read_offer t); [|by intros ?%fails_call]. apply Hg; [|destruct offered; [apply emit_call|apply fails_call]].
      intros c' ->%elem_of_list_singleton. by split.
    + revert H. unfold run_request. apply Hg; [|destruct requested; [apply emit_call|apply fails_call]]. intros c' ->%elem_of_list_singleton. by split.
Qed.

(** ** Links *)
Lemma strip_prefix_some p s t : strip_prefix p s = Some t ↔ s = p +:+ t.
Proof.
  revert s. induction p as [|a p IH]; intros s; simpl.
  - split; [by intros [= ->]|by intros ->].
  - destruct s as [|b s]; [done|]. case_bool_decide as E.
    + subst b. rewrite IH. split; [by intros ->|by intros [= ->]].
    + split; [done|by intros [= ->]].
Qed.
Lemma append_length a b : String.length (a +:+ b) = String.length a + String.length b.
Proof. induction a as [|x a IH]; [done|]. change (String x a +:+ b) with (String x (a +:+ b)). simpl. by rewrite IH. Qed.
Lemma substring_all a b : substring 0 (String.length a) (a +:+ b) = a.
Proof. induction a as [|x a IH]; [by destruct b|]. change (String x a +:+ b) with (String x (a +:+ b)). simpl. by rewrite IH. Qed.
Lemma payload_link_of l : payload_link (payload_of l) = Some l.
Proof.
  unfold payload_link, payload_of. rewrite !append_length. rewrite bool_decide_true by (simpl; lia). f_equal.
  replace (String.length _ + _ - 4) with (String.length l) by (simpl; lia). simpl. apply substring_all.
Qed.
Lemma link_offer l t : link_of (payload_of l) = OfferOf t ↔ l = offer_prefix +:+ t.
Proof.
  unfold link_of. rewrite payload_link_of. rewrite <-strip_prefix_some. destruct (strip_prefix offer_prefix l) as [t'|].
  - split; [by intros [= ->]|by intros [= ->]].
  - destruct (strip_prefix request_prefix l); done.
Qed.
Lemma link_request l t : link_of (payload_of l) = RequestOf t ↔ l = request_prefix +:+ t.
Proof.
  unfold link_of. rewrite payload_link_of. rewrite <-strip_prefix_some. destruct (strip_prefix offer_prefix l) as [t'|] eqn:E.
  - split; [done|]. intros H. apply strip_prefix_some in E, H. rewrite E in H. done.
  - destruct (strip_prefix request_prefix l); [|done]. split; [by intros [= ->]|by intros [= ->]].
Qed.
Lemma issuer_link_unread o : ∃ t, link_of (payload_of (offer_link offer_prefix o)) = OfferOf t ∧ read_offer t = None.
Proof.
  exists (offer_query o). split; [by apply link_offer|]. destruct (offer_query_starts o) as [t ->].
  unfold read_offer. rewrite UrlFacts.decode_other by done. apply c_unread.
Qed.
