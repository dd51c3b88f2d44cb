(** What a single wallet call writes, asks for, stores, and when it panics. *)
From Verif Require Import Base Json CoreModel VcModel Prog ProgFacts ExecSpec ExecFacts Sha256 IssuerTypes
  MatcherModel VerifierModel HolderModel HolderSpec HolderFacts.

(** ** A call writes to the store at most once, last, and not when it fails *)
Definition store_call (e : hevent) : bool := match e with EPut _ _ _ _ | EPurge _ _ => true | _ => false end.
Definition calm (h : hhist) : Prop := Forall (λ e, store_call e = false) h.
Definition lateP (h : hhist) (e : hevent) : Prop := store_call e = true → calm h.
Definition unwritten {A} (h : hhist) (o : outcome string A) : Prop :=
  match o with Ok _ => True | _ => Forall (λ e, wrote e = false) h end.

Lemma calm_snoc h e : store_call e = false → calm h → calm (h ++ [e]).
Proof. intros H1 H2. apply Forall_app. split; [done|]. by constructor. Qed.
Lemma calm_unwritten h : calm h → Forall (λ e, wrote e = false) h.
Proof. intros H. eapply Forall_impl; [exact H|]. by intros []. Qed.
Lemma unwritten_snoc h e : calm h → wrote e = false → Forall (λ e, wrote e = false) (h ++ [e]).
Proof. intros H1 H2. apply Forall_app. split; [by apply calm_unwritten|]. by constructor. Qed.
Ltac calm := repeat (apply calm_snoc; [reflexivity|]); assumption.
Ltac cwp1 :=
  first [ hwp1
        | match goal with |- lateP _ (HX _) => discriminate end
        | match goal with |- lateP _ (HGet _ _) => discriminate end ].
Ltac cwp := repeat (cwp1; try done).

Definition silent {A} (m : hprog A) : Prop :=
  ∀ h (Q : hhist → outcome string A → Prop), calm h → (∀ h' o, calm h' → Q h' o) → wp lateP Q m h.
Lemma silent_bind {A B} (m : hprog A) (f : A → hprog B) : silent m → (∀ a, silent (f a)) → silent (bind m f).
Proof.
  intros Hm Hf h Q Hh HQ. apply wp_bind, Hm; [done|]. intros h' o Hh'. unfold bindQ.
  destruct o; [by apply Hf|by apply HQ..].
Qed.
Lemma silent_ok {A} (a : A) : silent (ok a).
Proof. intros h Q Hh HQ. by apply HQ. Qed.
Lemma silent_fail {A} e : silent (@fail HSig string A e).
Proof. intros h Q Hh HQ. by apply HQ. Qed.
Lemma silent_panic {A} w : silent (@panic HSig string A w).
Proof. intros h Q Hh HQ. by apply HQ. Qed.
Lemma silent_lift {A} (o : outcome string A) : silent (lift o).
Proof. intros h Q Hh HQ. by apply HQ. Qed.
Lemma silent_ensure b e : silent (ensure b e).
Proof. destruct b; [apply silent_ok|apply silent_fail]. Qed.
Lemma silent_of_opt {A} (o : option A) e : silent (of_opt o e).
Proof. destruct o; [apply silent_ok|apply silent_fail]. Qed.
Lemma silent_zcall x : silent (zcall x).
Proof. intros h Q Hh HQ. apply hwp_zcall. intros r. split; [discriminate|]. apply HQ. by apply calm_snoc. Qed.
Lemma silent_hget k : silent (hget k).
Proof. intros h Q Hh HQ. apply hwp_get. intros r. split; [discriminate|]. apply HQ. by apply calm_snoc. Qed.
Lemma silent_ztry {A} (m : hprog (option A)) e : silent m → silent (ztry m e).
Proof. intros H. apply silent_bind; [done|]. intros a. apply silent_of_opt. Qed.
Ltac silent := repeat match goal with
  | |- silent (bind _ _) => apply silent_bind; [|intros ?]
  | |- silent (ok _) => apply silent_ok
  | |- silent (fail _) => apply silent_fail
  | |- silent (panic _) => apply silent_panic
  | |- silent (lift _) => apply silent_lift
  | |- silent (ensure _ _) => apply silent_ensure
  | |- silent (of_opt _ _) => apply silent_of_opt
  | |- silent ?m => lazymatch m with zcall ?x => apply (silent_zcall x) end
  | |- silent (hget _) => apply silent_hget
  | |- silent (ztry _ _) => apply silent_ztry
  | |- silent (match ?x with _ => _ end) => destruct x
  end.
Lemma silent_take_credential cfg k : silent (take_credential cfg k).
Proof. unfold take_credential. silent. Qed.
Lemma silent_take_credentials cfg l : silent (take_credentials cfg l).
Proof. induction l; simpl; silent; [apply silent_take_credential|done]. Qed.
Lemma silent_take_response id cfg resp i : silent (take_response id cfg resp i).
Proof. unfold take_response. silent; [apply silent_take_credential|apply silent_take_credentials]. Qed.
Lemma silent_by_identifiers r jwt id cfg ids i : silent (by_identifiers r jwt id cfg ids i).
Proof. revert i. induction ids; intros i; cbn [by_identifiers]; silent; try done. apply silent_take_response. Qed.
Lemma silent_by_details r jwt l i : silent (by_details r jwt l i).
Proof. revert i. induction l; intros i; cbn [by_details]; silent; try done. apply silent_by_identifiers. Qed.
Lemma silent_save_all i l : silent (save_all i l).
Proof. induction l; cbn [save_all]; silent; done. Qed.
Lemma silent_notify i e : silent (notify i e).
Proof. unfold notify. silent. Qed.
Lemma silent_get_issuance id : silent (get_issuance id).
Proof. unfold get_issuance. silent. Qed.
Lemma silent_get_presentation id : silent (get_presentation id).
Proof. unfold get_presentation. silent. Qed.

(** A silent program, then one write, then success. *)
Definition late_ok {A} (m : hprog A) : Prop := ∀ h, calm h → wp lateP unwritten m h.
Lemma late_silent {A} (m : hprog A) : silent m → late_ok m.
Proof.
  intros H h Hh. apply H; [done|]. intros h' o Hh'. destruct o; [done|by apply calm_unwritten..].
Qed.
Lemma late_bind {A B} (m : hprog A) (f : A → hprog B) : silent m → (∀ a, late_ok (f a)) → late_ok (bind m f).
Proof.
  intros Hm Hf h Hh. apply wp_bind, Hm; [done|]. intros h' o Hh'. unfold bindQ.
  destruct o; [by apply Hf|by apply calm_unwritten..].
Qed.
Lemma late_put k v x {B} (b : B) : late_ok (hput k v x ;; ok b).
Proof.
  intros h Hh. apply wp_bind, hwp_put; [by intros r _|done|].
  unfold bindQ. by apply unwritten_snoc.
Qed.
Lemma late_purge k {B} (b : B) : late_ok (hpurge k ;; ok b).
Proof.
  intros h Hh. apply wp_bind, hwp_purge; [by intros r _|done|].
  unfold bindQ. by apply unwritten_snoc.
Qed.
Ltac late := repeat match goal with
  | |- late_ok (put_issuance _ ;; ok _) => apply late_put
  | |- late_ok (put_presentation _ ;; ok _) => apply late_put
  | |- late_ok (hpurge _ ;; ok _) => apply late_purge
  | |- late_ok (bind (match ?x with _ => _ end) _) => destruct x
  | |- late_ok (bind _ _) => apply late_bind; [|intros ?]
  | |- silent (get_issuance _) => apply silent_get_issuance
  | |- silent (get_presentation _) => apply silent_get_presentation
  | |- silent (take_response _ _ _ _) => apply silent_take_response
  | |- silent (by_details _ _ _ _) => apply silent_by_details
  | |- silent (save_all _ _) => apply silent_save_all
  | |- silent (notify _ _) => apply silent_notify
  | |- silent _ => progress silent
  | |- late_ok (ok _) => apply late_silent, silent_ok
  | |- late_ok (ztry _ _) => apply late_silent
  end.
Lemma accept_late id a : late_ok (h_accept id a).
Proof. unfold h_accept. late. Qed.
Lemma pin_late id p : late_ok (h_pin id p).
Proof. unfold h_pin. late. Qed.
Lemma token_late id : late_ok (h_token id).
Proof. unfold h_token. late. Qed.
Lemma authorize_late r : late_ok (h_authorize r).
Proof. unfold h_authorize, start_authorize, make_authorization_request, fetch_issuer. destruct (hz_initiator r); late. Qed.
Lemma credentials_late r : late_ok (h_credentials r).
Proof.
  unfold h_credentials, credential_by_format, credential_by_identifier. late.
Qed.
Lemma deferred_late id tx cfg : late_ok (h_deferred id tx cfg).
Proof. unfold h_deferred. late. Qed.
Lemma save_late id : late_ok (h_save id).
Proof. unfold h_save. late. Qed.
Lemma cancel_late id : late_ok (h_cancel id).
Proof. unfold h_cancel. late. Qed.
Lemma request_late u : late_ok (h_request u).
Proof. unfold h_request. late. Qed.
Lemma consent_late id : late_ok (h_consent id).
Proof. unfold h_consent. late. Qed.
Lemma present_late id : late_ok (h_present id).
Proof. unfold h_present. late. Qed.
Lemma offer_late cl sb o h : calm h → wp lateP (λ _ _, True) (h_offer cl sb o) h.
Proof.
  intros Hh. unfold h_offer, fetch_issuer. cwp. intros _. calm.
Qed.
Lemma handler_late q : wp lateP (λ h o, (∀ cl sb o, q ≠ HOffer cl sb o) → unwritten h o) (hhandler q) [].
Proof.
  assert (∀ A (m : hprog A) (f : A → hreply), late_ok m → wp lateP unwritten (let! x := m in ok (f x)) []) as Hm.
  { intros A m f Hm. apply wp_bind. eapply wp_mono; [done| |apply Hm; constructor].
    intros h' [] Hx; [exact I|exact Hx..]. }
  destruct q; try (eapply wp_mono; [done| |apply Hm];
    [by intros h' o Ho _|first [apply accept_late|apply pin_late|apply token_late|apply authorize_late
    |apply credentials_late|apply deferred_late|apply save_late|apply cancel_late|apply request_late
    |apply consent_late|apply present_late]]).
  apply wp_bind. eapply wp_mono; [done| |apply offer_late; constructor].
  intros h' o' _. unfold bindQ. destruct o'; [apply hwp_ok|..]; intros Hq; by destruct (Hq client_id subject_id o).
Qed.
Lemma failed_unwritten q es o : runs (hhandler q) es o → (∀ cl sb o, q ≠ HOffer cl sb o) → (∀ a, o ≠ Ok a) →
  ∀ e, e ∈ es → wrote e = false.
Proof.
  intros H Hq Ho e. pose proof (wp_runs _ _ _ _ _ _ (handler_late q) H Hq) as Hu. simpl in Hu.
  destruct o as [a| |]; [by destruct (Ho a)|..]; intros He; exact (proj1 (Forall_forall _ _) Hu e He).
Qed.
(** A write is the first and only one of its call. *)
Lemma write_last q p h e h' : path (hhandler q) (h ++ e :: h') p → store_call e = true → calm h.
Proof. intros H. exact (wp_event _ _ _ _ _ _ _ _ (handler_late q) H). Qed.

(** ** What [credentials] asks for and stores *)
Definition issued_tokens (i : issuance) : list (kind vc) := map (λ c, KString (wc_issued c)) (hi_credentials i).
Definition offstage (h : hhist) : Prop := identifiers_asked h = [] ∧ responses h = [].
Lemma identifiers_app h h' : identifiers_asked (h ++ h') = identifiers_asked h ++ identifiers_asked h'.
Proof. apply omap_app. Qed.
Lemma responses_app h h' : responses (h ++ h') = responses h ++ responses h'.
Proof. apply omap_app. Qed.
Lemma offstage_app h h' : offstage h → offstage h' → offstage (h ++ h').
Proof. intros [E1 E2] [E3 E4]. split; [rewrite identifiers_app, E1, E3|rewrite responses_app, E2, E4]; done. Qed.

Lemma take_credential_ok cfg k h (Q : hhist → outcome string wcredential → Prop) :
  (∀ h' c, offstage h' → k = KString (wc_issued c) → Q (h ++ h') (Ok c)) →
  (∀ h' e, Q (h ++ h') (Err e)) → (∀ h' w, cc_display cfg = Some [] → Q (h ++ h') (Panic w)) →
  wp (λ _ _, True) Q (take_credential cfg k) h.
Proof.
  intros E1 E2 E3. unfold take_credential. hwp;
    try (rewrite <-?app_assoc; first [apply E2 | by apply E3]); try (rewrite <-(app_nil_r h); apply E2).
  all: rewrite <-?app_assoc; by apply E1.
Qed.
Lemma take_credentials_ok cfg l h (Q : hhist → outcome string (list wcredential) → Prop) :
  (∀ h' cs, offstage h' → l = map (λ c, KString (wc_issued c)) cs → Q (h ++ h') (Ok cs)) →
  (∀ h' e, Q (h ++ h') (Err e)) → (∀ h' w, cc_display cfg = Some [] → Q (h ++ h') (Panic w)) →
  wp (λ _ _, True) Q (take_credentials cfg l) h.
Proof.
  revert h Q. induction l as [|k l IH]; intros h Q E1 E2 E3; simpl.
  { apply hwp_ok. rewrite <-(app_nil_r h). by apply E1. }
  apply wp_bind, take_credential_ok; unfold bindQ; [|done..]. intros h1 cr Hh1 ->.
  apply wp_bind, IH; unfold bindQ; [|intros; rewrite <-app_assoc; apply E2|intros; rewrite <-app_assoc; by apply E3].
  intros h2 cs Hh2 ->. apply hwp_ok. rewrite <-app_assoc. apply E1; [by apply offstage_app|done].
Qed.
Definition kept (resp : wresponse) (v : issuance) : Prop :=
  match wr_response resp with WRTransactionId tx => is_Some (assoc tx (hi_deferred v)) | _ => True end.
Lemma assoc_ainsert {A} k k' (a : A) l : assoc k (ainsert k' a l) = if bool_decide (k' = k) then Some a else assoc k l.
Proof.
  induction l as [|[k0 b] l IH]; simpl.
  - repeat case_bool_decide; congruence.
  - repeat (case_bool_decide || simpl); subst; try congruence; try done; rewrite ?bool_decide_true, ?bool_decide_false by done; try done; rewrite ?IH; repeat case_bool_decide; try congruence; done.
Qed.
Lemma ainsert_some {A} k k' (a : A) l : is_Some (assoc k l) → is_Some (assoc k (ainsert k' a l)).
Proof. rewrite assoc_ainsert. case_bool_decide; [by eexists|done]. Qed.
(** [v] is [i] after these responses. *)
Definition after_responses (i : issuance) (l : list wresponse) (v : issuance) : Prop :=
  hi_issuer v = hi_issuer i ∧ hi_id v = hi_id i ∧
  issued_tokens v = issued_tokens i ++ concat (map credentials_in l) ∧ Forall (λ r, kept r v) l ∧
  ∀ tx, is_Some (assoc tx (hi_deferred i)) → is_Some (assoc tx (hi_deferred v)).
Lemma after_responses_trans i l v l' w :
  after_responses i l v → after_responses v l' w → after_responses i (l ++ l') w.
Proof.
  intros (E1 & E2 & E3 & E4 & E5) (F1 & F2 & F3 & F4 & F5). split_and!; [congruence..| | |auto].
  - rewrite F3, E3, map_app, concat_app. by rewrite app_assoc.
  - apply Forall_app. split; [|done]. eapply Forall_impl; [exact E4|]. unfold kept. intros r.
    destruct (wr_response r); auto.
Qed.
Lemma after_keep_nonce i l v resp : after_responses i l v → after_responses i l (keep_nonce resp v).
Proof. done. Qed.
Lemma take_response_ok id cfg resp i h (Q : hhist → outcome string issuance → Prop) :
  (∀ h' v, offstage h' → after_responses i [resp] v → Q (h ++ h') (Ok v)) →
  (∀ h' e, Q (h ++ h') (Err e)) → (∀ h' w, cc_display cfg = Some [] → Q (h ++ h') (Panic w)) →
  wp (λ _ _, True) Q (take_response id cfg resp i) h.
Proof.
  intros E1 E2 E3. unfold take_response. destruct (wr_response resp) as [k|l|tx] eqn:Hr.
  - apply wp_bind, take_credential_ok; unfold bindQ; [|done..]. intros h1 cr Hh1 ->. apply hwp_ok, E1; [done|].
    split_and!; try done.
    + unfold issued_tokens, credentials_in. simpl. rewrite Hr, map_app. done.
    + constructor; [|done]. unfold kept. by rewrite Hr.
  - apply wp_bind, take_credentials_ok; unfold bindQ; [|done..]. intros h1 cr Hh1 ->. apply hwp_ok, E1; [done|].
    split_and!; try done.
    + unfold issued_tokens, credentials_in. simpl. rewrite Hr, map_app, app_nil_r. done.
    + constructor; [|done]. unfold kept. by rewrite Hr.
  - apply hwp_ok. rewrite <-(app_nil_r h). apply E1; [done|]. split_and!; try done.
    + unfold issued_tokens, credentials_in. simpl. rewrite Hr. simpl. by rewrite app_nil_r.
    + constructor; [|done]. unfold kept. rewrite Hr. simpl. rewrite assoc_ainsert, bool_decide_true by done. by eexists.
    + intros tx' Htx. by apply ainsert_some.
Qed.
Lemma by_identifiers_ok r jwt id cfg ids i h (Q : hhist → outcome string issuance → Prop) :
  (∀ h' v, identifiers_asked h' = List.filter (λ id, match hc_identifiers r with Some l => contains l id | None => true end) ids →
     after_responses i (responses h') v → Q (h ++ h') (Ok v)) →
  (∀ h' e, Q (h ++ h') (Err e)) → (∀ h' w, cc_display cfg = Some [] → Q (h ++ h') (Panic w)) →
  wp (λ _ _, True) Q (by_identifiers r jwt id cfg ids i) h.
Proof.
  revert i h Q. induction ids as [|x ids IH]; intros i h Q E1 E2 E3; cbn [by_identifiers].
  { apply hwp_ok. rewrite <-(app_nil_r h). apply E1; [done|]. unfold after_responses, issued_tokens. simpl.
    by rewrite app_nil_r. }
  cbn [List.filter] in E1.
  destruct (match hc_identifiers r with Some l => contains l x | None => true end); [|by apply IH].
  apply wp_bind, hwp_try, hwp_zcall. cbn [hmk hans]. intros resp. split; [done|].
  unfold bindQ. apply hwp_of_opt; [|intros _; apply E2]. intros resp' ->.
  apply wp_bind, take_response_ok; unfold bindQ;
    [|intros; rewrite <-app_assoc; apply E2|intros; rewrite <-app_assoc; by apply E3].
  intros h1 v1 [Hi Hr] Hv1. rewrite <-app_assoc. apply IH.
  - intros h' v' Hi' Hv'. rewrite <-app_assoc. apply E1.
    + rewrite !identifiers_app, Hi', Hi. done.
    + rewrite !responses_app, Hr. simpl. change (resp' :: responses h') with ([resp'] ++ responses h').
      eapply after_responses_trans; [|exact Hv']. by apply after_keep_nonce.
  - intros. rewrite <-app_assoc. apply E2.
  - intros. rewrite <-app_assoc. by apply E3.
Qed.
Lemma by_details_ok r jwt l i h (Q : hhist → outcome string issuance → Prop) :
  (∀ h' v, identifiers_asked h' = wanted_identifiers r l → after_responses i (responses h') v → Q (h ++ h') (Ok v)) →
  (∀ h' e, Q (h ++ h') (Err e)) →
  (∀ h' w id cfg, assoc id (is_configurations (hi_issuer i)) = Some cfg → cc_display cfg = Some [] → Q (h ++ h') (Panic w)) →
  wp (λ _ _, True) Q (by_details r jwt l i) h.
Proof.
  revert i h Q. induction l as [|d l IH]; intros i h Q E1 E2 E3; cbn [by_details].
  { apply hwp_ok. rewrite <-(app_nil_r h). apply E1; [done|]. unfold after_responses, issued_tokens. simpl.
    by rewrite app_nil_r. }
  apply wp_bind, hwp_of_opt; [|intros _; rewrite <-(app_nil_r h); apply E2]. intros cfg_id _. unfold bindQ.
  apply wp_bind, hwp_of_opt; [|intros _; rewrite <-(app_nil_r h); apply E2]. intros cfg Hcfg. unfold bindQ.
  apply wp_bind, by_identifiers_ok; unfold bindQ; [|apply E2|intros; by eapply E3].
  intros h1 v1 Hi Hv1. apply IH.
  - intros h' v' Hi' Hv'. rewrite <-app_assoc. apply E1.
    + rewrite identifiers_app, Hi, Hi'. unfold wanted_identifiers. simpl. by rewrite List.filter_app.
    + rewrite responses_app. by eapply after_responses_trans.
  - intros. rewrite <-app_assoc. apply E2.
  - intros h' w id cfg' Ha Hd. rewrite <-app_assoc. destruct Hv1 as [Hiss _]. rewrite Hiss in Ha. by eapply E3.
Qed.
Lemma find_by_scope_assoc sc f l id cfg : find_by_scope sc f l = Some (id, cfg) → (id, cfg) ∈ l.
Proof.
  induction l as [|[k c0] l IH]; simpl; [done|]. destruct (bool_decide _ && _).
  - intros [= -> ->]. by left.
  - intros H. right. by apply IH.
Qed.
Lemma assoc_in {A} k (a : A) l : assoc k l = Some a → (k, a) ∈ l.
Proof.
  induction l as [|[k' b] l IH]; simpl; [done|]. case_bool_decide; intros E.
  - injection E as ->. subst. by left.
  - right. by apply IH.
Qed.
Definition empty_display (i : issuance) : Prop :=
  ∃ id cfg, (id, cfg) ∈ is_configurations (hi_issuer i) ∧ cc_display cfg = Some [].
Definition credentials_post (r : credentials_request) (es : hhist) (o : outcome string credentials_response) : Prop :=
  match o with
  | Ok resp => ∃ i v, HGet (hc_issuance_id r) (Some (HSIssuance i)) ∈ es ∧
      HPut (hi_id i) (HSIssuance v) max_utc true ∈ es ∧ hi_id v = hi_id i ∧
      issued_tokens v = issued_tokens i ++ concat (map credentials_in (responses es)) ∧
      Forall (λ r, kept r v) (responses es) ∧
      (∀ tx, is_Some (assoc tx (hi_deferred i)) → is_Some (assoc tx (hi_deferred v))) ∧
      (hi_scope i = None → ∃ ds, trs_authorization_details (hi_token i) = Some ds ∧
         identifiers_asked es = wanted_identifiers r ds) ∧
      resp = CredentialsResponse (hi_id i) (match hi_deferred v with [] => None | l => Some l end)
  | Err _ => True
  | Panic _ => ∃ i, HGet (hc_issuance_id r) (Some (HSIssuance i)) ∈ es ∧ empty_display i
  end.
Lemma credentials_posts r : wp (λ _ _, True) (credentials_post r) (h_credentials r) [].
Proof.
  unfold h_credentials. hwp; unfold bindQ.
  - unfold credential_by_format. hwp.
    match goal with x : (string * credential_configuration)%type |- _ => destruct x as [id cfg] end.
    match goal with F : find_by_scope _ _ _ = Some _ |- _ => apply find_by_scope_assoc in F as Hfind end.
    apply take_response_ok; unfold bindQ; [|done|].
    + intros h1 v [Hi Hr] (E1 & E2 & E3 & E4 & E5). hwp. exists i, v. split_and!; try done.
      * set_solver.
      * rewrite <-E2. set_solver.
      * rewrite !responses_app, Hr. simpl. rewrite E3. simpl. done.
      * rewrite !responses_app, Hr. simpl. done.
      * congruence.
      * unfold deferred_result. by rewrite E2.
    + intros h1 w Hd. exists i. split; [set_solver|]. exists id, cfg. done.
  - unfold credential_by_identifier. hwp. apply by_details_ok; unfold bindQ; [|done|].
    + intros h1 v Hi (E1 & E2 & E3 & E4 & E5). hwp. exists i, v. split_and!; try done.
      * set_solver.
      * rewrite <-E2. set_solver.
      * rewrite !responses_app. simpl. rewrite E3, app_nil_r. done.
      * rewrite !responses_app. simpl. rewrite app_nil_r. done.
      * intros _. exists a0. split; [done|]. rewrite !identifiers_app. simpl. rewrite app_nil_r. done.
      * unfold deferred_result. by rewrite E2.
    + intros h1 w id cfg Ha Hd. exists i. split; [set_solver|]. exists id, cfg. split; [by apply assoc_in|done].
Qed.
Lemma credentials_stores r es o : runs (h_credentials r) es o → credentials_post r es o.
Proof. intros H. exact (wp_runs _ _ _ _ _ _ (credentials_posts r) H). Qed.

(** ** When a call panics *)
Definition poor_server (s : server) : Prop :=
  sv_response_types_supported s = [] ∨ sv_code_challenge_methods_supported s = Some [].
Definition panic_cause (es : hhist) : Prop :=
  (∃ s, ((∃ k i, HGet k (Some (HSIssuance i)) ∈ es ∧ hi_server i = s) ∨ ∃ iss, HX (EServer iss (Some s)) ∈ es) ∧
     poor_server s) ∨
  ∃ k i, HGet k (Some (HSIssuance i)) ∈ es ∧ empty_display i.
Definition panics {A} (es : hhist) (o : outcome string A) : Prop :=
  match o with Panic _ => panic_cause es | _ => True end.
Lemma panics_bind {A B} (m : hprog A) (f : A → hprog B) h :
  wp (λ _ _, True) panics m h → (∀ h' a, wp (λ _ _, True) panics (f a) (h ++ h')) →
  wp (λ _ _, True) panics (bind m f) h.
Proof.
  intros Hm Hf. apply wp_bind. assert (∀ Φ Q (p : prog HSig (outcome string A)) h,
    wp Φ Q p h → wp Φ (λ h2 o, Q h2 o ∧ ∃ h', h2 = h ++ h') p h) as Hext.
  { intros Φ Q p. induction p as [a|cl k IH]; intros h0 Hp.
    - split; [done|]. exists []. by rewrite app_nil_r.
    - apply hwp_call. intros r. destruct (Hp r) as [E1 E2]. split; [done|].
      eapply wp_mono; [done| |apply IH; exact E2]. intros h2 o [E3 (h' & ->)]. split; [done|].
      exists ([mkev cl r] ++ h'). by rewrite app_assoc. }
  eapply wp_mono; [done| |apply Hext; exact Hm]. intros h2 o [E1 (h' & ->)]. unfold bindQ.
  destruct o; [apply Hf|done|done].
Qed.
Definition calls_only {A} (m : hprog A) : Prop := ∀ h, wp (λ _ _, True) (λ _ o, ∀ w, o ≠ Panic w) m h.
Lemma calls_only_panics {A} (m : hprog A) h : calls_only m → wp (λ _ _, True) panics m h.
Proof. intros Hm. eapply wp_mono; [done| |apply Hm]. intros h' [a|e|w] Hw; [done|done|by destruct (Hw w)]. Qed.
Lemma calls_only_bind {A B} (m : hprog A) (f : A → hprog B) :
  calls_only m → (∀ a, calls_only (f a)) → calls_only (bind m f).
Proof.
  intros Hm Hf h. apply wp_bind. eapply wp_mono; [done| |apply Hm]. intros h' [a|e|w] Hw; unfold bindQ; [apply Hf|done|by destruct (Hw w)].
Qed.
Lemma calls_only_ok {A} (a : A) : calls_only (ok a).
Proof. intros h. by apply hwp_ok. Qed.
Lemma calls_only_fail {A} e : calls_only (@fail HSig string A e).
Proof. intros h. by apply hwp_fail. Qed.
Lemma calls_only_lift {A} (o : outcome string A) : (∀ w, o ≠ Panic w) → calls_only (lift o).
Proof. intros Ho h. by apply hwp_lift. Qed.
Lemma calls_only_ensure b e : calls_only (ensure b e).
Proof. destruct b; [apply calls_only_ok|apply calls_only_fail]. Qed.
Lemma calls_only_of_opt {A} (o : option A) e : calls_only (of_opt o e).
Proof. destruct o; [apply calls_only_ok|apply calls_only_fail]. Qed.
Lemma calls_only_zcall x : calls_only (zcall x).
Proof. intros h. by apply hwp_zcall. Qed.
Lemma calls_only_hget k : calls_only (hget k).
Proof. intros h. by apply hwp_get. Qed.
Lemma calls_only_hput k v x : calls_only (hput k v x).
Proof. intros h. by apply hwp_put. Qed.
Lemma calls_only_hpurge k : calls_only (hpurge k).
Proof. intros h. by apply hwp_purge. Qed.
Lemma calls_only_ztry {A} (m : hprog (option A)) e : calls_only m → calls_only (ztry m e).
Proof. intros H. apply calls_only_bind; [done|]. intros a. apply calls_only_of_opt. Qed.
Ltac conly := repeat match goal with
  | |- calls_only (put_issuance _) => apply calls_only_hput
  | |- calls_only (put_presentation _) => apply calls_only_hput
  | |- calls_only (hput _ _ _) => apply calls_only_hput
  | |- calls_only (hpurge _) => apply calls_only_hpurge
  | |- calls_only (hget _) => apply calls_only_hget
  | |- calls_only (get_issuance _) => unfold get_issuance
  | |- calls_only (get_presentation _) => unfold get_presentation
  | |- calls_only (bind _ _) => apply calls_only_bind; [|intros ?]
  | |- calls_only (ok _) => apply calls_only_ok
  | |- calls_only (fail _) => apply calls_only_fail
  | |- calls_only (ensure _ _) => apply calls_only_ensure
  | |- calls_only (of_opt _ _) => apply calls_only_of_opt
  | |- calls_only (ztry _ _) => apply calls_only_ztry
  | |- calls_only ?m => lazymatch m with zcall ?x => apply (calls_only_zcall x) end
  | |- calls_only (match ?x with _ => _ end) => destruct x
  end.
Lemma save_all_only i l : calls_only (save_all i l).
Proof. induction l; cbn [save_all]; conly; done. Qed.
Lemma create_vp_no_panic u h d l w : create_vp u h d l ≠ Panic w.
Proof.
  unfold create_vp, vpb_build. destruct (Nat.ltb _ _); [done|]. by destruct (vp_type _).
Qed.
Lemma authorize_panics r : wp (λ _ _, True) panics (h_authorize r) [].
Proof.
  unfold h_authorize, start_authorize, make_authorization_request, fetch_issuer.
  destruct (hz_initiator r) eqn:Hi; hwp; left.
  all: match goal with |- ∃ s, _ ∧ poor_server s => idtac end.
  all: first [ eexists; split; [left; do 2 eexists; split; [|reflexivity]; hhin|]
             | eexists; split; [right; eexists; hhin|] ].
  all: unfold poor_server; simpl in *; auto.
  all: right; congruence.
Qed.
Lemma deferred_panics id tx cfg : wp (λ _ _, True) panics (h_deferred id tx cfg) [].
Proof.
  unfold h_deferred. hwp.
  match goal with F : assoc _ _ = Some _ |- _ => apply assoc_in in F as Hin end.
  apply take_response_ok; unfold bindQ; [|done|].
  - intros h1 v _ _. apply wp_bind. destruct (hi_deferred v), (hi_credentials v); hwp.
  - intros h1 w Hd. right. exists id, i. split; [set_solver|]. by do 2 eexists.
Qed.
Lemma handler_panics q es w : runs (hhandler q) es (Panic w) → panic_cause es.
Proof.
  assert (∀ A (m : hprog A) (f : A → hreply), wp (λ _ _, True) panics m [] →
    runs (let! x := m in ok (f x)) es (Panic w) → panic_cause es) as Hm.
  { intros A m f Hm Hrun. apply runs_bind in Hrun as [(es1 & es2 & a & -> & _ & H)|[(e & H & ?)|(w' & H & _)]]; [|done|].
    - apply runs_ret in H as [_ H]. done.
    - exact (wp_runs _ _ _ _ _ _ Hm H). }
  destruct q; apply Hm.
  - apply calls_only_panics. unfold h_offer, fetch_issuer. conly.
  - apply calls_only_panics. unfold h_accept. conly.
  - apply calls_only_panics. unfold h_pin. conly.
  - apply calls_only_panics. unfold h_token. conly.
  - apply authorize_panics.
  - eapply wp_mono; [done| |apply credentials_posts]. intros h' [| |]; simpl; try done.
    intros (i & E1 & E2). right. by do 2 eexists.
  - apply deferred_panics.
  - apply calls_only_panics. unfold h_save, notify. conly. apply save_all_only.
  - apply calls_only_panics. unfold h_cancel, notify. conly.
  - apply calls_only_panics. unfold h_request. conly.
  - apply calls_only_panics. unfold h_consent. conly.
  - apply calls_only_panics. unfold h_present. conly. apply calls_only_lift. intros ?. apply create_vp_no_panic.
Qed.

(** ** What [save] stores *)
Lemma stored_app h h' : stored_credentials (h ++ h') = stored_credentials h ++ stored_credentials h'.
Proof. apply omap_app. Qed.
Definition purged (k : string) (h : hhist) : Prop := HPurge k true ∈ h.
Lemma save_all_stores i l h (Q : hhist → outcome string unit → Prop) :
  (∀ h', stored_credentials h' = l → calm h' → Q (h ++ h') (Ok tt)) →
  (∀ h' e, stored_credentials h' `prefix_of` l → calm h' → Q (h ++ h') (Err e)) →
  wp (λ _ _, True) Q (save_all i l) h.
Proof.
  revert h Q. induction l as [|x l IH]; intros h Q E1 E2; cbn [save_all].
  { apply hwp_ok. rewrite <-(app_nil_r h). apply E1; [done|constructor]. }
  hwp; cbn [hans] in *.
  - subst r. apply IH.
    + intros h' Hs Hc. rewrite <-app_assoc. apply E1; [simpl; by rewrite Hs|by constructor].
    + intros h' e Hs Hc. rewrite <-app_assoc. apply E2; [by apply prefix_cons|by constructor].
  - subst r. rewrite <-app_assoc. apply E2; [apply prefix_nil|by repeat constructor].
  - subst r. apply E2; [apply prefix_nil|by repeat constructor].
Qed.
Lemma calm_not_purge k b h : calm h → HPurge k b ∉ h.
Proof. intros Hc Hin. by apply (proj1 (Forall_forall _ _) Hc) in Hin. Qed.
Lemma notify_stores i e h (Q : hhist → outcome string unit → Prop) :
  (∀ h', stored_credentials h' = [] → calm h' → Q (h ++ h') (Ok tt)) →
  (∀ h' e, stored_credentials h' = [] → calm h' → Q (h ++ h') (Err e)) →
  wp (λ _ _, True) Q (notify i e) h.
Proof.
  intros E1 E2. unfold notify. hwp.
  - apply E1; [done|by repeat constructor].
  - apply E2; [done|by repeat constructor].
  - rewrite <-(app_nil_r h). apply E1; [done|constructor].
Qed.
Definition save_post (id : string) (es : hhist) (o : outcome string string) : Prop :=
  match o with
  | Ok _ => ∃ i, HGet id (Some (HSIssuance i)) ∈ es ∧ stored_credentials es = hi_credentials i ∧
      (HPurge id true ∈ es ↔ hi_deferred i = [])
  | _ => HPurge id true ∉ es ∧ (stored_credentials es = [] ∨
           ∃ i, HGet id (Some (HSIssuance i)) ∈ es ∧ stored_credentials es `prefix_of` hi_credentials i)
  end.
Ltac calmapp := unfold calm in *; repeat first [assumption | apply Forall_app; split | constructor; [reflexivity|] | constructor].
Lemma save_posts id : wp (λ _ _, True) (save_post id) (h_save id) [].
Proof.
  unfold h_save. hwp.
  - apply save_all_stores; unfold bindQ.
    + intros h1 Hs Hc. apply wp_bind, notify_stores; unfold bindQ.
      * intros h2 Hs2 Hc2. hwp.
        -- exists i. split; [set_solver|]. split.
           ++ rewrite !stored_app, Hs, Hs2. simpl. by rewrite !app_nil_r.
           ++ split; [done|]. intros _. set_solver.
        -- split.
           ++ rewrite not_elem_of_app. split; [apply calm_not_purge; calmapp|]. by intros ?%elem_of_list_singleton.
           ++ right. exists i. split; [set_solver|]. rewrite !stored_app, Hs, Hs2. simpl. by rewrite !app_nil_r.
        -- exists i. split; [set_solver|]. split.
           ++ rewrite !stored_app, Hs, Hs2. simpl. by rewrite !app_nil_r.
           ++ split; [|congruence]. intros Hin. exfalso. revert Hin. apply calm_not_purge; calmapp.
      * intros h2 e Hs2 Hc2. split.
        -- apply calm_not_purge; calmapp.
        -- right. exists i. split; [set_solver|]. rewrite !stored_app, Hs, Hs2. simpl. by rewrite app_nil_r.
    + intros h1 e Hs Hc. split.
      * apply calm_not_purge; calmapp.
      * right. exists i. split; [set_solver|]. by rewrite !stored_app.
  - split; [set_solver|]. by left.
Qed.
Lemma save_stores id es o : runs (h_save id) es o → save_post id es o.
Proof. intros H. exact (wp_runs _ _ _ _ _ _ (save_posts id) H). Qed.

(** ** Status strings *)
Lemma str_drop_split n s r : str_drop n s = Some r ↔ ∃ a, s = a +:+ r ∧ String.length a = n.
Proof.
  revert s. induction n as [|n IH]; intros s; simpl.
  - split; [intros [= ->]; by exists ""|]. intros ([] & -> & ?); done.
  - destruct s as [|x s].
    + split; [done|]. intros ([] & ? & ?); done.
    + rewrite IH. split.
      * intros (a & -> & <-). by exists (String x a).
      * intros ([|y a] & E1 & E2); [done|]. injection E1 as -> ->. injection E2 as <-. by exists a.
Qed.
Lemma str_from_some n s r : str_from n s = Some r → ∃ a, s = a +:+ r ∧ String.length a = n ∧
  match r with EmptyString => True | String c _ => continuation c = false end.
Proof.
  unfold str_from. destruct (str_drop n s) as [[|c r']|] eqn:Hd; [| |done].
  - intros [= <-]. apply str_drop_split in Hd as (a & ? & ?). by exists a.
  - destruct (continuation c) eqn:Hc; [done|]. intros [= <-]. apply str_drop_split in Hd as (a & ? & ?). by exists a.
Qed.
Lemma continuation_bits c : continuation c = true ↔ ∃ b0 b1 b2 b3 b4 b5, c = Ascii.Ascii b0 b1 b2 b3 b4 b5 false true.
Proof.
  destruct c as [b0 b1 b2 b3 b4 b5 b6 b7]. split.
  - intros H. exists b0, b1, b2, b3, b4, b5. destruct b6, b7; [| |done|]; exfalso; revert H;
      destruct b0, b1, b2, b3, b4, b5; vm_compute; discriminate.
  - intros (c0 & c1 & c2 & c3 & c4 & c5 & [= -> -> -> -> -> -> -> ->]). destruct c0, c1, c2, c3, c4, c5; vm_compute; reflexivity.
Qed.
Lemma starts_character b : (∀ b0 b1 b2 b3 b4 b5 r, b ≠ String (Ascii.Ascii b0 b1 b2 b3 b4 b5 false true) r) ↔
  match b with EmptyString => True | String c _ => continuation c = false end.
Proof.
  destruct b as [|c r]; [done|]. split.
  - intros H. destruct (continuation c) eqn:E; [|done]. apply continuation_bits in E as (b0 & b1 & b2 & b3 & b4 & b5 & ->). by destruct (H b0 b1 b2 b3 b4 b5 r).
  - intros H b0 b1 b2 b3 b4 b5 r' [= -> ->]. assert (continuation (Ascii.Ascii b0 b1 b2 b3 b4 b5 false true) = true) as Hc.
    { apply continuation_bits. by exists b0, b1, b2, b3, b4, b5. }
    congruence.
Qed.
Lemma str_from_boundary n s : (∃ r, str_from n s = Some r) ↔ boundary n s.
Proof.
  unfold boundary. split.
  - intros [r Hr]. apply str_from_some in Hr as (a & E1 & E2 & E3). exists a, r. by rewrite starts_character.
  - intros (a & b & E1 & E2 & E3). apply starts_character in E3. exists b. unfold str_from.
    assert (str_drop n s = Some b) as -> by (apply str_drop_split; by exists a).
    destruct b; [done|]. by rewrite E3.
Qed.
Lemma starts_with_app p s : starts_with p (p +:+ s) = true.
Proof. induction p as [|a p IH]; simpl; [done|]. by rewrite Ascii.eqb_refl. Qed.
Lemma status_round_trip s : (∀ e, s = PFailed e → boundary 0 e) → status_parse (status_display s) = Ok s.
Proof.
  intros Hb. destruct s as [| | |e]; [vm_compute; done..|]. unfold status_parse, status_display.
  assert (starts_with "Failed" ("Failed: " +:+ e) = true) as -> by (exact (starts_with_app "Failed" (": " +:+ e))).
  assert (str_from 8 ("Failed: " +:+ e) = Some e) as ->; [|done].
  destruct (Hb e eq_refl) as ([|] & b & E1 & E2 & E3); [|done]. apply starts_character in E3. change ("" +:+ b) with b in E1. subst b.
  unfold str_from. assert (str_drop 8 ("Failed: " +:+ e) = Some e) as ->.
  { apply str_drop_split. by exists "Failed: ". }
  destruct e; [done|]. by rewrite E3.
Qed.
Lemma status_parse_panics s : (∃ w, status_parse s = Panic w) ↔ starts_with "Failed" s = true ∧ ¬ boundary 8 s.
Proof.
  unfold status_parse. destruct (starts_with "Failed" s).
  - destruct (str_from 8 s) as [r|] eqn:Hs.
    + split; [by intros [w ?]|]. intros [_ []]. apply str_from_boundary. eauto.
    + split; [|by eexists]. intros _. split; [done|]. intros [r Hr]%str_from_boundary. congruence.
  - split; [|by intros [? _]]. intros [w Hw]. repeat (destruct (bool_decide _); [done|]). done.
Qed.
Lemma status_parse_ok s st : status_parse s = Ok st →
  match st with
  | PFailed e => ∃ a, s = a +:+ e ∧ String.length a = 8 ∧ starts_with "Failed" s = true
  | _ => s = status_display st
  end.
Proof.
  unfold status_parse. destruct (starts_with "Failed" s) eqn:Hp.
  - destruct (str_from 8 s) as [r|] eqn:Hs; [|done]. intros [= <-].
    apply str_from_some in Hs as (a & E1 & E2 & _). exists a. done.
  - repeat (case_bool_decide; [intros [= <-]; done|]). done.
Qed.
