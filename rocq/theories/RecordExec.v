(** Every record the wallet saves, in every execution, can be read back. *)
From Coq Require Import Lia.
From Verif Require Import Base StringSpec Json MatcherModel JsonParse JsonText CoreModel VcModel Prog ProgFacts ExecSpec ExecFacts Sha256 IssuerTypes
  SerdeSpec SerdeModel SerdeFacts SerdeTrips SerdeText VcSpec VcSerde VcTrips VerifierModel DifSerde DifSpec DifTrips MetaSerde MetaSpec
  HolderModel HolderSpec HolderFacts HolderExec RecordSerde RecordSpec RecordTrips.

Section exec.
Context (n : nat).
(** What holds of the records saved. *)
Definition fine_issuance (v : issuance) : Prop :=
  readable_offer (hi_offer v) ∧ (∀ l d, hi_accepted v = Some l → d ∈ l → readable_detail (read_back d)) ∧
  claims_within n (details_claims (hi_accepted v)) ∧ readable_token (hi_token v) ∧
  claims_within n (details_claims (token_details (hi_token v))) ∧ NoDup (keys (hi_deferred v)) ∧
  ∀ c, c ∈ hi_credentials v → readable_vc (wc_vc c) ∧ shallow n (vc_values (wc_vc c)).
Definition fine_presentation (p : presentation) : Prop :=
  readable_vp_request (hp_request p) ∧ ∀ c, c ∈ hp_credentials p → readable_vc (wc_vc c) ∧ shallow n (vc_values (wc_vc c)).
Definition fine_record (s : hstate) : Prop :=
  match s with HSIssuance v => fine_issuance v | HSPresentation p => fine_presentation p end.
Definition fine_event (e : hevent) : Prop :=
  readable_answer n e ∧ match e with EGet _ (Some s) => fine_record s | _ => True end.
Definition good (h : hhist) : Prop := ∀ e, e ∈ h → fine_event e.
Definition keeps (h : hhist) (e : hevent) : Prop :=
  good h → match e with EPut _ s _ _ => fine_record s | _ => True end.
Lemma good_app h h' : good (h ++ h') ↔ good h ∧ good h'.
Proof. unfold good. setoid_rewrite elem_of_app. naive_solver. Qed.

Definition good_credential (c : wcredential) : Prop := readable_vc (wc_vc c) ∧ shallow n (vc_values (wc_vc c)).
Lemma take_credential_keeps cfg k h (Q : hhist → outcome string wcredential → Prop) :
  (∀ h' c, (good h' → good_credential c) → Q (h ++ h') (Ok c)) →
  (∀ h' e, Q (h ++ h') (Err e)) → (∀ h' w, Q (h ++ h') (Panic w)) →
  wp keeps Q (take_credential cfg k) h.
Proof.
  intros E1 E2 E3. unfold take_credential. hwp;
    try (rewrite <-?app_assoc; first [apply E2 | apply E3]); try (rewrite <-(app_nil_r h); apply E2).
  all: rewrite <-?app_assoc; apply E1; intros Hg; match goal with a : vc * Z |- _ => destruct a as [v iat] end;
    match type of Hg with context[EVerifyVc ?t _] => apply (Hg (HX (EVerifyVc t (Some (v, iat))))) end; set_solver.
Qed.
Lemma take_credentials_keeps cfg l h (Q : hhist → outcome string (list wcredential) → Prop) :
  (∀ h' cs, (good h' → Forall good_credential cs) → Q (h ++ h') (Ok cs)) →
  (∀ h' e, Q (h ++ h') (Err e)) → (∀ h' w, Q (h ++ h') (Panic w)) →
  wp keeps Q (take_credentials cfg l) h.
Proof.
  revert h Q. induction l as [|k l IH]; intros h Q E1 E2 E3; simpl.
  - apply hwp_ok. rewrite <-(app_nil_r h). apply E1. constructor.
  - apply wp_bind, take_credential_keeps; [|apply E2|apply E3]. intros h1 c Hc. unfold bindQ.
    apply wp_bind, IH; unfold bindQ; [|intros; rewrite <-app_assoc; apply E2|intros; rewrite <-app_assoc; apply E3].
    intros h2 cs Hcs. apply hwp_ok. rewrite <-app_assoc. apply E1. intros [H1 H2]%good_app. constructor; auto.
Qed.
Lemma fine_more i cs : fine_issuance i → Forall good_credential cs → fine_issuance (set_credentials (hi_credentials i ++ cs) i).
Proof.
  intros (H1 & H2 & H3 & H4 & H5 & H6 & H7) Hc. do 6 (split; [done|]). cbn. intros c [Hin|Hin]%elem_of_app; [by apply H7|].
  exact (proj1 (Forall_forall _ _) Hc c Hin).
Qed.
Lemma take_response_keeps cfg_id cfg resp i h (Q : hhist → outcome string issuance → Prop) :
  (∀ h' v, (fine_issuance i → good h' → fine_issuance v) → hi_id v = hi_id i → Q (h ++ h') (Ok v)) →
  (∀ h' e, Q (h ++ h') (Err e)) → (∀ h' w, Q (h ++ h') (Panic w)) →
  wp keeps Q (take_response cfg_id cfg resp i) h.
Proof.
  intros E1 E2 E3. unfold take_response. destruct (wr_response resp) as [k|l|id] eqn:Hr.
  - apply wp_bind, take_credential_keeps; [|apply E2|apply E3]. intros h1 c Hc. unfold bindQ. apply hwp_ok, E1; [|done].
    intros Hi Hg. apply fine_more; [done|]. constructor; [by apply Hc|constructor].
  - apply wp_bind, take_credentials_keeps; [|apply E2|apply E3]. intros h1 cs Hcs. unfold bindQ. apply hwp_ok, E1; [|done].
    intros Hi Hg. apply fine_more; [done|by apply Hcs].
  - apply hwp_ok. rewrite <-(app_nil_r h). apply E1; [|done]. intros (H1 & H2 & H3 & H4 & H5 & H6 & H7) _.
    do 5 (split; [done|]). split; [|done]. cbn. by apply nodup_ainsert'.
Qed.
Lemma keep_nonce_fine q resp i : fine_issuance i → readable_answer n (HX (ECredential q (Some resp))) → fine_issuance (keep_nonce resp i).
Proof.
  intros (H1 & H2 & H3 & (Ha & Hb & Hc) & H5 & H6 & H7) Hr. do 3 (split; [done|]). split; [|done].
  split; [done|]. split; [|done]. cbn. destruct (wr_c_nonce_expires_in resp) as [z|] eqn:E; [|done]. intros z' [= <-].
  by apply Hr.
Qed.
Lemma by_identifiers_keeps r jwt cfg_id cfg ids h v (Q : hhist → outcome string issuance → Prop) :
  (∀ h' v', (fine_issuance v → good h' → fine_issuance v') → Q (h ++ h') (Ok v')) →
  (∀ h' e, Q (h ++ h') (Err e)) → (∀ h' w, Q (h ++ h') (Panic w)) →
  wp keeps Q (by_identifiers r jwt cfg_id cfg ids v) h.
Proof.
  revert h v Q. induction ids as [|id ids IH]; intros h v Q E1 E2 E3; cbn [by_identifiers].
  { apply hwp_ok. rewrite <-(app_nil_r h). by apply E1. }
  destruct (match hc_identifiers r with Some l => contains l id | None => true end); [|by apply IH].
  apply wp_bind, hwp_try, hwp_zcall. cbn [hmk hans]. intros resp. split; [done|].
  unfold bindQ. apply hwp_of_opt; [|intros _; apply E2]. intros resp' ->.
  apply wp_bind, take_response_keeps; unfold bindQ; [|intros; rewrite <-app_assoc; apply E2|intros; rewrite <-app_assoc; apply E3].
  intros h1 v1 Hv1 _. rewrite <-app_assoc. apply IH.
  - intros h' v' Hv'. rewrite <-app_assoc. apply E1. intros Hv [[Hr Hg]%good_app Hg']%good_app. apply Hv'; [|done].
    eapply keep_nonce_fine; [by apply Hv1|]. apply Hr. by left.
  - intros. rewrite <-app_assoc. apply E2.
  - intros. rewrite <-app_assoc. apply E3.
Qed.
Lemma by_details_keeps r jwt l h v (Q : hhist → outcome string issuance → Prop) :
  (∀ h' v', (fine_issuance v → good h' → fine_issuance v') → Q (h ++ h') (Ok v')) →
  (∀ h' e, Q (h ++ h') (Err e)) → (∀ h' w, Q (h ++ h') (Panic w)) →
  wp keeps Q (by_details r jwt l v) h.
Proof.
  revert h v Q. induction l as [|d l IH]; intros h v Q E1 E2 E3; cbn [by_details].
  { apply hwp_ok. rewrite <-(app_nil_r h). by apply E1. }
  apply wp_bind, hwp_of_opt; [|intros _; rewrite <-(app_nil_r h); apply E2]. intros cfg_id _. unfold bindQ.
  apply wp_bind, hwp_of_opt; [|intros _; rewrite <-(app_nil_r h); apply E2]. intros cfg _. unfold bindQ.
  apply wp_bind, by_identifiers_keeps; unfold bindQ; [|apply E2|apply E3].
  intros h1 v1 Hv1. apply IH.
  - intros h' v' Hv'. rewrite <-app_assoc. apply E1. intros Hv [Hg Hg']%good_app. apply Hv'; [by apply Hv1|done].
  - intros. rewrite <-app_assoc. apply E2.
  - intros. rewrite <-app_assoc. apply E3.
Qed.
Lemma credentials_keeps r : wp keeps anyQ (h_credentials r) [].
Proof.
  unfold h_credentials. hwp.
  - match goal with |- wp _ _ _ ?h => set (h0 := h) end.
    assert (good h0 → fine_issuance i) as Hi.
    { intros Hg. apply (Hg (HGet (hc_issuance_id r) (Some (HSIssuance i)))). unfold h0. hhin. }
    clearbody h0. unfold credential_by_format. hwp.
    apply take_response_keeps; [|done|done]. intros h1 v Hv _. unfold bindQ. hwp.
    intros [[Hg _]%good_app Hg']%good_app. apply Hv; auto.
  - match goal with |- wp _ _ _ ?h => set (h0 := h) end.
    assert (good h0 → fine_issuance i) as Hi.
    { intros Hg. apply (Hg (HGet (hc_issuance_id r) (Some (HSIssuance i)))). unfold h0. hhin. }
    clearbody h0. unfold credential_by_identifier. hwp. apply by_details_keeps; [|done|done].
    intros h1 v Hv. unfold bindQ. hwp. intros [Hg Hg']%good_app. apply Hv; auto.
Qed.
Lemma nodup_aremove {A} k (l : list (string * A)) : NoDup (keys l) → NoDup (keys (aremove k l)).
Proof.
  unfold aremove. induction l as [|[k' v] l IH]; [done|]. intros [Hk Hn]%NoDup_cons. simpl.
  destruct (negb _); [|by apply IH]. apply NoDup_cons. split; [|by apply IH]. intros Hin. apply Hk.
  apply elem_of_list_fmap in Hin as ([k1 v1] & -> & Hin). apply elem_of_list_fmap. exists (k1, v1). split; [done|].
  apply elem_of_list_In. apply elem_of_list_In, filter_In in Hin. apply Hin.
Qed.
Lemma deferred_keeps id tx cfg : wp keeps anyQ (h_deferred id tx cfg) [].
Proof.
  unfold h_deferred. hwp.
  match goal with |- wp _ _ _ ?h => set (h0 := h) end.
  assert (good h0 → fine_issuance (set_deferred (aremove tx (hi_deferred i)) i)) as Hi.
  { intros Hg. destruct (Hg (HGet id (Some (HSIssuance i)))) as [_ (H1 & H2 & H3 & H4 & H5 & H6 & H7)]; [unfold h0; hhin|].
    do 5 (split; [done|]). split; [|done]. by apply nodup_aremove. }
  clearbody h0. apply take_response_keeps; [|done|done]. intros h1 v Hv _. unfold bindQ. hwp;
    intros [Hg Hg']%good_app; apply Hv; auto.
Qed.
Lemma map_keeps {A} (m : hprog A) (f : A → hreply) : wp keeps anyQ m [] → wp keeps anyQ (let! x := m in ok (f x)) [].
Proof. intros H. apply wp_bind. eapply wp_mono; [done| |exact H]. intros h' [] _; done. Qed.

Context (c : hconfig) (Hr : hreach c) (Hs : wallet_supplied n c).
Notation past m j := (calls_of j (take m (c_log c))).
Lemma details_claims_elem l d cl : d ∈ l → cl ∈ authorization_claims (ad_credential d) → cl ∈ details_claims (Some l).
Proof. intros. simpl. apply elem_of_list_bind. by exists d. Qed.
Lemma narrow_fine sup a d : (∀ l s, a = Some l → s ∈ l → readable_spec n s) → narrow_scope sup a = Some d →
  (∀ l x, d = Some l → x ∈ l → readable_detail (read_back x)) ∧ claims_within n (details_claims d).
Proof.
  unfold narrow_scope. destruct a as [l|]; [|intros _ [= <-]; split; [done|by intros ? ?%elem_of_nil]].
  intros H. destruct (narrow_specs sup l) as [ds|] eqn:Hn; [|done]. intros [= <-].
  assert (∀ x, x ∈ ds → readable_detail (read_back x) ∧ claims_within n (authorization_claims (ad_credential x))) as Hd.
  { assert (∀ s, s ∈ l → readable_spec n s) as Hl by (intros s; by apply H). clear H. revert ds Hn Hl.
    induction l as [|s l IH]; intros ds; cbn [narrow_specs]; [intros [= <-] _ x ?%elem_of_nil; done|].
    destruct (as_claims s) as [cl|] eqn:Ec.
    - destruct (assoc (as_configuration_id s) sup) as [cfg|]; [|done]. destruct (narrow_specs sup l) as [ds'|]; [|done].
      intros [= <-] Hl x [->|Hx]%elem_of_cons; [|apply (IH ds' eq_refl); [intros s' ?; apply Hl; by right|done]].
      destruct (Hl s ltac:(by left) cl Ec) as [H1 H2]. unfold readable_detail, read_back. cbn [ad_credential].
      destruct (cc_format cfg); cbn; (split; [|intros cl' ->%elem_of_list_singleton; done]); try done.
      all: intros l0 [= <-]; done.
    - destruct (narrow_specs sup l) as [ds'|]; [|done].
      intros [= <-] Hl x [->|Hx]%elem_of_cons; [|apply (IH ds' eq_refl); [intros s' ?; apply Hl; by right|done]].
      split; [done|]. by intros ? ?%elem_of_nil. }
  split; [intros l' x [= <-] Hx; by apply Hd|]. intros cl Hcl. cbn in Hcl. apply elem_of_list_bind in Hcl as (x & Hcl & Hx).
  by apply (Hd x Hx).
Qed.
Lemma saved_fine m : ∀ j k s x b eff, c_log c !! m = Some (Entry j (HPut k s x b) eff) → fine_record s.
Proof.
  induction m as [m IH] using lt_wf_ind. intros j k s x b eff Hm.
  assert (good (past m j)) as Hg.
  { intros e He. split.
    - apply past_made in He as (m' & _ & He). by eapply (proj2 Hs).
    - destruct e as [id [v|]| | |]; try done. apply past_get in He as (m' & j' & x' & b' & Hlt & Hm'); [|done]. by eapply IH. }
  assert (∀ id i, HGet id (Some (HSIssuance i)) ∈ past m j → fine_issuance i) as HI by (intros id i H; apply (Hg _ H)).
  assert (∀ id i, HGet id (Some (HSPresentation i)) ∈ past m j → fine_presentation i) as HP by (intros id i H; apply (Hg _ H)).
  pose proof (say_pos _ Hr _ _ _ _ Hm) as (q & Hq & Hp). pose proof (proj1 Hs _ _ Hq) as Hrq.
  destruct (pos_path _ _ _ _ _ Hr Hm) as (q' & p' & es2 & Hq' & Hpath). cbn [e_who e_ev] in *.
  assert (q' = q) as -> by (apply (asked_inj c j); [by eexists|done]).
  destruct s as [v|p]; destruct Hp as [_ Hp].
  - unfold issuance_put in Hp. destruct q as [cl sb o|id' a|id' p|id'|r|r|id' tx cfg|id'|id'|u|id'|id']; try done; cbn [readable_hrequest] in Hrq.
    + destruct Hp as (md & srv & _ & E1 & E2 & E3 & ->). unfold fine_record, fine_issuance. cbn.
      split_and!; try done; try (by intros ? ?%elem_of_nil); try (by constructor); try (by intros ? ? ?%elem_of_nil).
    + destruct Hp as (i & d & E1 & E2 & E3 & E4 & -> & ->). destruct (HI _ _ E1) as (H1 & H2 & H3 & H4).
      destruct (narrow_fine _ _ _ Hrq E4) as [H5 H6].
      destruct (needs_pin _); (split; [done|]; split; [done|]; split; [done|]; done).
    + destruct Hp as (i & E1 & E2 & -> & ->). by apply (HI _ _ E1).
    + destruct Hp as (i & g & d & tok & E1 & E2 & E3 & -> & ->). destruct (HI _ _ E1) as (H1 & H2 & H3 & H4 & H5 & H6).
      destruct (Hg _ E3) as [[H7 H8] _]. do 3 (split; [done|]). done.
    + destruct Hp as (i & verifier & g & d & tok & E1 & E3 & -> & ->). destruct Hrq as [H1 H2]. destruct (Hg _ E3) as [[H7 H8] _].
      unfold started in E1. destruct (hz_initiator r) as [cl iss scope sb|id'].
      * destruct E1 as (id & md & srv & _ & E1 & E2 & ->). unfold fine_record, fine_issuance. cbn.
        split_and!; try done; try (by intros ? ?%elem_of_nil); by constructor.
      * destruct E1 as (E1 & _). destruct (HI _ _ E1) as (H3 & _ & _ & _ & _ & H6). do 5 (split; [done|]). done.
    + exact (wp_event _ _ _ _ _ _ _ _ (map_keeps _ _ (credentials_keeps r)) Hpath Hg).
    + exact (wp_event _ _ _ _ _ _ _ _ (map_keeps _ _ (deferred_keeps id' tx cfg)) Hpath Hg).
  - unfold presentation_put in Hp. destruct q as [| | | | | | | | |url|id'|]; try done.
    + destruct Hp as (req & creds & flt & _ & E1 & E2 & E3 & ->). split; cbn.
      * destruct E3 as [E3|[jwt E3]]; apply (Hg _ E3).
      * apply (Hg _ E2).
    + destruct Hp as (p1 & E1 & E2 & -> & ->). by apply (HP _ _ E1).
Qed.
End exec.

(** ** Records read back *)
Lemma ser_read_back d : ser_detail (read_back d) = ser_detail d.
Proof. destruct d as [[id [[d|l|l]|]|f] loc]; done. Qed.
Lemma ser_record_read_back cx r : ser_issuance_record cx (record_read_back r) = ser_issuance_record cx r.
Proof.
  unfold ser_issuance_record, record_read_back.
  cbn [ri_id ri_client_id ri_subject_id ri_status ri_offer ri_issuer ri_server ri_accepted ri_pin ri_code_verifier ri_code_challenge
       ri_token ri_scope ri_deferred ri_notification_id ri_credentials].
  replace (null_or (ser_list ser_detail) (option_map (map read_back) (ri_accepted r))) with (null_or (ser_list ser_detail) (ri_accepted r));
    [done|]. destruct (ri_accepted r) as [l|]; [|done]. cbn [option_map null_or]. unfold ser_list. f_equal.
  rewrite map_map. apply map_ext. intros d. by rewrite ser_read_back.
Qed.
Lemma read_back_same r : ¬ accepts_sd_jwt r → record_read_back r = r.
Proof.
  intros H. destruct r as [i c b s o md sv a p cv cc t sc d n l]. unfold record_read_back, accepts_sd_jwt in *.
  cbn [ri_id ri_client_id ri_subject_id ri_status ri_offer ri_issuer ri_server ri_accepted ri_pin ri_code_verifier ri_code_challenge
       ri_token ri_scope ri_deferred ri_notification_id ri_credentials] in *. f_equal.
  destruct a as [la|]; [|done]. cbn. f_equal. assert (∀ d, d ∈ la → read_back d = d) as Hd.
  { intros x Hx. destruct x as [[id [[x|cl|cl]|]|f] loc]; try done. destruct H. exists la. do 3 eexists. done. }
  clear H. induction la as [|x la IH]; [done|]. cbn. f_equal; [apply Hd; by left|]. apply IH. intros y Hy. apply Hd. by right.
Qed.
Lemma read_back_differs r : accepts_sd_jwt r → record_read_back r ≠ r.
Proof.
  intros (l & d & id & cl & Ha & Hd & Hc) H. apply (f_equal ri_accepted) in H. cbn in H. rewrite Ha in H. injection H as H.
  assert (read_back d = d) as E.
  { clear Ha Hc. induction l as [|x l IH]; [by apply elem_of_nil in Hd|]. cbn in H. injection H as H1 H2.
    apply elem_of_cons in Hd as [->|Hd]; [done|by apply IH]. }
  apply (f_equal ad_credential) in E. unfold read_back in E. rewrite Hc in E. cbn in E. congruence.
Qed.
Lemma details_read_back a : details_claims (option_map (map read_back) a) = details_claims a.
Proof.
  destruct a as [l|]; [|done]. cbn. induction l as [|d l IH]; [done|]. cbn. rewrite IH. f_equal.
  by destruct d as [[id [[d|cl|cl]|]|f] loc].
Qed.

Section records.
Context (cx : codecs) (n : nat) (c : hconfig) (Hd : dates_read cx) (Hr : hreach c) (Hs : wallet_supplied n c).
Lemma issuance_saved m j k v x b r : made c m j (HPut k (HSIssuance v) x b) → issuance_of r = v → readable_issuer (ri_issuer r) →
  readable_issuance_record (record_read_back r) ∧ (claims_within n (issuer_claims (ri_issuer r)) → within_issuance n (record_read_back r)).
Proof.
  intros [eff Hm] <- Hi. destruct (saved_fine n c Hr Hs m j k _ x b eff Hm) as (H1 & H2 & H3 & H4 & H5 & H6 & H7).
  cbn [issuance_of hi_offer hi_accepted hi_token hi_deferred hi_credentials] in *.
  assert (∀ kc, kc ∈ ri_credentials r → readable_vc (kc_vc kc) ∧ shallow n (vc_values (kc_vc kc))) as H8.
  { intros kc Hk. apply (H7 (credential_of kc)). apply elem_of_list_fmap. by exists kc. }
  split.
  - split_and!; cbn; try done; [|intros kc Hk; by apply H8]. intros l d Hl Hin. destruct (ri_accepted r) as [la|]; [|done].
    injection Hl as <-. apply elem_of_list_fmap in Hin as (d' & -> & Hin). by apply (H2 la).
  - intros Hw. split_and!; cbn [record_read_back ri_issuer ri_accepted ri_token ri_credentials]; [done| |done|intros kc Hk; by apply H8].
    by rewrite details_read_back.
Qed.
Lemma issuance_text m j k v x b r : n + 7 < depth_limit → made c m j (HPut k (HSIssuance v) x b) → issuance_of r = v →
  readable_issuer (ri_issuer r) → claims_within n (issuer_claims (ri_issuer r)) →
  read (de_issuance_record cx) (write (ser_issuance_record cx) r) = Some (record_read_back r) ∧
  read (de_presentation_record cx) (write (ser_issuance_record cx) r) = None.
Proof.
  intros Hn Hm Hv Hi Hw. destruct (issuance_saved m j k v x b r Hm Hv Hi) as [H1 H2]. specialize (H2 Hw).
  destruct (fine_issuance_record cx n _ H2) as [F1 F2]. unfold read, write. rewrite ser_record_read_back in F1, F2.
  assert (jdepth (ser_issuance_record cx r) < depth_limit) as F3 by lia.
  rewrite JsonText.parse_json_text by done. split.
  - rewrite <-ser_record_read_back. by apply de_issuance_record_ser.
  - apply issuance_not_presentation.
Qed.
Lemma presentation_text m j k v x b r : n + 9 < depth_limit → made c m j (HPut k (HSPresentation v) x b) → presentation_of r = v →
  read (de_presentation_record cx) (write (ser_presentation_record cx) r) = Some r ∧
  read (de_issuance_record cx) (write (ser_presentation_record cx) r) = None.
Proof.
  intros Hn [eff Hm] <-. destruct (saved_fine n c Hr Hs m j k _ x b eff Hm) as [H1 H2]. cbn in H1, H2.
  assert (∀ kc, kc ∈ rp_credentials r → readable_vc (kc_vc kc) ∧ shallow n (vc_values (kc_vc kc))) as H8.
  { intros kc Hk. apply (H2 (credential_of kc)). apply elem_of_list_fmap. by exists kc. }
  destruct (fine_presentation_record cx n r) as [F1 F2]; [apply H1|intros kc Hk; by apply H8|]. unfold read, write.
  assert (jdepth (ser_presentation_record cx r) < depth_limit) as F3 by lia.
  rewrite JsonText.parse_json_text by done. split; [|apply presentation_not_issuance].
  apply de_presentation_record_ser; [done|]. split; [done|]. intros kc Hk. by apply H8.
Qed.
End records.

Lemma issuance_text_same cx n (c : hconfig) m j k v x b r : dates_read cx → hreach c → wallet_supplied n c →
  n + 7 < depth_limit → made c m j (HPut k (HSIssuance v) x b) → issuance_of r = v →
  readable_issuer (ri_issuer r) → claims_within n (issuer_claims (ri_issuer r)) →
  read (de_issuance_record cx) (write (ser_issuance_record cx) r) = Some (record_read_back r) ∧
  write (ser_issuance_record cx) (record_read_back r) = write (ser_issuance_record cx) r ∧
  read (de_presentation_record cx) (write (ser_issuance_record cx) r) = None.
Proof.
  intros Hd Hr Hs Hn Hm Hv Hi Hw. destruct (issuance_text cx n c Hd Hr Hs m j k v x b r Hn Hm Hv Hi Hw) as [H1 H2].
  split; [exact H1|]. split; [|exact H2]. unfold write. by rewrite ser_record_read_back.
Qed.
Lemma issuance_text_iff cx n (c : hconfig) m j k v x b r : dates_read cx → hreach c → wallet_supplied n c →
  n + 7 < depth_limit → made c m j (HPut k (HSIssuance v) x b) → issuance_of r = v →
  readable_issuer (ri_issuer r) → claims_within n (issuer_claims (ri_issuer r)) →
  read (de_issuance_record cx) (write (ser_issuance_record cx) r) = Some r ↔ ¬ accepts_sd_jwt r.
Proof.
  intros Hd Hr Hs Hn Hm Hv Hi Hw. destruct (issuance_text cx n c Hd Hr Hs m j k v x b r Hn Hm Hv Hi Hw) as [-> _]. split.
  - intros [= H] Ha. by apply (read_back_differs r Ha).
  - intros Ha. by rewrite read_back_same.
Qed.
