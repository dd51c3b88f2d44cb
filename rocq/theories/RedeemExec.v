(** What one request saves is honoured by the next one. *)
From Verif Require Import Base StringSpec Json CoreModel VcModel Prog ProgFacts ExecSpec ExecFacts IssuerTypes Sha256
  IssuerSpec IssuerModel IssuerFacts IssuerWp IssuerExec AuthorizeSpec IssuerOffer IssuerToken IssuerAuthorize
  IssuerCredential IssuerNonce RedeemSpec IssuerComplete.

(** A value is read back unless somebody has written to its key since. *)
Lemma read_back (c : iconfig) m em n en k v x r :
  ireach c → c_log c !! m = Some em → e_ev em = Put k v x true → c_log c !! n = Some en → e_ev en = Get k r →
  m < n → (∀ a ea, m < a < n → c_log c !! a = Some ea → puts_key k ea = false ∧ purges_key k ea = false) →
  r ≠ None → r = Some v.
Proof.
  intros Hr Hm Hem Hn Hen Hlt Hno Hsome. destruct r as [v'|]; [|done].
  destruct (get_source ihandler ∅ c n en k v' Hr Hn Hen (lookup_empty k)) as (m' & em' & x' & o' & Hlt' & Hm' & Hem' & Heff & Hno').
  destruct (Nat.lt_trichotomy m m') as [H|[->|H]].
  - exfalso. destruct (Hno m' em' ltac:(lia) Hm') as [Hp _]. unfold puts_key in Hp.
    rewrite Hem', bool_decide_true, Heff in Hp; done.
  - rewrite Hm in Hm'. injection Hm' as <-. rewrite Hem in Hem'. injection Hem' as <- _ _. done.
  - exfalso. destruct (Hno' m em ltac:(lia) Hm) as [Hp _]. pose proof (pos_allowed _ _ _ _ _ Hr Hm) as Ha.
    unfold allowed in Ha. rewrite Hem in Ha. unfold puts_key in Hp. rewrite Hem, bool_decide_true, Ha in Hp; done.
Qed.

Lemma assoc_keys {A} k (l : list (string * A)) : k ∈ keys l → is_Some (assoc k l).
Proof.
  unfold assoc. induction l as [|[k' b] l IH]; simpl; [by intros ?%elem_of_nil|]. case_bool_decide as E; [eauto|].
  intros [->|H]%elem_of_cons; [done|]. eauto.
Qed.

Lemma puts_key_true k en : puts_key (S := ISig) k en = true → ∃ v x o, e_ev en = Put k v x o.
Proof.
  unfold puts_key. destruct (e_ev en) as [|k' v x o| |]; try done. intros [H _]%andb_true_iff.
  apply bool_decide_eq_true in H as ->. eauto.
Qed.
Lemma purges_key_true k en : purges_key (S := ISig) k en = true → ∃ o, e_ev en = Purge k o.
Proof.
  unfold purges_key. destruct (e_ev en) as [| |k' o|]; try done. intros [H _]%andb_true_iff.
  apply bool_decide_eq_true in H as ->. eauto.
Qed.

(** A code is saved once, so it is read back as long as it has not been removed. *)
Lemma code_read_back (c : iconfig) i j code v x r es :
  ireach c → fresh (c_log c) → X (VGen GAuthCode code) ∈ calls_of i (c_log c) →
  Put code v x true ∈ calls_of i (c_log c) → calls_of j (c_log c) = Get code r :: es → before (c_log c) i j →
  removed_only_by (c_log c) code j → r ≠ None → r = Some v.
Proof.
  intros Hr Hf Hg Hp Hj Hb Hrm Hsome.
  apply calls_of_elem_pos in Hg as (a & ea & Ha & _ & Hea).
  apply calls_of_elem_pos in Hp as (m & em & Hm & Hmw & Hem).
  destruct (calls_of_pos j (c_log c) [] _ _ Hj) as (n & en & Hn & Hnw & Hen & Hnc).
  eapply (read_back c m em n en); try done.
  { by eapply Hb. }
  intros b eb Hlt Hbl. split.
  - destruct (puts_key code eb) eqn:E; [|done]. exfalso.
    apply puts_key_true in E as (v' & x' & o' & E).
    assert (m = b); [|lia].
    eapply (saved_once c a ea GAuthCode code Hr Hf Ha Hea); eauto. by left.
  - destruct (purges_key code eb) eqn:E; [|done]. exfalso.
    apply purges_key_true in E as (o' & E).
    assert (e_who eb = j) as Hw. { eapply Hrm; [by eapply elem_of_list_lookup_2|done]. }
    assert (e_ev eb ∈ calls_of j (take n (c_log c))) as Hin; [|rewrite Hnc in Hin; by apply elem_of_nil in Hin].
    apply calls_of_elem. exists eb. split; [|done]. apply elem_of_list_lookup. exists b. rewrite lookup_take by lia. done.
Qed.

(** ** Token requests *)

Lemma token_sufficient r st id es o g :
  runs (token r) (Get (presented r) (Some st) :: es) o → (∀ e, e ∈ es → ¬ failed e) →
  (∀ t, X (VNow t) ∈ es → live st t) → tr_client_id r = Some id → tr_authorization_details r = None →
  served r es g id →
  (match tr_grant r with
   | TGPreAuthorizedCode _ tx => g = PreAuthorizedCode ∧ ∃ o, s_stage st = Offered o ∧ off_items o ≠ None ∧ tx = off_tx_code o
   | TGAuthorizationCode _ uri verifier => g = AuthorizationCode ∧
      ∃ a v, s_stage st = StAuthorized a ∧ id = az_client_id a ∧
        uri = az_redirect_uri a ∧ verifier = Some v ∧ code_challenge v = az_code_challenge a
   end) →
  ∃ resp, o = Ok resp.
Proof.
  intros H Hn Hl Hid Hd Hsv Hg. pose proof H as H0.
  eapply token_goes_through; [done|]. clear H.
  assert (∃ b t sv es', es = Purge (presented r) b :: X (VNow t) :: X (VServer (tr_credential_issuer r) None sv) :: es')
    as (b & t & sv & es1 & ->).
  { pose proof H0 as H. unfold token in H. rewrite presented_key in H.
    apply step_get in H as (st' & e1 & [= <- <-] & H). apply step_some in H.
    apply step_purge in H as (b & e2 & -> & H). destruct b; [|nf Hn]. specialize (H eq_refl).
    unfold token_verify in H. apply step_assoc in H. apply step_now in H as (t' & e3 & -> & H).
    apply step_assoc in H. apply step_ensure in H.
    2:{ rewrite (proj2 (is_expired_false _ _)); [done|]. apply Hl. set_solver. }
    apply step_assoc in H. apply step_x in H as (sv & e4 & -> & H). eauto 6. }
  destruct b; [|nf Hn]. destruct sv as [srv|]; [|nf Hn].
  destruct (Hsv srv) as ((gts & Hgt & Hgg) & Han & Hsc); [set_solver|].
  assert (grant_answered code_challenge srv st r) as Hga.
  { exists gts. split; [done|]. destruct (tr_grant r).
    - destruct Hg as (-> & a & v & ? & -> & ? & ? & ?). split; [done|]. exists a, v. done.
    - destruct Hg as (-> & Hg). split; [done|]. split; [|done]. intros [= Heq]; eauto.
      apply Han; [done|]. congruence. }
  assert (∃ cl es', es1 = X (VClient id cl) :: es') as (cl & es' & ->).
  { pose proof H0 as H. unfold token in H. rewrite presented_key in H.
    apply step_get in H as (st' & e1 & [= <- <-] & H). apply step_some in H.
    apply step_purge in H as (b & e2 & [= <- <-] & H). specialize (H eq_refl).
    unfold token_verify in H. apply step_assoc in H. apply step_now in H as (t' & e3 & [= <- <-] & H).
    apply step_assoc in H. apply step_ensure in H.
    2:{ rewrite (proj2 (is_expired_false _ _)); [done|]. apply Hl. set_solver. }
    apply step_assoc in H. apply step_x in H as (? & e4 & [= <- <-] & H). apply step_assoc, step_some in H.
    rewrite Hgt in H. apply step_assoc, step_some in H. apply step_assoc in H.
    destruct Hga as (gts' & Hg' & Hga). rewrite Hgt in Hg'. injection Hg' as <-.
    destruct (tr_grant r) as [code u v|code tx] eqn:Egr.
    - destruct Hga as (Hgt' & a & cv & Hs & Hcl & -> & -> & Hch). rewrite Hs in H. rewrite Hid in Hcl. injection Hcl as ->.
      apply step_assoc in H. apply step_ensure in H; [|by apply bool_decide_eq_true].
      rewrite Hid in H. apply step_assoc, step_some in H.
      apply step_assoc in H. apply step_ensure in H; [|by apply bool_decide_eq_true].
      apply step_assoc in H. apply step_ensure in H; [|by apply bool_decide_eq_true].
      apply step_assoc, step_some in H. apply step_ensure in H; [|by apply bool_decide_eq_true].
      apply step_assoc in H. apply step_x in H as (cl' & e5 & -> & H). eauto.
    - destruct Hga as (Hgt' & Han' & off & Hs & Hit & ->). rewrite Hs in H.
      destruct (off_items off) as [items|] eqn:Eit; [|done].
      apply step_assoc in H. apply step_ensure in H; [|by apply bool_decide_eq_true].
      rewrite Hid in H. apply step_assoc in H. apply step_ensure in H.
      2:{ destruct (str_is_empty id) eqn:Ee; [|done]. apply str_is_empty_true in Ee as ->. simpl.
          rewrite Han'; [done|]. by rewrite Hid. }
      apply step_ensure in H; [|by apply bool_decide_eq_true].
      apply step_assoc in H. apply step_x in H as (cl' & e5 & -> & H). eauto. }
  destruct cl as [cl|]; [|nf Hn].
  exists st, t, srv, id, cl, es'. split; [done|]. split; [apply Hl; set_solver|]. split; [done|]. split; [done|].
  split; [apply Hsc; set_solver|]. split.
  - unfold selection_answered. rewrite Hd. by destruct (tr_grant r).
  - intros e He. apply Hn. by do 4 right.
Qed.

Lemma create_offer_saved ro es resp :
  runs (create_offer ro) es (Ok resp) → requested ro PreAuthorizedCode → ∀ code, X (VGen GAuthCode code) ∈ es →
  ∃ t its, X (VNow t) ∈ es ∧
    Put code (State (co_subject_id ro) (Offered (Offer (Some its) (cor_tx_code resp))) (t + minutes 5)%Z)
      (t + minutes 5)%Z true ∈ es ∧
    Forall2 (λ id it, ai_item it = ItemDetail (AuthorizationDetail (ByConfigurationId id None) None) ∧
      X (VAuthorize (default "" (co_subject_id ro)) id (Some (ai_identifiers it))) ∈ es) (co_configuration_ids ro) its.
Proof.
  intros H Hw code Hc. apply wants_requested in Hw.
  apply create_offer_ok in H as (iss & srv & code' & asrv & es_tx & tx & es_st & es_ref &
    -> & Hv & Has & Htx & Hst & Href). rewrite Hw in Hst. simpl in Hst.
  destruct Hst as (t & items & -> & its & -> & Hf).
  assert (code = code') as ->.
  { rewrite !elem_of_app, !elem_of_cons, !elem_of_nil in Hc.
    destruct Hc as [[?|[?|[[=]|[]]]]|[Hc|[[Hc|[?|[?|[]]]]|Hc]]]; try done.
    - destruct (_ && _); [destruct Htx as (? & _ & ->)|destruct Htx as [_ ->]; by apply elem_of_nil in Hc].
      by apply elem_of_list_singleton in Hc.
    - apply elem_of_list_fmap in Hc as (? & ? & _). done.
    - destruct (co_send_type ro).
      + destruct Href as [-> _]. by apply elem_of_nil in Hc.
      + destruct Href as (tok & t' & -> & _). rewrite !elem_of_cons, elem_of_nil in Hc.
        destruct Hc as [?|[?|[?|[]]]]; done. }
  assert (cor_tx_code resp = tx) as ->.
  { destruct (co_send_type ro); [destruct Href as [_ ->]|destruct Href as (? & ? & _ & ->)]; done. }
  exists t, its. split_and!.
  - rewrite !elem_of_app, !elem_of_cons. tauto.
  - rewrite !elem_of_app, !elem_of_cons. tauto.
  - apply Forall2_same_length_lookup. split; [by eapply Forall2_length|].
    intros n id it Hid Hit. destruct (Forall2_lookup_lr _ _ _ _ _ _ Hf Hid Hit) as [H1 H2]. split; [done|].
    assert (auth_ev (default "" (co_subject_id ro)) it ∈ map (auth_ev (default "" (co_subject_id ro))) its) as Hin.
    { apply elem_of_list_fmap. exists it. split; [done|]. by eapply elem_of_list_lookup_2. }
    unfold auth_ev at 1 in Hin. rewrite H2 in Hin. rewrite !elem_of_app. tauto.
Qed.

Lemma offer_redeemed (c : iconfig) i j ro resp code r id o :
  ireach c → fresh (c_log c) →
  answered c i (QCreateOffer ro) (Ok (RCreateOffer resp)) → requested ro PreAuthorizedCode →
  X (VGen GAuthCode code) ∈ calls_of i (c_log c) →
  answered c j (QToken r) o → before (c_log c) i j → removed_only_by (c_log c) code j →
  tr_grant r = TGPreAuthorizedCode code (cor_tx_code resp) → tr_client_id r = Some id →
  tr_authorization_details r = None →
  (∀ t t', X (VNow t) ∈ calls_of i (c_log c) → X (VNow t') ∈ calls_of j (c_log c) → (t' ≤ t + minutes 5)%Z) →
  (∀ e, e ∈ calls_of j (c_log c) → ¬ failed e) → served r (calls_of j (c_log c)) PreAuthorizedCode id →
  ∃ t, o = Ok (RToken t) ∧
    Forall2 (detail_listed (calls_of i (c_log c)) (default "" (co_subject_id ro)))
      (co_configuration_ids ro) (default [] (trs_authorization_details t)).
Proof.
  intros Hr Hf Hi Hw Hg Hj Hb Hrm Hgr Hid Hd Hclk Hn Hsv.
  apply answered_runs in Hi; [|done]. apply handler_ok in Hi as (resp' & [= <-] & Hi).
  destruct (create_offer_saved _ _ _ Hi Hw _ Hg) as (t & its & Ht & Hp & Hits).
  apply answered_runs in Hj; [|done]. apply handler_outcome in Hj as (o' & Hj & ->).
  pose proof (token_first _ _ _ Hj) as (v & es' & Hes & _).
  assert (presented r = code) as Hpr by (unfold presented; by rewrite Hgr).
  assert (v = Some (State (co_subject_id ro) (Offered (Offer (Some its) (cor_tx_code resp))) (t + minutes 5)%Z)) as ->.
  { rewrite Hpr in Hes. eapply (code_read_back c i j code); try done. intros ->.
    eapply (Hn (Get code None)); [|done]. rewrite Hes. by left. }
  rewrite Hes in Hj, Hn, Hsv, Hclk. set (st := State _ _ _) in *.
  assert (∃ resp', o' = Ok resp') as [tr ->].
  { eapply (token_sufficient r st id es' o' PreAuthorizedCode); try done.
    - intros e He. apply Hn. by right.
    - intros t' Ht'. specialize (Hclk t t' Ht (elem_of_list_further _ _ _ Ht')). unfold live, st. simpl. unfold seconds. lia.
    - intros srv Hs. destruct (Hsv srv) as (H1 & H2 & H3); [by right|]. split; [done|]. split; [done|].
      intros cl Hcl. apply H3. by right.
    - rewrite Hgr. split; [done|]. eexists. split; [reflexivity|]. done. }
  exists tr. split; [done|].
  apply token_ok in Hj as (st' & t1 & srv & gts & id' & cl & items & es_i & tok & nonce & t2 & Hj). cbv zeta in Hj.
  destruct Hj as (Heq & _ & _ & _ & _ & _ & Hti & ->). simpl in Heq. injection Heq as <- _.
  unfold token_items in Hti. rewrite Hgr, Hd in Hti. destruct Hti as (off & its2 & Hoff & Hit2 & _ & ->). cbn in Hoff. injection Hoff as <-. cbn in Hit2. injection Hit2 as <-.
  destruct (authorized_details_listed its) as [Hls _]. cbn [trs_authorization_details]. rewrite Hls.
  clear -Hits. induction Hits as [|cid it ids its [Hit Hau] _ IH]; [constructor|]. simpl. rewrite Hit. simpl.
  constructor; [|done]. eexists. done.
Qed.

Lemma request_object_unique a h0 h0' r r' es :
  request_object_of a h0 r → h0 `prefix_of` es → request_object_of a h0' r' → h0' `prefix_of` es → r = r'.
Proof.
  destruct a as [u|r0]; simpl.
  - intros (st & exp & t & -> & Hs & _) [l1 ->] (st' & exp' & t' & -> & Hs' & _) [l2 Hl]. simpl in Hl.
    injection Hl as <- _ _. congruence.
  - by intros [_ ->] _ [_ ->] _.
Qed.

Lemma authorization_redeemed (c : iconfig) i j a h0 ro resp r v o :
  ireach c → fresh (c_log c) →
  answered c i (QAuthorize a) (Ok (RAuthorize resp)) →
  request_object_of a h0 ro → h0 `prefix_of` calls_of i (c_log c) →
  answered c j (QToken r) o → before (c_log c) i j → removed_only_by (c_log c) (ar_code resp) j →
  tr_grant r = TGAuthorizationCode (ar_code resp) (ro_redirect_uri ro) (Some v) →
  code_challenge v = ro_code_challenge ro → tr_client_id r = Some (ro_client_id ro) →
  tr_authorization_details r = None →
  (∀ t t', X (VNow t) ∈ calls_of i (c_log c) → X (VNow t') ∈ calls_of j (c_log c) → (t' ≤ t + minutes 5)%Z) →
  (∀ e, e ∈ calls_of j (c_log c) → ¬ failed e) → served r (calls_of j (c_log c)) AuthorizationCode (ro_client_id ro) →
  ∃ t iss tok x b, o = Ok (RToken t) ∧ X (VIssuer (ro_credential_issuer ro) (Some iss)) ∈ calls_of i (c_log c) ∧
    Put (trs_access_token t) (State (Some (ro_subject_id ro)) (Validated tok) x) x b ∈ calls_of j (c_log c) ∧
    ∀ id, by_detail iss ro id ∨ (∃ item, by_scope iss ro id item) →
      ∃ ids, X (VAuthorize (ro_subject_id ro) id (Some ids)) ∈ calls_of i (c_log c) ∧
        ∀ y, y ∈ ids → is_Some (assoc y (tk_credentials tok)).
Proof.
  intros Hr Hf Hi Hro Hpre Hj Hb Hrm Hgr Hch Hid Hd Hclk Hn Hsv.
  apply answered_runs in Hi; [|done]. apply handler_ok in Hi as (resp' & [= <-] & Hi).
  apply authorize_records in Hi as (ro' & h0' & h1 & iss & t & items & Hes & Hro' & Ht & Hg & _ & _ & Hput & Hitems & _).
  assert (ro' = ro) as ->.
  { eapply request_object_unique; [exact Hro'| |exact Hro|exact Hpre]. rewrite Hes. by eexists. }
  set (st := State (Some (ro_subject_id ro)) (StAuthorized (Authorization (ro_client_id ro) (ro_redirect_uri ro)
     (ro_code_challenge ro) (ro_code_challenge_method ro) items)) (t + minutes 5)%Z) in *.
  assert (∀ e, e ∈ h1 → e ∈ calls_of i (c_log c)) as Hh1.
  { intros e He. rewrite Hes. apply elem_of_app. right. by right. }
  assert (Put (ar_code resp) st (t + minutes 5)%Z true ∈ calls_of i (c_log c)) as Hp by by apply Hput.
  apply answered_runs in Hj; [|done]. apply handler_outcome in Hj as (o' & Hj & ->).
  pose proof (token_first _ _ _ Hj) as (w & es' & Hesj & _).
  assert (presented r = ar_code resp) as Hpr by (unfold presented; by rewrite Hgr).
  assert (w = Some st) as ->.
  { rewrite Hpr in Hesj. eapply (code_read_back c i j (ar_code resp)); try done; [by apply Hh1|]. intros ->.
    eapply (Hn (Get (ar_code resp) None)); [|done]. rewrite Hesj. by left. }
  rewrite Hesj in Hj, Hn, Hsv, Hclk |- *.
  assert (∃ resp', o' = Ok resp') as [tr ->].
  { eapply (token_sufficient r st _ es' o' AuthorizationCode); try done.
    - intros e He. apply Hn. by right.
    - intros t' Ht'. specialize (Hclk t t' (Hh1 _ Ht) (elem_of_list_further _ _ _ Ht')). unfold live, st. simpl. unfold seconds. lia.
    - intros srv Hs. destruct (Hsv srv) as (H1 & H2 & H3); [by right|]. split; [done|]. split; [done|].
      intros cl Hcl. apply H3. by right.
    - rewrite Hgr. split; [done|]. eexists _, v. split; [reflexivity|]. done. }
  apply token_ok in Hj as (st' & t1 & srv & gts & id' & cl & its & es_i & tok & nonce & t2 & Hj). cbv zeta in Hj.
  destruct Hj as (Heq & _ & _ & _ & _ & _ & Hti & ->). simpl in Heq. pose proof Heq as Heq'. injection Heq as <- _.
  unfold token_items in Hti. rewrite Hgr in Hti. destruct Hti as (az & Haz & -> & _). cbn in Haz. injection Haz as <-.
  cbn [az_items] in *.
  eexists _, iss, _, _, _. split; [done|]. split; [rewrite Hes; apply elem_of_app; right; by left|]. split.
  { rewrite Heq'. cbn [trs_access_token]. do 5 right. apply elem_of_app. right. do 3 right. left. }
  cbn [tk_credentials]. intros id Hby. apply (if_configurations _ _ _ _ Hitems) in Hby.
  apply elem_of_list_fmap in Hby as (it & -> & Hit). exists (ai_identifiers it). split.
  { apply Hh1. by apply (if_identifiers _ _ _ _ Hitems). }
  intros y Hy. destruct (authorized_credentials_table items) as (_ & Hk & _).
  apply assoc_keys. apply Hk. eauto.
Qed.

(** ** Credential requests *)

Lemma proofs_shape st nonce jwts es {B} o (f : string → iprog B) did :
  runs (bind (verify_proofs st nonce jwts did) f) es o → (∀ e, e ∈ es → ¬ failed e) →
  (∀ jwt p, jwt ∈ jwts → X (VDecodeProof jwt (Some p)) ∈ es →
     pj_typ_is_proof p = true ∧ pj_nonce p = Some nonce ∧ ∃ kid, pj_kid p = Some kid) →
  ∃ pe es', es = pe ++ es' ∧ proofs_in_order nonce jwts pe.
Proof.
  revert did es. induction jwts as [|jwt jwts IH]; intros did es H Hn Hp.
  { exists [], es. split; [done|constructor]. }
  cbn [verify_proofs] in H. apply step_assoc in H. apply step_x in H as (d & es' & -> & H).
  cbn [ians imk] in d, Hn, Hp. destruct d as [p|]; [|nf Hn].
  destruct (Hp jwt p) as (Ht & Hno & kid & Hk); [by left|by left|].
  rewrite Ht, Hk, bool_decide_true in H by done. cbn [negb] in H.
  apply IH in H as (pe & es2 & -> & Ho).
  - exists (X (VDecodeProof jwt (Some p)) :: pe), es2. split; [done|]. constructor; [|done]. eauto 8.
  - intros e He. apply Hn. by right.
  - intros jwt' p' Hj Hin. apply (Hp jwt' p'); by right.
Qed.

Lemma credential_sufficient r st tok cid auth es o :
  runs (credential r) (Get (cr_access_token r) (Some st) :: es) o → (∀ e, e ∈ es → ¬ failed e) →
  s_stage st = Validated tok → s_subject_id st ≠ None →
  (∀ t, X (VNow t) ∈ es → live st t ∧ nonce_live tok t) →
  cr_credential r = CIIdentifier cid → assoc cid (tk_credentials tok) = Some auth →
  (∀ iss, X (VIssuer (cr_credential_issuer r) (Some iss)) ∈ es →
     ∃ cfg, assoc (au_configuration_id auth) (is_configurations iss) = Some cfg ∧ issuable iss cfg ∧
       proof_fits cfg (tk_c_nonce tok) (cr_proof r) es) →
  ∃ resp, o = Ok resp.
Proof.
  intros H Hn Hs Hsub Hl Hc Ha Hiss. pose proof H as H0. eapply credential_goes_through; [done|].
  unfold credential in H. apply step_get in H as (? & ? & [= <- <-] & H). apply step_some in H.
  apply step_x in H as (iss & es1 & -> & H). cbn [ians imk] in *. destruct iss as [iss|]; [|nf Hn].
  destruct (Hiss iss) as (cfg & Hcfg & Hi & Hpf); [by left|].
  apply step_some in H. unfold credential_authorized in H. rewrite Hs, Hc in H. apply step_assoc, step_ok in H.
  rewrite Ha in H. apply step_some in H. rewrite Hcfg in H. apply step_some in H.
  unfold credential_verify in H. apply step_assoc in H. apply step_now in H as (t1 & es2 & -> & H).
  destruct (Hl t1) as [Hl1 _]; [set_solver|].
  apply step_assoc in H. apply step_ensure in H; [|by rewrite (proj2 (is_expired_false _ _) Hl1)].
  rewrite Hs in H. apply step_assoc in H. apply step_now in H as (t2 & es3 & -> & H).
  destruct (Hl t2) as [_ Hl2]; [set_solver|].
  apply step_assoc in H. apply step_ensure in H; [|by rewrite (proj2 (c_nonce_expired_false _ _) Hl2)].
  assert (∃ pe es', es3 = pe ++ es' ∧ proof_given cfg (tk_c_nonce tok) (cr_proof r) pe) as (pe & es' & -> & Hpg).
  { unfold proof_given. unfold proof_fits in Hpf. destruct (cc_proof_types cfg) as [types|].
    2:{ exists [], es3. done. }
    destruct Hpf as (Hj & p & Hpr & Hp). rewrite Hpr in H. apply step_assoc in H.
    apply step_ensure in H; [|by apply bool_decide_eq_true].
    apply proofs_shape in H as (pe & es' & -> & Ho).
    - exists pe, es'. split; [done|]. split; [done|]. by exists p.
    - intros e He. apply Hn. by do 3 right.
    - intros jwt pj Hjw Hin. apply (Hp jwt pj); [done|]. by do 3 right. }
  exists st, tok, iss, auth, cfg, [], t1, t2, pe, es'. rewrite Hc. split; [done|].
  split_and!; try done; [by left|]. intros e He. apply Hn. do 3 right. apply elem_of_app. by right.
Qed.

Lemma state_honoured (c : iconfig) i j k st tk x es1 es2 cr cid auth o :
  ireach c → calls_of i (c_log c) = es1 ++ Put k st x true :: es2 →
  (∀ e, e ∈ es2 → touched e ≠ Some k) → s_stage st = Validated tk →
  assoc cid (tk_credentials tk) = Some auth →
  answered c j (QCredential cr) o → before (c_log c) i j →
  cr_access_token cr = k → cr_credential cr = CIIdentifier cid →
  undisturbed (c_log c) k i j →
  (∀ e, e ∈ calls_of j (c_log c) → ¬ failed e) →
  (∀ n, X (VNow n) ∈ calls_of j (c_log c) → live st n ∧ nonce_live tk n) →
  (∀ iss en s cf ids, X (VIssuer (cr_credential_issuer cr) (Some iss)) ∈ calls_of j (c_log c) →
     en ∈ c_log c → e_ev en = X (VAuthorize s cf (Some ids)) → cid ∈ ids →
     ∃ cfg, assoc cf (is_configurations iss) = Some cfg ∧ issuable iss cfg ∧
       proof_fits cfg (tk_c_nonce tk) (cr_proof cr) (calls_of j (c_log c))) →
  ∃ resp, o = Ok (RCredential resp).
Proof.
  intros Hr Hes1 Hes2 Hst Hau Hj Hb Htk Hcr Hu Hn Hclk Hiss.
  destruct (calls_of_pos _ _ _ _ _ Hes1) as (m & em & Hm & Hmw & Hem & Hmc).
  apply answered_runs in Hj; [|done]. apply handler_outcome in Hj as (o' & Hj & ->).
  assert (∃ v es', calls_of j (c_log c) = Get k v :: es') as (v & es' & Hesj).
  { pose proof Hj as H. unfold credential in H. apply step_get in H as (v & es' & -> & _). rewrite Htk. eauto. }
  destruct (calls_of_pos j (c_log c) [] _ _ Hesj) as (n & en & Hnn & Hnw & Hen & Hnc).
  assert (v = Some st) as ->.
  { eapply (read_back c m em n en); try done.
    - by eapply Hb.
    - intros a ea Hlt Hal.
      assert (¬ ∃ e, e_ev ea = e ∧ touched e = Some k) as Hnt.
      { intros (e & He & Hto). destruct (Hu ea) as [Hw|[Hw|[Hw|Hw]]]; [by eapply elem_of_list_lookup_2|congruence|..].
        - assert (e ∈ es2) as Hin; [|by apply Hes2 in Hin].
          rewrite <-(take_drop (S m) (c_log c)), calls_of_app, (take_S_r _ _ _ Hm), calls_of_app, Hmc in Hes1.
          unfold calls_of at 1 in Hes1. simpl in Hes1. rewrite bool_decide_true, Hem in Hes1 by done. simpl in Hes1.
          rewrite <-app_assoc in Hes1. apply app_inv_head in Hes1. simpl in Hes1. injection Hes1 as <-.
          apply calls_of_elem. exists ea. split; [|done]. apply elem_of_list_lookup. exists (a - S m).
          rewrite lookup_drop. replace (S m + (a - S m)) with a by lia. done.
        - assert (e_ev ea ∈ calls_of j (take n (c_log c))) as Hin; [|rewrite Hnc in Hin; by apply elem_of_nil in Hin].
          apply calls_of_elem. exists ea. split; [|done]. apply elem_of_list_lookup. exists a. rewrite lookup_take by lia. done.
        - pose proof (Hw a m ea em Hal Hm eq_refl Hmw). lia.
        - pose proof (Hw n a en ea Hnn Hal Hnw eq_refl). lia. }
      split.
      + destruct (puts_key k ea) eqn:E; [|done]. apply puts_key_true in E as (? & ? & ? & E). destruct Hnt. rewrite E. eauto.
      + destruct (purges_key k ea) eqn:E; [|done]. apply purges_key_true in E as (? & E). destruct Hnt. rewrite E. eauto.
    - intros ->. eapply (Hn (Get k None)); [|done]. rewrite Hesj. by left. }
  pose proof (put_granted c m em k st _ _ Hr Hm Hem) as Hgr. unfold granted in Hgr. rewrite Hst in Hgr.
  destruct (Hgr cid auth (assoc_in _ _ _ Hau)) as (_ & s & cf & m' & em' & ids & Hs & [= <-] & Hlt' & Hm' & Hem' & Hids).
  assert (∃ resp, o' = Ok resp) as [resp ->]; [|eauto].
  rewrite Hesj in Hj, Hn, Hclk, Hiss.
  eapply (credential_sufficient cr st tk cid auth es'); rewrite ?Htk; try done.
  - intros e He. apply Hn. by right.
  - by rewrite Hs.
  - intros n' Hn'. eapply Hclk. by right.
  - intros iss Hi. destruct (Hiss iss em' s (au_configuration_id auth) ids) as (cfg & H1 & H2 & H3).
    + by right.
    + by eapply elem_of_list_lookup_2.
    + done.
    + done.
    + exists cfg. split; [done|]. split; [done|]. unfold proof_fits in *. destruct (cc_proof_types cfg); [|done].
      destruct H3 as (Hj' & p & Hpr & Hp). split; [done|]. exists p. split; [done|]. intros jwt pj Hjw Hin.
      apply (Hp jwt pj); [done|]. by right.
Qed.

Lemma token_honoured (c : iconfig) i j r t cr d cid o :
  ireach c →
  answered c i (QToken r) (Ok (RToken t)) →
  d ∈ default [] (trs_authorization_details t) → cid ∈ atd_identifiers d →
  answered c j (QCredential cr) o → before (c_log c) i j →
  cr_access_token cr = trs_access_token t → cr_credential cr = CIIdentifier cid →
  undisturbed (c_log c) (trs_access_token t) i j →
  (∀ e, e ∈ calls_of j (c_log c) → ¬ failed e) →
  (∀ v x b tok n, Put (trs_access_token t) v x b ∈ calls_of i (c_log c) → s_stage v = Validated tok →
     X (VNow n) ∈ calls_of j (c_log c) → live v n ∧ nonce_live tok n) →
  (∀ iss en s cf ids nonce, X (VIssuer (cr_credential_issuer cr) (Some iss)) ∈ calls_of j (c_log c) →
     trs_c_nonce t = Some nonce →
     en ∈ c_log c → e_ev en = X (VAuthorize s cf (Some ids)) → cid ∈ ids →
     ∃ cfg, assoc cf (is_configurations iss) = Some cfg ∧ issuable iss cfg ∧
       proof_fits cfg nonce (cr_proof cr) (calls_of j (c_log c))) →
  ∃ resp, o = Ok (RCredential resp).
Proof.
  intros Hr Hi Hd Hcid Hj Hb Htk Hcr Hu Hn Hclk Hiss.
  apply answered_runs in Hi; [|done]. apply handler_ok in Hi as (resp' & [= <-] & Hi).
  apply token_ok in Hi as (st0 & t1 & srv & gts & id' & cl & its & es_i & tok & nonce & t2 & Hi). cbv zeta in Hi.
  destruct Hi as (Hes & _ & _ & _ & _ & _ & Hti & ->). cbn [trs_authorization_details trs_access_token trs_c_nonce] in *.
  set (tk := Token tok nonce (t2 + minutes 10)%Z (authorized_credentials its)) in *.
  set (st := State (s_subject_id st0) (Validated tk) (s_expires_at st0)) in *.
  assert (∃ auth, assoc cid (authorized_credentials its) = Some auth) as [auth Hau].
  { destruct (authorized_credentials_table its) as (_ & Hk & _). apply assoc_keys, Hk.
    destruct (authorized_details_listed its) as [Hls _]. rewrite Hls in Hd.
    apply elem_of_list_omap in Hd as (it & Hit & Hd). exists it. split; [done|].
    destruct (ai_item it); [|done]. injection Hd as <-. done. }
  assert (∃ es1, calls_of i (c_log c) = es1 ++ Put tok st (s_expires_at st0) true :: [] ) as [es1 Hes1].
  { rewrite Hes. eexists ([_; _; _; _; _] ++ es_i ++ [_; _; _]). rewrite <- !app_assoc. reflexivity. }
  eapply (state_honoured c i j tok st tk (s_expires_at st0) es1 [] cr cid auth); try done.
  - by intros e ?%elem_of_nil.
  - intros n Hnn. eapply Hclk; [rewrite Hes1; apply elem_of_app; right; by left|done|done].
  - intros iss en s cf ids H1 H2 H3 H4. by eapply Hiss.
Qed.

Lemma nonce_honoured (c : iconfig) i j ri st esi tok oi nonce cr cid o :
  ireach c → fresh (c_log c) → is_token (c_log c) (cr_access_token cr) →
  answered c i (QCredential ri) oi → cr_access_token ri = cr_access_token cr → next_nonce oi nonce →
  calls_of i (c_log c) = Get (cr_access_token ri) (Some st) :: esi → s_stage st = Validated tok →
  cid ∈ keys (tk_credentials tok) →
  answered c j (QCredential cr) o → before (c_log c) i j →
  cr_credential cr = CIIdentifier cid →
  undisturbed (c_log c) (cr_access_token cr) i j →
  (∀ e, e ∈ calls_of j (c_log c) → ¬ failed e) →
  (∀ t t', X (VNow t) ∈ calls_of i (c_log c) → X (VNow t') ∈ calls_of j (c_log c) → (t' ≤ t + minutes 10)%Z) →
  (∀ iss en s cf ids, X (VIssuer (cr_credential_issuer cr) (Some iss)) ∈ calls_of j (c_log c) →
     en ∈ c_log c → e_ev en = X (VAuthorize s cf (Some ids)) → cid ∈ ids →
     ∃ cfg, assoc cf (is_configurations iss) = Some cfg ∧ issuable iss cfg ∧
       proof_fits cfg nonce (cr_proof cr) (calls_of j (c_log c))) →
  ∃ resp, o = Ok (RCredential resp).
Proof.
  intros Hr Hf Htok Hi Heq Hnn Hg Hs Hcid Hj Hb Hcr Hu Hn Hclk Hiss.
  apply answered_runs in Hi as Hri; [|done]. apply handler_outcome in Hri as (oi' & Hri & ->).
  destruct (token_key c i (cr_access_token cr) st Hr Hf Htok) as (tok' & Hs' & Hk); [rewrite <-Heq, Hg; by left|].
  rewrite Hs in Hs'. injection Hs' as <-.
  assert (∃ auth, assoc cid (tk_credentials tok) = Some auth) as [auth Hau] by by apply assoc_keys.
  assert (∃ es1 es2 t1 t2, let tk := Token (tk_access_token tok) nonce (t2 + minutes 10)%Z (tk_credentials tok) in
    calls_of i (c_log c) = es1 ++ Put (cr_access_token cr) (State (s_subject_id st) (Validated tk) (t1 + minutes 15)%Z)
      (t1 + minutes 15)%Z true :: es2 ∧ (∀ e, e ∈ es2 → touched e ≠ Some (cr_access_token cr)) ∧
    X (VNow t1) ∈ calls_of i (c_log c) ∧ X (VNow t2) ∈ calls_of i (c_log c)) as (es1 & es2 & t1 & t2 & Hp & Hq & Ht1 & Ht2).
  { cbv zeta. destruct Hnn as [(resp & Ho & Hno)|(hint & secs & Ho)].
    - destruct oi' as [resp'| |]; [|done..]. injection Ho as ->.
      apply credential_ok in Hri as (st' & tok' & iss & es_o & auth' & cfg & t1 & t2 & es_p & did & subj & ds0 & es_t &
        Hes' & Hs' & _ & _ & _ & _ & _ & _ & Ht).
      assert (st' = st) as ->. { rewrite Hg in Hes'. simpl in Hes'. by injection Hes'. }
      rewrite Hs in Hs'. injection Hs' as <-.
      destruct (ds_pending ds0). { by destruct Ht as (? & ? & _ & ->). }
      destruct Ht as (t0 & es_b & jwt & t3 & nonce' & t4 & nid & t5 & -> & _ & ->). simpl in Hno. injection Hno as ->.
      match type of Hes' with _ = ?a ++ es_o ++ ?b ++ es_p ++ ?d ++ ?e ++ es_b ++ [?f; ?g; ?h; ?p; ?x; ?y; ?z] =>
        exists (a ++ es_o ++ b ++ es_p ++ d ++ e ++ es_b ++ [f; g; h]), [x; y; z], t3, t4;
        assert (calls_of i (c_log c) = (a ++ es_o ++ b ++ es_p ++ d ++ e ++ es_b ++ [f; g; h]) ++ p :: [x; y; z]) as Hes2;
        [rewrite Hes', <- !app_assoc; reflexivity|];
        assert (calls_of i (c_log c) = (a ++ es_o ++ b ++ es_p ++ d ++ e ++ es_b ++ [f; g; h; p]) ++ x :: [y; z]) as Hes3;
        [rewrite Hes', <- !app_assoc; reflexivity|]
      end.
      split; [rewrite Hk in Hes2 |- *; exact Hes2|]. split.
      + assert (nid ≠ cr_access_token cr) as Hne.
        { intros Hnid. destruct (calls_of_pos _ _ _ _ _ Hes3) as (a & ea & Ha & Haw & Hae & Hac).
          assert (Get (cr_access_token ri) (Some st) ∈ calls_of i (take a (c_log c))) as Hin.
          { rewrite Hac. by left. }
          destruct (read_pos _ _ _ _ _ Hr Hin) as (g & m & em & x & b & Hlt & Hm & Hem).
          destruct (key_origin _ _ _ _ _ _ _ Hr Hm Hem) as
            [(? & ? & ? & Hs' & _)|(gk & m' & em' & Hkk & Hlt' & Hm' & Hem' & _)]; [congruence|].
          assert (gk ≠ GTxCode) as Hgk. { rewrite Hs in Hkk. cbn in Hkk. destruct Hkk as [Hkk|Hkk]; by rewrite Hkk. }
          assert (m' = a); [|lia]. eapply (fresh_pos (c_log c) m' a em' ea gk GNotificationId); try done.
          rewrite Hae. by rewrite Hnid, Heq. }
        intros e He. rewrite !elem_of_cons, elem_of_nil in He. destruct He as [->|[->|[->|[]]]]; [done| |done].
        simpl. congruence.
      + split; rewrite Hes2; apply elem_of_app; left; rewrite !elem_of_app, !elem_of_cons; tauto.
    - destruct oi' as [|e|]; [done| |done]. injection Ho as ->.
      apply credential_invalid_proof_saves in Hri as (st' & tok' & es' & t1 & t2 & Hs' & _ & Hes' & _).
      assert (st' = st) as ->. { rewrite Hg in Hes'. by injection Hes'. }
      rewrite Hs in Hs'. injection Hs' as <-.
      match type of Hes' with _ = ?a :: es' ++ [?f; ?g; ?h; ?p] =>
        exists (a :: es' ++ [f; g; h]), [], t1, t2;
        assert (calls_of i (c_log c) = (a :: es' ++ [f; g; h]) ++ p :: []) as Hes2;
        [rewrite Hes'; simpl; rewrite <- !app_assoc; reflexivity|] end.
      split; [rewrite Hk in Hes2 |- *; exact Hes2|]. split; [by intros e ?%elem_of_nil|].
      split; rewrite Hes2; apply elem_of_app; left; rewrite elem_of_cons, !elem_of_app, !elem_of_cons; tauto. }
  eapply (state_honoured c i j (cr_access_token cr) _ _ _ es1 es2 cr cid auth); try done.
  intros n Hn'. pose proof (Hclk _ _ Ht1 Hn') as H1. pose proof (Hclk _ _ Ht2 Hn') as H2.
  unfold live, nonce_live, minutes, seconds, nanos in *. cbn [s_expires_at tk_c_nonce_expires_at]. lia.
Qed.
