(** C157: the example wallet and the library: what is sent is what the user saw and agreed to. *)
From Verif Require Import Base Json CoreModel VcModel Prog ProgFacts ExecSpec ExecFacts Sha256 IssuerTypes MetaSerde MatcherModel VerifierModel
  HolderModel HolderSpec HolderFacts HolderExec HolderProps HolderSerial StringSpec RecordSerde WalletModel WalletSpec WalletFacts DriveSpec DriveFacts.
From Verif Require Import DriveExample.
From Verif Require P_App HolderExample SerdeExample.

(** C157.  A presentation is sent to a verifier only by a [Present] of the user that follows an [Authorize] of the user; no
    other request was taken up after the one that was on the screen then; it goes where that request wants it, with its nonce,
    and has exactly the credentials of that request: those on the screen when the user authorized. *)
Theorem C157_presented_as_shown cx st ks w tr (c : hconfig) n i uri rr x :
  session cx ks (Wallet app_default st) = (w, tr) → hreach c → drives tr c →
  hfresh (c_log c) → (∀ m j, ¬ made c m j (HX (EUuid ""))) →
  made c n i (HX (EPresent uri rr x)) →
  ∃ t0 e0 t1 a esA t2 p esP t3 r url req m0 j0,
    tr = t0 ++ e0 :: t1 ++ (Authorize a, esA) :: t2 ++ (Present p, esP) :: t3 ∧
    request_taken e0 = Some r ∧ (∀ e, e ∈ t1 ++ t2 → request_taken e = None) ∧
    Call (LRequest url) ∈ e0.2 ∧ Call (LAuthorize (ra_id r)) ∈ esA ∧ Call (LPresent (ra_id r)) ∈ esP ∧
    asked c j0 (HRequest url) ∧
    (made c m0 j0 (HX (EParseRequest url (Some req))) ∨ ∃ jwt, made c m0 j0 (HX (EDecodeRequest jwt (Some req)))) ∧
    match vo_response_uri req with
    | Some u => ∃ u', uri = Some u' ∧ without_trailing "/" u u'
    | None => uri = None
    end ∧
    (∃ m jwt claims, m < n ∧ made c m i (HX (ESignVp claims (Some jwt))) ∧ rq_vp_token rr = Some [KString jwt] ∧
       vpc_aud claims = vo_client_id req ∧ vpc_nonce claims = vo_nonce req ∧
       default [] (vp_credential (vpc_vp claims)) = map (λ k, KString (kc_issued k)) (ra_credentials r)) ∧
    (∀ v pv, (∀ e, e ∈ t0 ++ e0 :: t1 → Panicked ∉ e.2) → screen (t0 ++ e0 :: t1) = Some v → v_presentation v = Some pv →
       ∀ id, is_Some (pv_credentials pv !! id) ↔ ∃ k, k ∈ ra_credentials r ∧ kc_id k = id).
Proof.
  intros Hses Hr Hd Hf Hne Hm.
  destruct (presentation_sent c Hr n i uri rr x Hm) as (id & n1 & i1 & n2 & i2 & url & req & creds & d & x0 & rest & Hqi & Hn & Hq1 & Hs1 & Hq2 & Hs2
    & _ & _ & (m0 & _ & Hreq) & (mf & _ & Hfind) & Huri & (m & jwt & claims & kid & m' & Hlm & Hsign & _ & _ & Haud & Hnonce & _ & _ & Hcr & Htok & _)).
  (* the commands behind calls i2 and i *)
  assert (∀ j q, asked c j q → ∃ l, all_calls tr !! j = Some l ∧ hcall l = q) as Hcall.
  { intros j q [p Hp]. assert ((c_pool c).*1 !! j = Some q) as E by by rewrite list_lookup_fmap, Hp.
    rewrite (dr_calls _ _ Hd), list_lookup_fmap in E. destruct (all_calls tr !! j) as [l|]; [|done]. injection E as E. eauto. }
  destruct (Hcall _ _ Hqi) as (lP & HlP & EP). destruct lP; try done. injection EP as ->.
  destruct (Hcall _ _ Hq2) as (lA & HlA & EA). destruct lA; try done. injection EA as ->.
  destruct (Hcall _ _ Hq1) as (lQ & HlQ & EQ). destruct lQ; try done. injection EQ as ->.
  destruct (call_at _ _ _ HlP) as (P1 & [kP esP] & P2 & HP & HinP & HiP).
  destruct (call_at _ _ _ HlA) as (A1 & [kA esA] & A2 & HA & HinA & HiA).
  destruct (call_at _ _ _ HlQ) as (Q1 & eQ & Q2 & HQ & HinQ & HiQ).
  pose proof Hses as HsP. rewrite HP in HsP. apply session_at in HsP as (ksP & wP & HsP & EeP). simpl in EeP, HinP.
  pose proof Hses as HsA. rewrite HA in HsA. apply session_at in HsA as (ksA & wA & HsA & EeA). simpl in EeA, HinA.
  rewrite EeP in HinP. rewrite EeA in HinA.
  destruct (perform_makes _ _ _ _ HinP) as [p ->]. destruct (perform_makes _ _ _ _ HinA) as [a ->].
  (* order *)
  assert (i2 < i) as Hlt.
  { destruct (decide (i2 < i)); [done|]. exfalso. destruct (decide (i2 = i)) as [->|].
    - pose proof (asked_inj _ _ _ _ Hq2 Hqi). done.
    - destruct Hm as [em Hm]. destruct Hs2 as (v2 & x2 & b2 & Hs2).
      pose proof (dr_serial _ _ Hd i i2 ltac:(lia) _ _ _ _ Hm Hs2 eq_refl eq_refl). lia. }
  destruct (earlier _ _ _ _ _ _ _ _ _ HA HP Hlt (proj1 HiA) (proj2 HiP)) as [(t2 & HP1)|(_ & ? & _)]; [|done].
  (* the request *)
  assert (id ≠ "") as Hid.
  { intros ->. destruct (request_saved c Hr _ _ _ _ Hq1 Hs1) as [mu Hu]. by apply (Hne mu i1). }
  assert (∀ T1 e T2 r, tr = T1 ++ e :: T2 → request_taken e = Some r → ra_id r = id →
    T1 = Q1 ∧ e = eQ ∧ ∃ y, answered c i1 (HRequest url) (Ok (HRRequest y)) ∧ same_request r y) as Hthe.
  { intros T1 e T2 r HT Ht Hrid. destruct (dr_request _ _ Hd _ _ _ _ HT Ht) as (t & y & Hans & Hsame).
    destruct (request_answered c Hr _ _ _ Hans) as [[mu Hu] _]. destruct (request_saved c Hr _ _ _ _ Hq1 Hs1) as [mu' Hu'].
    assert (hq_id y = id) as Ey by (destruct Hsame as [<- _]; done). rewrite Ey in Hu.
    destruct (uuid_pos c _ _ _ _ _ Hf Hu Hu') as [_ Ei].
    subst i1. destruct (place_of _ _ _ _ _ _ _ HT HQ (request_taken_calls _ _ Ht) HiQ) as (-> & -> & _).
    split; [done|]. split; [done|]. exists y. split; [|done].
    pose proof Hans as Hans'. unfold answered in Hans'. destruct (asked_inj _ _ _ _ (ex_intro _ _ Hans') Hq1). done. }
  destruct (perform_call _ _ _ _ HinP) as [_ HidP]. specialize (HidP _ eq_refl).
  destruct (perform_call _ _ _ _ HinA) as [_ HidA]. specialize (HidA _ eq_refl).
  destruct (flows_inv _ _ _ _ _ HsP) as [_ [[E _]|(rP & sP & HlatP & EstP)]]; [by rewrite E in HidP|].
  destruct (flows_inv _ _ _ _ _ HsA) as [_ [[E _]|(rA & sA & HlatA & EstA)]]; [by rewrite E in HidA|].
  rewrite EstP in HidP. rewrite EstA in HidA. simpl in HidP, HidA.
  pose proof HlatA as (TA & eA & UA & HTA & HtA & HnA). destruct HlatP as (TP & eP & UP & HTP & HtP & HnP).
  assert (tr = TA ++ eA :: (UA ++ (Authorize a, esA) :: A2)) as HtrA by (rewrite HA, HTA, <-app_assoc; done).
  assert (tr = TP ++ eP :: (UP ++ (Present p, esP) :: P2)) as HtrP by (rewrite HP, HTP, <-app_assoc; done).
  destruct (Hthe _ _ _ _ HtrA HtA (eq_sym HidA)) as (-> & -> & y & Hans & Hsame).
  destruct (Hthe _ _ _ _ HtrP HtP (eq_sym HidP)) as (-> & -> & _).
  destruct HP1 as [HP1 HA2].
  assert (UP = UA ++ (Authorize a, esA) :: t2) as HUP.
  { rewrite HTA, HTP, <-app_assoc in HP1. apply app_inv_head in HP1. by injection HP1. }
  exists Q1, eQ, UA, a, esA, t2, p, esP, P2, rA, url, req, m0, i1.
  split; [rewrite HtrA, HA2; done|]. split; [done|].
  split. { intros e [He|He]%elem_of_app; [by apply HnA|]. apply HnP. rewrite HUP. apply elem_of_app. right. by apply elem_of_list_further. }
  split; [done|]. split; [rewrite <-HidA, EeA; done|]. split; [rewrite <-HidA, EeP; done|].
  split; [done|]. split; [done|]. split; [done|]. split.
  { exists m, jwt, claims. do 5 (split; [done|]). rewrite Hcr. destruct Hsame as (_ & _ & Hsc).
    destruct (request_answered c Hr _ _ _ Hans) as [_ Hcreds]. pose proof (Hcreds _ _ _ Hfind) as [= ->].
    clear -Hsc. induction Hsc as [|k cr l l' (_ & _ & E) _ IH]; simpl; [done|]. by rewrite E, IH. }
  intros v pv Hnp Hscr Hpv. rewrite <-HTA in Hnp, Hscr.
  destruct (P_App.C153_request_on_screen_partial _ _ _ _ _ _ _ _ _ _ HsA Hnp Hscr Hpv HinA eq_refl) as (r' & Hl' & _ & Hc1 & Hc2).
  pose proof (latest_unique _ _ _ _ HlatA Hl') as ->. intros idc. split.
  - intros [s Hs]. destruct (Hc2 _ _ Hs) as (k & _ & _ & ? & ? & _). eauto.
  - intros (k & Hk & <-). by apply Hc1.
Qed.
Print Assumptions C157_presented_as_shown.

(** A token is asked for only by a [GetCredentials] of the user that follows an [Accept] of the user; no other offer was taken
    up after the one that was on the screen then; it is asked from the issuer whose metadata was fetched for that offer, with
    the code of that offer, and with a PIN exactly when the offer, and so the screen, asks for one: one that the user entered
    in between. *)
Theorem C157_token_as_accepted cx st ks w tr (c : hconfig) n i q x :
  session cx ks (Wallet app_default st) = (w, tr) → hreach c → drives tr c →
  hfresh (c_log c) → (∀ m j, ¬ made c m j (HX (EUuid ""))) →
  made c n i (HX (EToken q x)) →
  ∃ t0 e0 t1 a esA t2 k esG t3 r o md m0 j0 gr g pin,
    tr = t0 ++ e0 :: t1 ++ (Accept a, esA) :: t2 ++ (k, esG) :: t3 ∧ (∃ b1 b2 l b3, k = GetCredentials b1 b2 l b3) ∧
    offer_taken e0 = Some r ∧ (∀ e, e ∈ t1 ++ t2 → offer_taken e = None) ∧
    Call (LOffer o) ∈ e0.2 ∧ Call (LAccept (oa_id r)) ∈ esA ∧ Call (LToken (oa_id r)) ∈ esG ∧ asked c i (HToken (oa_id r)) ∧
    oa_issuer r = of_credential_issuer o ∧ oa_grants r = of_grants o ∧
    (∀ id, is_Some (oa_offered r !! id) ↔ id ∈ of_configuration_ids o) ∧
    asked c j0 (HOffer "wallet" "normal_user" o) ∧ made c m0 j0 (HX (EMetadata (of_credential_issuer o) (Some md))) ∧
    of_grants o = Some gr ∧ gr_pre_authorized_code gr = Some g ∧
    tr_credential_issuer q = is_credential_issuer md ∧ tr_client_id q = Some "wallet" ∧
    tr_grant q = TGPreAuthorizedCode (pg_code g) pin ∧ tr_authorization_details q = None ∧
    match tx_code_of (oa_grants r) with
    | None => pin = None
    | Some _ => ∃ p d es, pin = Some p ∧ (Pin p d, es) ∈ t2 ∧ Call (LPin (oa_id r) p) ∈ es
    end ∧
    (∀ v iv, (∀ e, e ∈ t0 ++ e0 :: t1 → Panicked ∉ e.2) → screen (t0 ++ e0 :: t1) = Some v → v_issuance v = Some iv →
       (∀ id, is_Some (iv_credentials iv !! id) ↔ id ∈ of_configuration_ids o) ∧
       (iv_pin_schema iv = None ↔ pin = None)).
Proof.
  intros Hses Hr Hd Hf Hne Hm.
  assert (∀ j q, asked c j q → ∃ l, all_calls tr !! j = Some l ∧ hcall l = q) as Hcall.
  { intros j q' [p Hp]. assert ((c_pool c).*1 !! j = Some q') as E by by rewrite list_lookup_fmap, Hp.
    rewrite (dr_calls _ _ Hd), list_lookup_fmap in E. destruct (all_calls tr !! j) as [l|]; [|done]. injection E as E. eauto. }
  destruct (token_request_made c Hr n i q x Hm) as [(id & cl & sb & o & md & ac & n2 & gr & g & pin & Hqi & Hacc & Hac & Hgr & Hg & Hq & Hasks & Hpin)|
    (z & Hz & _)]; [|destruct (Hcall _ _ Hz) as (l & _ & E); by destruct l].
  destruct Hacc as (n1 & i1 & i2 & Hn & Hq1 & Hs1 & (m0 & _ & Hmd) & Hq2 & Hs2).
  destruct (Hcall _ _ Hqi) as (lP & HlP & EP). destruct lP; try done. injection EP as ->.
  destruct (Hcall _ _ Hq2) as (lA & HlA & EA). destruct lA; try done. injection EA as -> <-.
  destruct (Hcall _ _ Hq1) as (lQ & HlQ & EQ). destruct lQ; try done. injection EQ as <- <- ->.
  destruct (call_at _ _ _ HlP) as (P1 & [kP esP] & P2 & HP & HinP & HiP).
  destruct (call_at _ _ _ HlA) as (A1 & [kA esA] & A2 & HA & HinA & HiA).
  destruct (call_at _ _ _ HlQ) as (Q1 & eQ & Q2 & HQ & HinQ & HiQ).
  pose proof Hses as HsP. rewrite HP in HsP. apply session_at in HsP as (ksP & wP & HsP & EeP). simpl in EeP, HinP.
  pose proof Hses as HsA. rewrite HA in HsA. apply session_at in HsA as (ksA & wA & HsA & EeA). simpl in EeA, HinA.
  rewrite EeP in HinP. rewrite EeA in HinA.
  pose proof (perform_makes _ _ _ _ HinP) as HkP. simpl in HkP. destruct (perform_makes _ _ _ _ HinA) as [a ->].
  assert (∀ j k nj nk ej ek, made c nj j ej → made c nk k ek → nj < nk → j ≠ k → j < k) as Hord.
  { intros j k nj nk ej ek [fj Hj] [fk Hk] Hlt Hjk. destruct (decide (j < k)); [done|]. exfalso.
    pose proof (dr_serial _ _ Hd k j ltac:(lia) _ _ _ _ Hk Hj eq_refl eq_refl). lia. }
  assert (∀ m j k, saved c m j k → ∃ e, made c m j e) as Hsm.
  { intros m j k (v & y & b & H). eexists _, _. exact H. }
  assert (i2 < i) as Hlt.
  { destruct (Hsm _ _ _ Hs2) as [e2 He2]. apply (Hord _ _ _ _ _ _ He2 Hm); [lia|]. intros ->.
    pose proof (asked_inj _ _ _ _ Hq2 Hqi). done. }
  destruct (earlier _ _ _ _ _ _ _ _ _ HA HP Hlt (proj1 HiA) (proj2 HiP)) as [(t2 & HP1 & HA2)|(_ & E & _)];
    [|injection E as <- _; destruct HkP as (? & ? & ? & ? & ?); done].
  assert (id ≠ "") as Hid.
  { intros ->. destruct (offer_saved c Hr _ _ _ _ _ _ Hq1 Hs1) as [mu Hu]. by apply (Hne mu i1). }
  assert (∀ T1 e T2 r, tr = T1 ++ e :: T2 → offer_taken e = Some r → oa_id r = id →
    T1 = Q1 ∧ e = eQ ∧ ∃ y, answered c i1 (HOffer "wallet" "normal_user" o) (Ok (HROffer y)) ∧ same_offer r y) as Hthe.
  { intros T1 e T2 r HT Ht Hrid. destruct (dr_offer _ _ Hd _ _ _ _ HT Ht) as (t & y & Hans & Hsame).
    destruct (offer_answered c Hr _ _ _ _ _ Hans) as [[mu Hu] _]. destruct (offer_saved c Hr _ _ _ _ _ _ Hq1 Hs1) as [mu' Hu'].
    assert (or_issuance_id y = id) as Ey by (destruct Hsame as [<- _]; done). rewrite Ey in Hu.
    destruct (uuid_pos c _ _ _ _ _ Hf Hu Hu') as [_ Ei].
    subst i1. destruct (place_of _ _ _ _ _ _ _ HT HQ (offer_taken_calls _ _ Ht) HiQ) as (-> & -> & _).
    split; [done|]. split; [done|]. exists y. split; [|done].
    pose proof Hans as Hans'. unfold answered in Hans'. destruct (asked_inj _ _ _ _ (ex_intro _ _ Hans') Hq1). done. }
  destruct (perform_call _ _ _ _ HinP) as [HidP _]. specialize (HidP _ eq_refl).
  destruct (perform_call _ _ _ _ HinA) as [HidA _]. specialize (HidA _ eq_refl).
  destruct (flows_inv _ _ _ _ _ HsP) as [[[E _]|(rP & sP & HlatP & EstP)] _]; [by rewrite E in HidP|].
  destruct (flows_inv _ _ _ _ _ HsA) as [[[E _]|(rA & sA & HlatA & EstA)] _]; [by rewrite E in HidA|].
  rewrite EstP in HidP. rewrite EstA in HidA. simpl in HidP, HidA.
  pose proof HlatA as (TA & eA & UA & HTA & HtA & HnA). destruct HlatP as (TP & eP & UP & HTP & HtP & HnP).
  assert (tr = TA ++ eA :: (UA ++ (Accept a, esA) :: A2)) as HtrA by (rewrite HA, HTA, <-app_assoc; done).
  assert (tr = TP ++ eP :: (UP ++ (kP, esP) :: P2)) as HtrP by (rewrite HP, HTP, <-app_assoc; done).
  destruct (Hthe _ _ _ _ HtrA HtA (eq_sym HidA)) as (-> & -> & y & Hans & Hsame).
  destruct (Hthe _ _ _ _ HtrP HtP (eq_sym HidP)) as (-> & -> & _).
  assert (UP = UA ++ (Accept a, esA) :: t2) as HUP.
  { rewrite HTA, HTP, <-app_assoc in HP1. apply app_inv_head in HP1. by injection HP1. }
  destruct (offer_answered c Hr _ _ _ _ _ Hans) as (_ & Hiss & Hgrants & Hoff). destruct Hsame as (Ea1 & Ea2 & Ea3 & Ea4).
  assert (tx_code_of (oa_grants rA) = pg_tx_code g) as Htx. { rewrite Ea3, Hgrants, Hgr. simpl. by rewrite Hg. }
  exists Q1, eQ, UA, a, esA, t2, kP, esP, P2, rA, o, md, m0, i1, gr, g, pin.
  split; [rewrite HtrA, HA2; done|]. split; [done|]. split; [done|].
  split. { intros e [He|He]%elem_of_app; [by apply HnA|]. apply HnP. rewrite HUP. apply elem_of_app. right. by apply elem_of_list_further. }
  split; [done|]. split; [rewrite <-HidA, EeA; done|]. split; [rewrite <-HidA, EeP; done|].
  split; [by rewrite <-HidA|]. split; [congruence|]. split; [congruence|]. split; [intros k; by rewrite Ea4, Hoff|].
  do 4 (split; [done|]). rewrite Hq. cbn [tr_credential_issuer tr_client_id tr_grant tr_authorization_details].
  do 3 (split; [done|]). split; [by destruct (tr_authorization_details q)|]. split.
  { rewrite Htx. destruct (pg_tx_code g); [|done]. destruct Hpin as (n3 & i3 & p & Hn3 & Hq3 & Hs3 & ->).
    destruct (Hcall _ _ Hq3) as (l3 & Hl3 & E3). destruct l3; try done. injection E3 as -> ->.
    destruct (call_at _ _ _ Hl3) as (R1 & [kR esR] & R2 & HR & HinR & HiR).
    pose proof Hses as HsR. rewrite HR in HsR. apply session_at in HsR as (ksR & wR & HsR & EeR). simpl in EeR, HinR.
    pose proof HinR as HinR'. rewrite EeR in HinR'. destruct (perform_makes _ _ _ _ HinR') as [dn ->].
    destruct (Hsm _ _ _ Hs2) as [e2 He2]. destruct (Hsm _ _ _ Hs3) as [e3 He3].
    assert (i2 < i3) as L1. { apply (Hord _ _ _ _ _ _ He2 He3); [lia|]. intros ->. pose proof (asked_inj _ _ _ _ Hq2 Hq3). done. }
    assert (i3 < i) as L2. { apply (Hord _ _ _ _ _ _ He3 Hm); [lia|]. intros ->. pose proof (asked_inj _ _ _ _ Hqi Hq3). done. }
    destruct (earlier _ _ _ _ _ _ _ _ _ HA HR L1 (proj1 HiA) (proj2 HiR)) as [(M & HM & _)|(_ & ? & _)]; [|done].
    destruct (earlier _ _ _ _ _ _ _ _ _ HR HP L2 (proj1 HiR) (proj2 HiP)) as [(M' & HM' & _)|(_ & E & _)];
      [|injection E as <- _; destruct HkP as (? & ? & ? & ? & ?); done].
    exists p, dn, esR. split; [done|]. split; [|by rewrite <-HidA].
    rewrite HM', HM, <-app_assoc in HP1. apply app_inv_head in HP1. simpl in HP1. injection HP1 as HP1. rewrite <-HP1. apply elem_of_app. right. apply elem_of_list_here. }
  intros v iv Hnp Hscr Hiv. rewrite <-HTA in Hnp, Hscr.
  destruct (P_App.C153_offer_on_screen_partial _ _ _ _ _ _ _ _ _ _ HsA Hnp Hscr Hiv HinA eq_refl) as (r' & Hl' & _ & Hc1 & _ & Hc3).
  pose proof (latest_unique _ _ _ _ HlatA Hl') as ->. split.
  - intros k. by rewrite Hc1, Ea4, Hoff.
  - rewrite Htx in Hc3. destruct (pg_tx_code g).
    + destruct Hc3 as (ps & -> & _). destruct Hpin as (? & ? & ? & _ & _ & _ & ->). by split.
    + by split.
Qed.
Print Assumptions C157_token_as_accepted.

(** Whatever the example wallet saves was in an answer of the issuer of an offer that the user had accepted, to a request with
    the token obtained for that offer. *)
Theorem C157_saved_as_accepted cx st ks w tr (c : hconfig) n i cr b :
  session cx ks (Wallet app_default st) = (w, tr) → hreach c → drives tr c →
  hfresh (c_log c) → (∀ m j, ¬ made c m j (HX (EUuid ""))) →
  made c n i (HX (ESave cr b)) →
  ∃ t0 e0 t1 a esA t2 r o e m0 j0 md m1 j1 q tok m2 j2 cq resp,
    tr = t0 ++ e0 :: t1 ++ (Accept a, esA) :: t2 ∧
    offer_taken e0 = Some r ∧ (∀ e', e' ∈ t1 → offer_taken e' = None) ∧
    Call (LOffer o) ∈ e0.2 ∧ Call (LAccept (oa_id r)) ∈ esA ∧ e ∈ tr ∧ Call (LSave (oa_id r)) ∈ e.2 ∧
    asked c j0 (HOffer "wallet" "normal_user" o) ∧ made c m0 j0 (HX (EMetadata (of_credential_issuer o) (Some md))) ∧
    m1 < m2 < n ∧ asked c j1 (HToken (oa_id r)) ∧ made c m1 j1 (HX (EToken q (Some tok))) ∧
    made c m2 j2 (HX (ECredential cq (Some resp))) ∧ contains_token resp (wc_issued cr) ∧
    cr_access_token cq = trs_access_token tok ∧ cr_credential_issuer cq = is_credential_issuer md.
Proof.
  intros Hses Hr Hd Hf Hne Hm.
  assert (∀ j q, asked c j q → ∃ l, all_calls tr !! j = Some l ∧ hcall l = q) as Hcall.
  { intros j q' [p Hp]. assert ((c_pool c).*1 !! j = Some q') as E by by rewrite list_lookup_fmap, Hp.
    rewrite (dr_calls _ _ Hd), list_lookup_fmap in E. destruct (all_calls tr !! j) as [l|]; [|done]. injection E as E. eauto. }
  destruct (saved_credentials_received c Hr n i cr b Hm) as (id & j2 & q2 & _ & m2 & resp & Hqi & Hq2 & Hk & _ & _ & Hlt2 & Hresp & Htok).
  assert (∃ cq, made c m2 j2 (HX (ECredential cq (Some resp)))) as [cq Hcq].
  { destruct Hresp as [?|[dq Hdq]]; [done|]. destruct (deferred_request_made c Hr _ _ _ _ Hdq) as (? & ? & ? & ? & ? & ? & ? & Hq' & _).
    destruct (Hcall _ _ Hq') as (l & _ & E). by destruct l. }
  destruct (credential_request_made c Hr _ _ _ _ Hcq) as (q & m1 & j1 & tq & tok & Hq & Hlt1 & Htc & Ht & E1 & E2).
  assert (hc_issuance_id q = id) as Hid.
  { pose proof (asked_inj _ _ _ _ Hq2 Hq) as E. destruct Hk as [(r' & -> & <-)|(tx & cfg & ->)]; [by injection E as ->|done]. }
  destruct Htc as [Htc|(z & Hz & _)]; [|destruct (Hcall _ _ Hz) as (l & _ & E); by destruct l].
  destruct (C157_token_as_accepted _ _ _ _ _ _ _ _ _ _ Hses Hr Hd Hf Hne Ht) as (t0 & e0 & t1 & a & esA & t2 & k & esG & t3 & r & o & md & m0 & j0 & gr & g & pin
    & Etr & _ & Hoff & Hno & HLo & HLa & _ & Hj1 & _ & _ & _ & Hj0 & Hm0 & _ & _ & Hiss & _).
  assert (oa_id r = id) as Er. { pose proof (asked_inj _ _ _ _ Hj1 Htc) as E. injection E as E. congruence. }
  destruct (Hcall _ _ Hqi) as (l & Hl & El). destruct l; try done. injection El as ->.
  destruct (call_at _ _ _ Hl) as (S1 & e & S2 & HS & HinS & _).
  exists t0, e0, t1, a, esA, (t2 ++ (k, esG) :: t3), r, o, e, m0, j0, md, m1, j1, tq, tok, m2, j2, cq, resp.
  split; [done|]. split; [done|]. split. { intros e' He. apply Hno. apply elem_of_app. by left. }
  do 2 (split; [done|]). split; [rewrite HS; apply elem_of_app; right; apply elem_of_list_here|]. split; [by rewrite Er|].
  do 3 (split; [done|]). do 4 (split; [done|]). split; congruence.
Qed.
Print Assumptions C157_saved_as_accepted.

Example C157_example : (∃ w, session SerdeExample.ex_cx Ex.ks (Wallet app_default ws_empty) = (w, Ex.tr)) ∧ hreach Ex.library ∧ drives Ex.tr Ex.library ∧
  hfresh (c_log Ex.library) ∧ (∀ m j, ¬ made Ex.library m j (HX (EUuid ""))) ∧
  (∃ n i q x, made Ex.library n i (HX (EToken q (Some x))) ∧ tr_grant q = TGPreAuthorizedCode "code2" (Some "123456")) ∧
  (∃ n i uri rr x, made Ex.library n i (HX (EPresent uri rr (Some x)))) ∧ (∃ n i cr b, made Ex.library n i (HX (ESave cr b))) ∧
  (∀ e, e ∈ Ex.tr → Panicked ∉ e.2) ∧
  (∃ v pv, screen (take 5 Ex.tr) = Some v ∧ v_presentation v = Some pv ∧ is_Some (pv_credentials pv !! "cred1")).
Proof.
  split; [apply session_snd|]. split; [apply HolderExample.hafter_reach|]. split; [exact ex_drives|].
  split; [exact (proj1 ex_fresh)|]. split; [exact (proj2 ex_fresh)|]. split; [exact ex_token|]. split; [exact ex_presented|]. split; [exact ex_saved|].
  split; [exact (no_panics _ ex_calm)|]. exact (shows_some _ _ ex_shows).
Qed.
