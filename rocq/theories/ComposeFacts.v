(** Lemmas about the wallet and the issuer together. *)
From Verif Require Import Base Json CoreModel VcModel Prog ProgFacts ExecSpec ExecFacts Sha256 IssuerTypes
  IssuerModel IssuerSpec IssuerFacts IssuerWp IssuerExec IssuerOffer IssuerToken IssuerCredential IssuerNonce
  MatcherModel VerifierModel HolderModel HolderSpec HolderFacts HolderExec HolderRuns HolderProps ComposeSpec IssuerGrant.

From Verif Require IssuerAuthorize.

(** ** The wallet: all credential requests of a call carry the same proof and token *)
Definition same_ask (e e' : hevent) : Prop :=
  match e, e' with
  | EExt (ECredential q _), EExt (ECredential q' _) =>
      cr_access_token q = cr_access_token q' ∧ cr_proof q = cr_proof q' ∧ ∃ jwt, cr_proof q = Some (PSingle jwt)
  | _, _ => True
  end.
Definition sameP (h : hhist) (e : hevent) : Prop := ∀ e', e' ∈ h → same_ask e' e.
Lemma quiet_same h e : quiet e → sameP h e.
Proof. intros He e' _. by destruct e' as [| | |[]], e as [| | |[]]. Qed.

Lemma take_credential_quiet cfg k h (Q : hhist → outcome string wcredential → Prop) :
  (∀ h' o, Forall quiet h' → Q (h ++ h') o) → wp sameP Q (take_credential cfg k) h.
Proof.
  intros E. unfold take_credential.
  hwp; try (by apply quiet_same); rewrite <-?app_assoc; try (apply E; repeat constructor).
  all: rewrite <-(app_nil_r h); apply E; constructor.
Qed.
Lemma take_credentials_quiet cfg l h (Q : hhist → outcome string (list wcredential) → Prop) :
  (∀ h' o, Forall quiet h' → Q (h ++ h') o) → wp sameP Q (take_credentials cfg l) h.
Proof.
  revert h Q. induction l as [|k l IH]; intros h Q E; simpl.
  { apply hwp_ok. rewrite <-(app_nil_r h). by apply E. }
  apply wp_bind, take_credential_quiet. intros h1 o Hh1. unfold bindQ. destruct o; [|by apply E..].
  apply wp_bind, IH. intros h2 o Hh2. rewrite <-app_assoc. unfold bindQ.
  destruct o; [apply hwp_ok|..]; apply E; by apply Forall_app.
Qed.
Lemma take_response_quiet id cfg resp i h (Q : hhist → outcome string issuance → Prop) :
  (∀ h' v, Forall quiet h' → hi_token v = hi_token i → Q (h ++ h') (Ok v)) →
  (∀ h' e, Q (h ++ h') (Err e)) → (∀ h' w, Q (h ++ h') (Panic w)) →
  wp sameP Q (take_response id cfg resp i) h.
Proof.
  intros E1 E2 E3. unfold take_response. destruct (wr_response resp) as [k|l|tx].
  - apply wp_bind, take_credential_quiet. intros h' [c|e|w] Hh'; unfold bindQ; [|apply E2|apply E3].
    by apply hwp_ok, E1.
  - apply wp_bind, take_credentials_quiet. intros h' [c|e|w] Hh'; unfold bindQ; [|apply E2|apply E3].
    by apply hwp_ok, E1.
  - apply hwp_ok. rewrite <-(app_nil_r h). by apply E1.
Qed.

(** All requests so far carry [tok] and [jwt]. *)
Definition asked_with (tok jwt : string) (h : hhist) : Prop :=
  Forall (λ e : hevent, match e with
          | EExt (ECredential q _) => cr_access_token q = tok ∧ cr_proof q = Some (PSingle jwt)
          | _ => True end) h.
Lemma quiet_asked tok jwt h h' : asked_with tok jwt h → Forall quiet h' → asked_with tok jwt (h ++ h').
Proof.
  intros H1 H2. apply Forall_app. split; [done|]. eapply Forall_impl; [exact H2|]. by intros [| | |[]].
Qed.
Lemma ask_same tok jwt h iss x r : asked_with tok jwt h →
  sameP h (HX (ECredential (CredentialRequest iss tok x (Some (PSingle jwt))) r)).
Proof.
  intros Hh e He. assert (H := proj1 (Forall_forall _ _) Hh e He).
  destruct e as [| | |[]]; try done. destruct H as [E1 E2]. split_and!; [done|done|]. rewrite E2. by eexists.
Qed.
Lemma by_identifiers_same r jwt tok id cfg ids h i (Q : hhist → outcome string issuance → Prop) :
  trs_access_token (hi_token i) = tok → asked_with tok jwt h →
  (∀ h' v, trs_access_token (hi_token v) = tok → asked_with tok jwt h' → Q h' (Ok v)) →
  (∀ h' e, Q h' (Err e)) → (∀ h' w, Q h' (Panic w)) →
  wp sameP Q (by_identifiers r jwt id cfg ids i) h.
Proof.
  revert h i. induction ids as [|x ids IH]; intros h i Ht Hh E1 E2 E3; cbn [by_identifiers].
  { apply hwp_ok. by apply E1. }
  destruct (match hc_identifiers r with Some l => contains l x | None => true end); [|by apply IH].
  apply wp_bind, hwp_try, hwp_zcall. cbn [hmk hans]. intros resp. rewrite Ht. split; [by apply ask_same|].
  unfold bindQ. apply hwp_of_opt; [|intros _; apply E2]. intros resp' ->.
  apply wp_bind, take_response_quiet; unfold bindQ; [|intros; apply E2|intros; apply E3].
  intros h1 v Hh1 Hv. apply IH; [|apply quiet_asked; [|done]|done..].
  - simpl. by rewrite Hv.
  - apply Forall_app. split; [done|]. by repeat constructor.
Qed.
Lemma by_details_same r jwt tok l h i (Q : hhist → outcome string issuance → Prop) :
  trs_access_token (hi_token i) = tok → asked_with tok jwt h →
  (∀ h' v, trs_access_token (hi_token v) = tok → asked_with tok jwt h' → Q h' (Ok v)) →
  (∀ h' e, Q h' (Err e)) → (∀ h' w, Q h' (Panic w)) →
  wp sameP Q (by_details r jwt l i) h.
Proof.
  revert h i. induction l as [|d l IH]; intros h i Ht Hh E1 E2 E3; cbn [by_details].
  { apply hwp_ok. by apply E1. }
  apply wp_bind, hwp_of_opt; [|intros _; apply E2]. intros cfg_id _. unfold bindQ.
  apply wp_bind, hwp_of_opt; [|intros _; apply E2]. intros cfg _. unfold bindQ.
  apply wp_bind, (by_identifiers_same _ _ tok); unfold bindQ; [done|done| |intros; apply E2|intros; apply E3].
  intros h1 v Hv Hh1. by apply IH.
Qed.
Lemma other_same h e : (∀ q r, e ≠ HX (ECredential q r)) → sameP h e.
Proof. intros He e' _. destruct e' as [| | |[]], e as [| | |[]]; try done. by destruct (He q0 r0). Qed.
Lemma credentials_same r : wp sameP anyQ (h_credentials r) [].
Proof.
  unfold h_credentials. hwp; try (by apply other_same).
  - unfold credential_by_format. hwp; try (by apply other_same).
    + apply ask_same. repeat constructor.
    + apply take_response_quiet; [|done|done]. intros h1 v Hh1 Hv. unfold bindQ. hwp; by apply other_same.
  - unfold credential_by_identifier. hwp. apply (by_details_same _ _ (trs_access_token (hi_token i))); [done| | |done|done].
    + repeat constructor.
    + intros h1 v Hv Hh1. unfold bindQ. hwp; by apply other_same.
Qed.

Lemma asks_same (c : hconfig) a b i qa ra qb rb : hreach c →
  made c a i (HX (ECredential qa ra)) → made c b i (HX (ECredential qb rb)) → a < b →
  cr_access_token qa = cr_access_token qb ∧ ∃ jwt, cr_proof qa = Some (PSingle jwt) ∧ cr_proof qb = Some (PSingle jwt).
Proof.
  intros Hr [effa Ha] [effb Hb] Hab.
  destruct (say_pos c Hr _ _ _ _ Hb) as (q & Hq & z & v & t & jwt & -> & _).
  destruct (pos_path _ _ _ _ _ Hr Hb) as (q' & p & es2 & Hq' & Hp). simpl in *.
  assert (q' = HCredentials z) as ->. { destruct Hq as [p' Hq]. congruence. }
  assert (wp sameP anyQ (hhandler (HCredentials z)) []) as Hwp.
  { apply wp_bind. eapply wp_mono; [by intros h e H|intros h o H|apply credentials_same].
    unfold bindQ. by destruct o. }
  apply (wp_event _ _ _ _ [] _ _ _ Hwp) in Hp. simpl in Hp.
  assert (HX (ECredential qa ra) ∈ calls_of i (take b (c_log c))) as Hin.
  { assert (take b (c_log c) !! a = Some (Entry i (HX (ECredential qa ra)) effa)) as H by (rewrite lookup_take; done).
    destruct (pos_calls_of i _ _ _ H eq_refl) as (es3 & ->). set_solver. }
  destruct (Hp _ Hin) as (E1 & E2 & jwt' & E3). split; [done|]. exists jwt'. split; [done|congruence].
Qed.

(** ** The wallet: a call that succeeds got an answer to every request *)
Definition got (h : hhist) : Prop :=
  Forall (λ e : hevent, match e with EExt (ECredential _ None) => False | _ => True end) h.
Definition got_ok {A} (m : hprog A) : Prop :=
  ∀ h, got h → wp (λ _ _, True) (λ h' o, match o with Ok _ => got h' | _ => True end) m h.
Lemma got_snoc h e : got h → (∀ q, e ≠ HX (ECredential q None)) → got (h ++ [e]).
Proof.
  intros Hh He. apply Forall_app. split; [done|]. constructor; [|done].
  destruct e as [| | |[| | | | | | |q [r|]| | | | | | | | | | | | | |]]; try done. by destruct (He q).
Qed.
Lemma got_bind {A B} (m : hprog A) (k : A → hprog B) : got_ok m → (∀ a, got_ok (k a)) → got_ok (bind m k).
Proof.
  intros Hm Hk h Hh. apply wp_bind. eapply wp_mono; [by intros ? ? ?| |by apply Hm].
  intros h' [a|e|w] Ho; unfold bindQ; [by apply Hk|done..].
Qed.
Lemma got_zcall (x : hcall) : (∀ q, x ≠ ZCredential q) → got_ok (zcall x).
Proof.
  intros Hx h Hh. apply hwp_zcall. intros r. split; [done|].
  apply got_snoc; [done|]. intros q H. destruct x; simpl in H; try discriminate. injection H as ->. by destruct (Hx q).
Qed.
Lemma got_of_opt {A} (o : option A) e : got_ok (of_opt o e).
Proof. intros h Hh. by destruct o. Qed.
Lemma got_ok' {A} (a : A) : got_ok (ok a).
Proof. by intros h Hh. Qed.
Lemma got_fail {A} e : got_ok (@fail HSig string A e).
Proof. by intros h Hh. Qed.
Lemma got_panic {A} e : got_ok (@panic HSig string A e).
Proof. by intros h Hh. Qed.
Lemma got_ensure b e : got_ok (ensure b e).
Proof. intros h Hh. by destruct b. Qed.
Lemma got_credential q : got_ok (ztry (zcall (ZCredential q)) "credential").
Proof.
  intros h Hh. apply hwp_try, hwp_zcall. cbn [hmk hans]. intros [r|]; (split; [done|]); unfold bindQ.
  - apply hwp_of_opt; [|done]. intros a [= ->]. by apply got_snoc.
  - by apply hwp_of_opt.
Qed.
Lemma got_get_issuance id : got_ok (get_issuance id).
Proof. intros h Hh. apply hwp_get_issuance; [done|intros i; by apply got_snoc|done]. Qed.
Lemma got_put i : got_ok (put_issuance i).
Proof. intros h Hh. apply hwp_put; [done|by apply got_snoc|done]. Qed.
Lemma got_take_credential cfg k : got_ok (take_credential cfg k).
Proof.
  intros h Hh. unfold take_credential. hwp; repeat (apply got_snoc; [|done]); done.
Qed.
Lemma got_take_credentials cfg l : got_ok (take_credentials cfg l).
Proof.
  induction l as [|k l IH]; simpl; [apply got_ok'|]. apply got_bind; [apply got_take_credential|]. intros c.
  apply got_bind; [done|]. intros cs. apply got_ok'.
Qed.
Lemma got_take_response id cfg resp i : got_ok (take_response id cfg resp i).
Proof.
  unfold take_response. destruct (wr_response resp).
  - apply got_bind; [apply got_take_credential|]. intros a. apply got_ok'.
  - apply got_bind; [apply got_take_credentials|]. intros a. apply got_ok'.
  - apply got_ok'.
Qed.
Lemma got_by_identifiers r jwt id cfg ids i : got_ok (by_identifiers r jwt id cfg ids i).
Proof.
  revert i. induction ids as [|x ids IH]; intros i; cbn [by_identifiers]; [apply got_ok'|].
  destruct (match hc_identifiers r with Some l => contains l x | None => true end); [|apply IH].
  apply got_bind; [apply got_credential|]. intros resp.
  apply got_bind; [apply got_take_response|]. intros v. apply IH.
Qed.
Lemma got_by_details r jwt l i : got_ok (by_details r jwt l i).
Proof.
  revert i. induction l as [|d l IH]; intros i; cbn [by_details]; [apply got_ok'|].
  apply got_bind; [apply got_of_opt|]. intros id. apply got_bind; [apply got_of_opt|]. intros cfg.
  apply got_bind; [apply got_by_identifiers|]. intros v. apply IH.
Qed.
Lemma got_credentials r : got_ok (h_credentials r).
Proof.
  unfold h_credentials. apply got_bind; [apply got_get_issuance|]. intros i.
  apply got_bind; [apply got_ensure|]. intros _.
  apply got_bind; [by apply (got_zcall ZNow)|]. intros t.
  apply got_bind. { apply (got_bind (zcall (ZSignProof _))); [by apply got_zcall|]. intros a. apply got_of_opt. }
  intros jwt. apply got_bind.
  - destruct (hi_scope i).
    + unfold credential_by_format. apply got_bind; [apply got_ensure|]. intros _.
      apply got_bind; [apply got_of_opt|]. intros fm. apply got_bind; [apply got_of_opt|]. intros cc.
      apply got_bind; [apply got_credential|]. intros resp. apply got_take_response.
    + unfold credential_by_identifier. apply got_bind; [apply got_of_opt|]. intros l. apply got_by_details.
  - intros v. apply got_bind; [apply got_put|]. intros _. apply got_ok'.
Qed.
Lemma credentials_got r es resp : runs (h_credentials r) es (Ok resp) → ∀ q, HX (ECredential q None) ∉ es.
Proof.
  intros H q Hin. assert (got []) as H0 by constructor.
  pose proof (wp_runs _ _ _ _ _ _ (got_credentials r [] H0) H) as Hg. simpl in Hg.
  exact (proj1 (Forall_forall _ _) Hg _ Hin).
Qed.

(** ** The issuer's side of an answer *)
Lemma coupled_details (c : hconfig) ci f : coupled c ci f → coupled_but_details c ci f.
Proof.
  intros [Ha Ho]. split; [|exact Ho]. intros n i e Hm Hf. destruct (Ha n i e Hm Hf) as (q & r & H1 & H2). exists q, r. split; [done|].
  destruct e as [| | |[]]; try done; match goal with o : option _ |- _ => destruct o; [|done] end; destruct r; try done.
  - destruct H2 as [-> ->]. split; [|done]. by eexists.
  - destruct H2 as [-> ->]. split; [|done]. by eexists.
  - destruct H2 as [-> ->]. split; [|done]. by eexists.
Qed.
Section compose.
Context (c : hconfig) (ci : iconfig) (f : nat → nat).
Context (Hr : hreach c) (Hri : ireach ci) (Hc : coupled_but_details c ci f).

Lemma token_answered n i tr tok : made c n i (HX (EToken tr (Some tok))) →
  ∃ tr' tok', same_token_request tr tr' ∧ trs_access_token tok = trs_access_token tok' ∧
    answered ci (f n) (QToken tr') (Ok (RToken tok')) ∧ runs (token tr') (calls_of (f n) (c_log ci)) (Ok tok').
Proof.
  intros Hm. destruct (cd_answer _ _ _ Hc _ _ _ Hm eq_refl) as (q & r & Ha & Hd).
  destruct r; try done. destruct Hd as [(tr' & -> & Hs) [Ht _]]. exists tr', r. split; [done|]. split; [done|]. split; [done|].
  apply answered_runs in Ha; [|done]. by apply handler_ok in Ha as (x & [= <-] & H).
Qed.
Lemma credential_answered n i cq resp : made c n i (HX (ECredential cq (Some resp))) →
  ∃ cq' x, cr_access_token cq' = cr_access_token cq ∧ cr_proof cq' = cr_proof cq ∧
    resp = to_wallet x ∧ answered ci (f n) (QCredential cq') (Ok (RCredential x)) ∧
    runs (credential cq') (calls_of (f n) (c_log ci)) (Ok x).
Proof.
  intros Hm. destruct (cd_answer _ _ _ Hc _ _ _ Hm eq_refl) as (q & r & Ha & Hd).
  destruct r; try done. destruct Hd as [(cq' & -> & Ht & Hp) ->]. exists cq', r. split; [done|]. split; [done|]. split; [done|]. split; [done|].
  apply answered_runs in Ha; [|done]. by apply handler_ok in Ha as (x & [= <-] & H).
Qed.
Lemma deferred_answered n i dq resp : made c n i (HX (EDeferred dq (Some resp))) →
  ∃ x, resp = to_wallet x ∧ answered ci (f n) (QDeferred dq) (Ok (RDeferred x)) ∧
    runs (deferred dq) (calls_of (f n) (c_log ci)) (Ok x).
Proof.
  intros Hm. destruct (cd_answer _ _ _ Hc _ _ _ Hm eq_refl) as (q & r & Ha & Hd).
  destruct r; try done. destruct Hd as [-> ->]. eexists. split; [done|]. split; [done|].
  apply answered_runs in Ha; [|done]. by apply handler_ok in Ha as (x & [= <-] & H).
Qed.
Lemma token_is_token n i tr tok : made c n i (HX (EToken tr (Some tok))) → is_token (c_log ci) (trs_access_token tok).
Proof.
  intros Hm. destruct (token_answered _ _ _ _ Hm) as (tr' & tok' & _ & -> & _ & H).
  apply token_ok in H as (st & t & srv & gts & id & cl & items & es_i & tk & nonce & t2 & Hes & _ & _ & _ & _ & _ & _ & ->).
  assert (X (VGen GToken tk) ∈ calls_of (f n) (c_log ci)) as Hin by (rewrite Hes; set_solver).
  apply calls_of_elem_pos in Hin as (m & en & Hm' & _ & He). exists en. split; [by eapply elem_of_list_lookup_2|done].
Qed.

(** The proof was decoded, and had a nonce. *)
Lemma proof_decoded cq x k jwt : proofs_needed ci → cr_proof cq = Some (PSingle jwt) →
  runs (credential cq) (calls_of k (c_log ci)) (Ok x) →
  ∃ p nonce, X (VDecodeProof jwt (Some p)) ∈ calls_of k (c_log ci) ∧ pj_nonce p = Some nonce.
Proof.
  intros Hn Hp H. apply credential_possession in H as (st & tok & iss & auth & cfg & did & He & H).
  destruct (cc_proof_types cfg) as [types|] eqn:Ht.
  - destruct (H _ eq_refl) as (_ & pr & kids & Hpr & Hf & _). rewrite Hp in Hpr. injection Hpr as <-.
    simpl in Hf. inversion Hf as [|? ? ? ? (p & E1 & _ & E2 & _)]; subst. eauto.
  - exfalso. apply (Hn k (cr_credential_issuer cq) iss (au_configuration_id auth) cfg); [apply He| |done].
    apply HolderRuns.assoc_in. apply He.
Qed.

Lemma second_refused a b i qa ra qb rb : fresh (c_log ci) → proofs_needed ci → decodes_one_way ci →
  made c a i (HX (ECredential qa (Some ra))) → credentials_in ra ≠ [] →
  made c b i (HX (ECredential qb rb)) → a < b → rb = None.
Proof.
  intros Hf Hn Hd Ha Hra Hb Hab. destruct rb as [rb|]; [exfalso|done].
  destruct (asks_same _ _ _ _ _ _ _ _ Hr Ha Hb Hab) as (Et & jwt & Ea & Eb).
  destruct (credential_answered _ _ _ _ Ha) as (qa' & xa & Eta & Epa & -> & Haa & Hrun).
  destruct (credential_answered _ _ _ _ Hb) as (qb' & xb & Etb & Epb & -> & Hab' & Hrunb).
  rewrite <-Epa in Ea. rewrite <-Epb in Eb. rewrite <-Eta, <-Etb in Et.
  destruct (proof_decoded _ _ _ _ Hn Ea Hrun) as (p & nonce & Hp & Hnonce).
  destruct (proof_decoded _ _ _ _ Hn Eb Hrunb) as (p' & nonce' & Hp' & Hnonce').
  pose proof (Hd _ _ _ _ _ Hp Hp') as <-.
  destruct (credential_request_made c Hr _ _ _ _ Ha) as (q & m & j & tr & tok & _ & _ & _ & Hm & Etok & _).
  assert (before (c_log ci) (f a) (f b)) as Hbef by (by eapply (cd_order _ _ _ Hc a b i)).
  destruct (crs_response xa) as [cred|tx] eqn:Ecr.
  2:{ unfold credentials_in, to_wallet in Hra. simpl in Hra. by rewrite Ecr in Hra. }
  assert (is_token (c_log ci) (cr_access_token qa')) as Htok.
  { rewrite Eta, Etok. by eapply token_is_token. }
  destruct (nonce_not_reused ci (f a) (f b) qa' qb' xa cred _ jwt p jwt p nonce Hri Hf Htok (eq_sym Et) Haa Ecr Hp Hnonce
    Hbef Hab' Hp' Hnonce) as [(? & ? & ? & [=])|[=]].
Qed.

Lemma in_made i e : e ∈ calls_of i (c_log c) → ∃ n, made c n i e.
Proof.
  intros H. apply calls_of_elem_pos in H as (n & [i' e' eff] & Hn & Hw & He). simpl in *. subst. exists n. by exists eff.
Qed.
Lemma one_credential i r resp : fresh (c_log ci) → proofs_needed ci → decodes_one_way ci →
  answered c i (HCredentials r) (Ok (HRCredentials resp)) →
  length (concat (map credentials_in (responses (calls_of i (c_log c))))) ≤ 1.
Proof.
  intros Hf Hn Hd Ha.
  assert (∀ q, HX (ECredential q None) ∉ calls_of i (c_log c)) as Hgot.
  { assert (runs (hhandler (HCredentials r)) (calls_of i (c_log c)) (Ok (HRCredentials resp))) as H.
    { by eapply reachable_path. }
    apply runs_bind_ok in H as (es1 & es2 & a & E & H & H2). apply runs_ok in H2 as [-> _].
    rewrite app_nil_r in E. rewrite E. by eapply credentials_got. }
  assert (∀ q x, HX (ECredential q (Some x)) ∈ calls_of i (c_log c) → length (credentials_in x) ≤ 1) as Hone.
  { intros q x Hin. apply in_made in Hin as [n Hm]. destruct (credential_answered _ _ _ _ Hm) as (q' & y & _ & _ & -> & _).
    unfold credentials_in, to_wallet. simpl. destruct (crs_response y); simpl; lia. }
  assert (∀ es1 es2 q x, calls_of i (c_log c) = es1 ++ HX (ECredential q (Some x)) :: es2 →
    ∀ q' x', HX (ECredential q' (Some x')) ∈ es1 → credentials_in x' = []) as Hlast.
  { intros es1 es2 q x E q' x' Hin. apply calls_of_pos in E as (n & [i' e' eff] & Hn' & Hw & He & Ht). simpl in *. subst.
    apply past_made in Hin as (m & Hlt & Hm).
    destruct (credentials_in x') eqn:Ex; [done|exfalso].
    assert (Some x = None) as [=].
    apply (second_refused m n i q' x' q (Some x)); try done; [by rewrite Ex|by exists eff]. }
  assert (∀ es, (∃ es2, calls_of i (c_log c) = es ++ es2) →
    length (concat (map credentials_in (responses es))) ≤ 1) as Hall.
  2:{ apply Hall. exists []. by rewrite app_nil_r. }
  clear Ha. intros es. induction es as [|e es IH] using rev_ind; [simpl; lia|]. intros [es2 E].
  rewrite <-app_assoc in E. simpl in E.
  assert (length (concat (map credentials_in (responses es))) ≤ 1) as IH' by (apply IH; eauto).
  rewrite responses_app, map_app, concat_app, app_length.
  destruct e as [| | |[| | | | | | |q [x|]| | | | | | | | | | | | | |]]; try (simpl; lia).
  assert (concat (map credentials_in (responses es)) = []) as ->.
  { pose proof (Hlast _ _ _ _ E) as Hl. clear - Hl. induction es as [|e es IHe]; [done|].
    assert (concat (map credentials_in (responses es)) = []) as H.
    { apply IHe. intros q' x' Hin. apply (Hl q' x'). by right. }
    change (e :: es) with ([e] ++ es). rewrite responses_app, map_app, concat_app, H.
    destruct e as [| | |[| | | | | | |q' [x'|]| | | | | | | | | | | | | |]]; try done.
    simpl. rewrite (Hl q' x') by (by left). done. }
  simpl. rewrite app_nil_r. apply (Hone q). rewrite E. set_solver.
Qed.

(** ** The data in the credentials *)
Lemma restrict_sub ids l p : p ∈ restrict ids l → p ∈ l.
Proof. destruct ids; simpl; [|done]. by intros [_ H]%elem_of_list_filter. Qed.

Lemma signed_granted k q o r es_c x cred : answered ci k q o →
  (∀ e, e ∈ es_c → e ∈ calls_of k (c_log ci)) → runs (credential r) es_c (Ok x) → crs_response x = CRCredential cred →
  ∃ jwt subj id ds, cred = KString jwt ∧ signed_from ci k jwt (ds_claims ds) ∧
    X (VDataset subj id (Some ds)) ∈ calls_of k (c_log ci) ∧ ds_pending ds = false.
Proof.
  intros Ha Hsub H E. destruct (credential_returned _ _ _ _ H E) as (jwt & -> & [(signer & v & Hin)|(signer & cl & Hin)]).
  - apply Hsub in Hin as Hin'. apply calls_of_elem_pos in Hin' as (n & en & Hn & Hw & He).
    destruct (pos_path _ _ _ _ _ Hri Hn) as (q' & p & es2 & Hq & Hp). rewrite He in Hp.
    apply signed_content in Hp as (r' & h0 & h1 & st & tok & subj & iss & auth & cfg & did & def & types & type & ds &
      status & date & Hh & _ & _ & _ & _ & _ & _ & Hds & Hpd & _ & _ & _ & Hsc).
    exists jwt, subj, (au_identifier auth), ds. split; [done|]. split.
    + eexists. split; [|left; exists signer, v, did; split; [by apply Hsub|apply Hsc]].
      intros p' Hp'. by do 2 apply restrict_sub in Hp'.
    + split; [|done]. eapply calls_take. rewrite Hw in Hh, Hds. exact Hds.
  - apply Hsub in Hin as Hin'. apply calls_of_elem_pos in Hin' as (n & en & Hn & Hw & He).
    destruct (pos_path _ _ _ _ _ Hri Hn) as (q' & p & es2 & Hq & Hp). rewrite He in Hp.
    apply signed_mdl in Hp as (r' & h0 & h1 & st & tok & subj & iss & auth & cfg & did & dt & cs & ds &
      Hh & _ & _ & _ & _ & Hds & Hpd & _ & Hcl).
    exists jwt, subj, (au_identifier auth), ds. split; [done|]. split.
    + exists cl. split; [|right; exists signer; by apply Hsub].
      intros p' Hp'. rewrite Hcl in Hp'. by do 2 apply restrict_sub in Hp'.
    + split; [|done]. eapply calls_take. rewrite Hw in Hh, Hds. exact Hds.
Qed.

(** The dataset was fetched for the grant behind the wallet's own token. *)
Lemma dataset_of_token k q o at_ m j tr tok subj id d : fresh (c_log ci) → answered ci k q o → bearer q = Some at_ →
  made c m j (HX (EToken tr (Some tok))) → at_ = trs_access_token tok →
  X (VDataset subj id d) ∈ calls_of k (c_log ci) → granted_to ci tr subj id.
Proof.
  intros Hf Ha Hb Hm -> Hin.
  destruct (dataset_granted ci k subj id d Hri Hin) as
    (q' & p & at' & st & tk & j' & r & pj & Hq & Hb' & _ & _ & Hj & Hgen & Hat & Hg).
  assert (q' = q) as -> by (unfold answered in Ha; congruence). rewrite Hb in Hb'. injection Hb' as <-.
  rewrite (Hat Hf (token_is_token _ _ _ _ Hm)) in Hgen.
  destruct (token_answered _ _ _ _ Hm) as (tr' & tok' & (_ & _ & Hsame) & Hacc & Hta & Htr).
  apply token_ok in Htr as (st' & t & srv & gts & i' & cl & items & es_i & tk' & nonce & t2 & Hes & _ & _ & _ & _ & _ & _ & Etok).
  assert (X (VGen GToken (trs_access_token tok)) ∈ calls_of (f m) (c_log ci)) as Hin'.
  { rewrite Hacc, Etok, Hes. set_solver. }
  apply calls_of_elem_pos in Hin' as (a & ea & Hpa & Hwa & Hea). apply calls_of_elem_pos in Hgen as (b & eb & Hpb & Hwb & Heb).
  assert (a = b) as -> by (by eapply (fresh_pos (c_log ci))).
  assert (f m = j') as <- by congruence. unfold answered in Hta. rewrite Hta in Hj. injection Hj as <- <-.
  revert Hg. unfold granted_to, presented. by rewrite Hsame.
Qed.

Lemma saved_end_to_end n i cr b : fresh (c_log ci) → made c n i (HX (ESave cr b)) →
  ∃ id m j tr tok k subj ident ds, asked c i (HSave id) ∧ m < n ∧ token_call_for c j id ∧
    made c m j (HX (EToken tr (Some tok))) ∧
    signed_from ci k (wc_issued cr) (ds_claims ds) ∧
    X (VDataset subj ident (Some ds)) ∈ calls_of k (c_log ci) ∧ ds_pending ds = false ∧
    granted_to ci tr subj ident.
Proof.
  intros Hf Hm. destruct (saved_credentials_received c Hr _ _ _ _ Hm) as
    (id & j & q & m1 & m2 & resp & Hi & Hj & Hq & _ & _ & Hlt & Hresp & Hct).
  destruct Hresp as [[cq Hc2]|[dq Hc2]].
  - destruct (credential_request_made c Hr _ _ _ _ Hc2) as (q' & m & j' & tr & tok & Hq' & Hlt' & Htc & Htok & Eat & _).
    destruct (credential_answered _ _ _ _ Hc2) as (cq' & x & Eta & _ & -> & Ha & Hrun). rewrite <-Eta in Eat.
    unfold contains_token, to_wallet in Hct. simpl in Hct. destruct (crs_response x) as [cred|] eqn:Ex; [|done].
    destruct (signed_granted _ _ _ _ _ _ _ Ha (λ e H, H) Hrun Ex) as (jwt & subj & ident & ds & -> & Hs & Hd & Hp).
    injection Hct as ->.
    exists id, m, j', tr, tok, (f m2), subj, ident, ds. split; [done|]. split; [lia|]. split.
    { destruct Hq as [(r & -> & <-)|(tx & cfg & ->)], Hj as [? Hj], Hq' as [? Hq']; rewrite Hj in Hq'; by simplify_eq. }
    split; [done|]. split; [done|]. split; [done|]. split; [done|].
    eapply (dataset_of_token (f m2)); [done|exact Ha|reflexivity|exact Htok|done|exact Hd].
  - destruct (deferred_request_made c Hr _ _ _ _ Hc2) as (id' & tx & cfg & m & j' & tr & tok & Hq' & Hlt' & Htc & Htok & ->).
    destruct (deferred_answered _ _ _ _ Hc2) as (x & -> & Ha & Hrun).
    unfold contains_token, to_wallet in Hct. simpl in Hct. destruct (crs_response x) as [cred|] eqn:Ex; [|done].
    destruct (proj1 (deferred_iff _ _ _ x Hrun) eq_refl) as (h0 & es_c & cr0 & cc & Hes & Hcr & Hrc & _).
    assert (∀ e, e ∈ es_c → e ∈ calls_of (f m2) (c_log ci)) as Hsub by (intros e He; rewrite Hes; set_solver).
    destruct (signed_granted _ _ _ _ _ _ _ Ha Hsub Hrc Ex) as (jwt & subj & ident & ds & -> & Hs & Hd & Hp).
    injection Hct as ->.
    exists id, m, j', tr, tok, (f m2), subj, ident, ds. split; [done|]. split; [lia|]. split.
    { destruct Hq as [(r & -> & <-)|(tx' & cfg' & ->)], Hj as [? Hj], Hq' as [? Hq']; rewrite Hj in Hq'; by simplify_eq. }
    split; [done|]. split; [done|]. split; [done|]. split; [done|].
    eapply (dataset_of_token (f m2)); [done|exact Ha|reflexivity|exact Htok|done|exact Hd].
Qed.

(** With the authorization code flow, the subject is the one the wallet named. *)
Lemma authorized_subject m j tr tok code u v subj ident : fresh (c_log ci) →
  made c m j (HX (EToken tr (Some tok))) → tr_grant tr = TGAuthorizationCode code u v →
  granted_to ci tr subj ident →
  ∃ m' req resp, m' < m ∧ made c m' j (HX (EAuthorization req (Some resp))) ∧ ro_subject_id req = subj.
Proof.
  intros Hf Hm Eg (k & q & p & cfg & ids & Hk & Hgen & _ & _ & Hq).
  destruct (pkce_answered c _ _ _ _ _ _ _ Hr Hm Eg) as (a & a' & req & resp & vf & Hlt & Ha & _ & _ & _ & _ & -> & _).
  unfold presented in Hgen. rewrite Eg in Hgen, Hq.
  destruct (cd_answer _ _ _ Hc _ _ _ Ha eq_refl) as (q' & r & Han & Hd). destruct r; try done. destruct Hd as [(req' & -> & Hsame) ->].
  exists a, req, r. split; [done|]. split; [done|].
  assert (X (VGen GAuthCode (ar_code r)) ∈ calls_of (f a) (c_log ci)) as Hin.
  { apply answered_runs in Han; [|done]. apply handler_ok in Han as (y & [= <-] & Hy).
    apply IssuerAuthorize.authorize_records in Hy as (ro & h0 & h1 & iss & t & its & -> & _ & _ & Hgen' & _). set_solver. }
  apply calls_of_elem_pos in Hin as (x & ex & Hx & Hwx & Hex). apply calls_of_elem_pos in Hgen as (y & ey & Hy & Hwy & Hey).
  assert (x = y) as -> by (by eapply (fresh_pos (c_log ci))).
  assert (f a = k) as <- by congruence. unfold answered in Han. rewrite Han in Hk. injection Hk as <- <-.
  destruct Hq as (ro & Hro & <-). destruct Hro as [[= ->]|(t & jj & pp & [=] & _)]. done.
Qed.
End compose.
