(** When token and credential requests go through. *)
From Verif Require Import Base Json CoreModel VcModel Prog ProgFacts ExecSpec ExecFacts IssuerTypes ClaimsModel
  Sha256 IssuerModel IssuerSpec IssuerFacts IssuerWp IssuerExec AuthorizeSpec IssuerClaims IssuerAuthorize IssuerOffer
  IssuerToken IssuerCredential RedeemSpec.

(** ** Running step by step *)

Section steps.
Context {A B : Type}.
Implicit Types (f : A → iprog B) (es : list ievent).

Lemma step_assoc {C} (m : iprog C) (g : C → iprog A) f es o :
  runs (bind (bind m g) f) es o → runs (bind m (λ x, bind (g x) f)) es o.
Proof.
  intros [(e1 & e2 & a & -> & Hm & Hf)|[(e & Hm & ->)|(w & Hm & ->)]]%runs_bind.
  - apply runs_bind in Hm as [(e3 & e4 & c & -> & Hc & Hg)|[(e & _ & ?)|(w & _ & ?)]]; [|done..].
    apply runs_bind. left. eexists _, _, _. split; [by rewrite <-app_assoc|]. split; [done|].
    apply runs_bind. left. eauto 8.
  - apply runs_bind in Hm as [(e3 & e4 & c & -> & Hc & Hg)|[(e' & H & [= <-])|(w & _ & ?)]]; [|..|done].
    + apply runs_bind. left. eexists _, _, _. split; [done|]. split; [done|]. apply runs_bind. right. left. eauto.
    + apply runs_bind. right. left. eauto.
  - apply runs_bind in Hm as [(e3 & e4 & c & -> & Hc & Hg)|[(e' & H & ?)|(w' & H & [= <-])]]; [|done|].
    + apply runs_bind. left. eexists _, _, _. split; [done|]. split; [done|]. apply runs_bind. right. right. eauto.
    + apply runs_bind. right. right. eauto.
Qed.
Lemma step_ok (a : A) f es o : runs (bind (ok a) f) es o → runs (f a) es o.
Proof. done. Qed.
Lemma step_lift (x : A) f es o : runs (bind (lift (Ok x)) f) es o → runs (f x) es o.
Proof. done. Qed.
Lemma step_some (a : A) e f es o : runs (bind (of_opt (Some a) e) f) es o → runs (f a) es o.
Proof. done. Qed.
End steps.
Section calls.
Context {B : Type}.
Implicit Types (es : list ievent) (o : outcome error B).
Lemma step_ensure b e (f : unit → iprog B) es o : b = true → runs (bind (ensure b e) f) es o → runs (f tt) es o.
Proof. by intros ->. Qed.
Lemma step_x x (f : ians x → iprog B) es o : runs (bind (xcall x) f) es o → ∃ r es', es = X (imk x r) :: es' ∧ runs (f r) es' o.
Proof. unfold runs. destruct es as [|e es]; simpl; [done|]. intros (r & -> & H). eauto. Qed.
Lemma step_now (f : Z → iprog B) es o : runs (bind now f) es o → ∃ r es', es = X (VNow r) :: es' ∧ runs (f r) es' o.
Proof. unfold runs. destruct es as [|e es]; simpl; [done|]. intros (r & -> & H). eauto. Qed.
Lemma step_gen g (f : string → iprog B) es o : runs (bind (gen g) f) es o → ∃ r es', es = X (VGen g r) :: es' ∧ runs (f r) es' o.
Proof. unfold runs. destruct es as [|e es]; simpl; [done|]. intros (r & -> & H). eauto. Qed.
Lemma step_get k (f : option state → iprog B) es o : runs (bind (sget k) f) es o → ∃ r es', es = Get k r :: es' ∧ runs (f r) es' o.
Proof. unfold runs. destruct es as [|e es]; simpl; [done|]. intros (r & -> & H). eauto. Qed.
Lemma step_put k v x e (f : unit → iprog B) es o : runs (bind (sput k v x e) f) es o →
  ∃ r es', es = Put k v x r :: es' ∧ (r = true → runs (f tt) es' o).
Proof.
  unfold runs. destruct es as [|e' es]; simpl; [done|]. intros (r & -> & H). eexists _, _. split; [done|].
  by intros ->.
Qed.
Lemma step_purge k e (f : unit → iprog B) es o : runs (bind (spurge k e) f) es o →
  ∃ r es', es = Purge k r :: es' ∧ (r = true → runs (f tt) es' o).
Proof.
  unfold runs. destruct es as [|e' es]; simpl; [done|]. intros (r & -> & H). eexists _, _. split; [done|].
  by intros ->.
Qed.
End calls.

(** ** token *)

Lemma scopes_spec cl srv : scopes_supported cl srv →
  ∃ sc sup, cl_scope cl = Some sc ∧ sv_scopes_supported srv = Some sup ∧
    forallb (contains sup) (split_whitespace sc) = true.
Proof.
  intros (sc & sup & ? & ? & H). exists sc, sup. split_and!; try done. by apply forallb_contains.
Qed.

Lemma detail_matched_spec iss all d :
  (∃ it, detail_matched iss all d it) ↔ (∃ it, it ∈ all ∧ item_matches d it) ∧ acceptable iss d.
Proof.
  unfold detail_matched. split.
  - intros (it & Hf & Hc). apply find_item_spec in Hf as (l1 & l2 & -> & Hm & _). split.
    + exists it. split; [|done]. apply elem_of_app. right. left.
    + destruct Hc as (id & claims & [Hcf ->]%requested_credential_spec & Hv).
      exists id. split; [done|]. intros cs Hcs. destruct (Hv cs Hcs) as (cfg & Ha & Hv').
      exists cfg. split; [done|]. by apply verify_claims_spec.
  - intros [(it & Hin & Hm) (id & Hcf & Hv)]. destruct (find_item (ad_credential d) all) as [it'|] eqn:E.
    + exists it'. split; [done|]. exists id, (narrowed d). split; [by apply requested_credential_spec|].
      intros cs Hcs. destruct (Hv cs Hcs) as (cfg & Ha & Hv'). exists cfg. split; [done|].
      by apply verify_claims_spec.
    + exfalso. revert E Hm. clear Hv. induction all as [|x all IH]; [by apply elem_of_nil in Hin|].
      intros E Hm. simpl in E. apply elem_of_cons in Hin as [<-|Hin].
      * destruct Hm as (d' & Hd' & Hs). rewrite Hd' in E.
        rewrite (proj2 (credential_authorization_eqb_spec _ _) Hs) in E. done.
      * apply IH; [done| |done]. destruct (ai_item x); [|done]. by destruct (credential_authorization_eqb _ _).
Qed.

Lemma retain_goes_on r items ds iss {B} (f : list authorized_item → iprog B) es o :
  tr_authorization_details r = Some ds →
  (∀ d, d ∈ ds → ∃ it, detail_matched iss items d it) →
  runs (bind (retain_details r items) f) (X (VIssuer (tr_credential_issuer r) (Some iss)) :: es) o →
  ∃ items', Forall2 (detail_matched iss items) ds items' ∧ runs (f items') es o.
Proof.
  unfold retain_details. intros -> Hd H. apply step_assoc in H.
  apply step_x in H as (iss' & es' & [= <- <-] & H). apply step_assoc, step_some in H.
  revert f es o Hd H. induction ds as [|d ds IH]; intros f es o Hd H; cbn [mapM_prog] in H.
  { apply step_ok in H. exists []. by split; [constructor|]. }
  apply step_assoc in H. destruct (Hd d) as (it & Hf & id & cl & Hr & Hc); [left|].
  rewrite Hf in H. apply step_assoc in H. unfold token_verify_claims in H. rewrite Hr in H.
  apply step_assoc, step_some in H.
  assert (runs (bind (ok it) (λ x : authorized_item, bind (bind (mapM_prog (λ auth_det : authorization_detail,
              match find_item (ad_credential auth_det) items with
              | Some item => token_verify_claims iss (ad_credential auth_det);; ok item
              | None => fail (AccessDenied "requested credential has not been authorized")
              end) ds) (λ bs, ok (x :: bs))) f)) es o) as H'.
  { destruct cl as [cs|]; [|done]. destruct (Hc cs eq_refl) as (cfg & Ha & Hv). rewrite Ha in H.
    apply step_assoc, step_some in H. apply step_ensure in H; [|done]. done. }
  clear H. apply step_ok, step_assoc in H'.
  destruct (IH (λ bs, bind (ok (it :: bs)) f) es o) as (items' & Hl & Hrun); [intros; apply Hd; by right|done|].
  apply step_ok in Hrun. exists (it :: items'). split; [|done]. constructor; [|done].
  split; [done|]. eauto.
Qed.

Lemma not_failed_cons e es : (∀ x : ievent, x ∈ e :: es → ¬ failed x) → ¬ failed e ∧ ∀ x, x ∈ es → ¬ failed x.
Proof. intros H. split; [apply H; left|]. intros x Hx. apply H. by right. Qed.

Lemma process_goes_on st items es o :
  runs (bind (gen GToken) (λ access_token, bind (gen GNonce) (λ c_nonce, bind now (λ t,
    sput access_token (State (s_subject_id st)
               (Validated (Token access_token c_nonce (t + expire_nonce)%Z (authorized_credentials items)))
               (s_expires_at st)) (s_expires_at st) (ServerError "issue saving state") ;;
    ok (TokenResponse access_token (num_seconds expire_access) (Some c_nonce)
        (Some (num_seconds expire_nonce)) (authorized_details items)))))) es o →
  (∀ e, e ∈ es → ¬ failed e) → ∃ resp, o = Ok resp.
Proof.
  intros H Hn. apply step_gen in H as (? & ? & -> & H). apply step_gen in H as (? & ? & -> & H).
  apply step_now in H as (? & ? & -> & H). apply step_put in H as (b & ? & -> & H).
  destruct b; [|exfalso; eapply Hn; [do 3 apply elem_of_list_further; apply elem_of_list_here|exact I]].
  specialize (H eq_refl). apply runs_ret in H as [_ <-]. eauto.
Qed.

Definition token_condition (r : token_request) (es : list ievent) : Prop :=
  ∃ st t srv id cl es',
    es = Get (presented r) (Some st) :: Purge (presented r) true :: X (VNow t) ::
         X (VServer (tr_credential_issuer r) None (Some srv)) :: X (VClient id (Some cl)) :: es' ∧
    live st t ∧ grant_answered code_challenge srv st r ∧ tr_client_id r = Some id ∧ scopes_supported cl srv ∧
    selection_answered st r es' ∧ ∀ e, e ∈ es' → ¬ failed e.

Lemma token_goes_through r es o : runs (token r) es o → token_condition r es → ∃ resp, o = Ok resp.
Proof.
  intros H (st & t & srv & id & cl & es' & -> & Hl & (gts & Hg & Hgr) & Hid & Hsc & Hsel & Hn).
  unfold token in H. rewrite presented_key in H.
  apply step_get in H as (st' & e1 & [= <- <-] & H). apply step_some in H.
  apply step_purge in H as (b & e2 & [= <- <-] & H). specialize (H eq_refl).
  unfold token_verify in H. apply step_assoc in H. apply step_now in H as (t' & e3 & [= <- <-] & H).
  apply step_assoc in H. apply step_ensure in H; [|by rewrite (proj2 (is_expired_false _ _) Hl)].
  apply step_assoc in H. apply step_x in H as (srv' & e4 & [= <- <-] & H). apply step_assoc, step_some in H.
  rewrite Hg in H. apply step_assoc, step_some in H. apply step_assoc in H.
  destruct (scopes_spec _ _ Hsc) as (sc & sup & Hc1 & Hc2 & Hc3).
  assert (∀ B (f : unit → iprog B) es (o : outcome error B), runs (bind (check_scopes cl srv) f) es o → runs (f tt) es o) as Hcs.
  { intros B f es'' o'' H'. unfold check_scopes in H'. rewrite Hc1, Hc2 in H'. by apply step_ensure in H'. }
  unfold token_process in H. unfold selection_answered in Hsel.
  destruct (tr_grant r) as [code u v|code tx] eqn:Egr.
  - destruct Hgr as (Hgt & a & cv & Hs & Hcl & -> & -> & Hch). rewrite Hs in H. rewrite Hid in Hcl. injection Hcl as ->.
    apply step_assoc in H. apply step_ensure in H; [|by apply bool_decide_eq_true].
    rewrite Hid in H. apply step_assoc, step_some in H.
    apply step_assoc in H. apply step_ensure in H; [|by apply bool_decide_eq_true].
    apply step_assoc in H. apply step_ensure in H; [|by apply bool_decide_eq_true].
    apply step_assoc, step_some in H. apply step_ensure in H; [|by apply bool_decide_eq_true].
    apply step_assoc in H. apply step_x in H as (cl' & e5 & [= <- <-] & H). apply step_assoc, step_some in H.
    apply Hcs in H. apply step_ok in H. by eapply process_goes_on.
  - destruct Hgr as (Hgt & Han & off & Hs & Hit & ->). rewrite Hs in H.
    destruct (off_items off) as [items|] eqn:Eit; [|done].
    apply step_assoc in H. apply step_ensure in H; [|by apply bool_decide_eq_true].
    rewrite Hid in H. apply step_assoc in H. apply step_ensure in H.
    2:{ destruct (str_is_empty id) eqn:Ee; [|done]. apply str_is_empty_true in Ee as ->. simpl.
        rewrite Han; [done|]. by rewrite Hid. }
    apply step_ensure in H; [|by apply bool_decide_eq_true].
    apply step_assoc in H. apply step_x in H as (cl' & e5 & [= <- <-] & H). apply step_assoc, step_some in H.
    apply Hcs in H. apply step_assoc, step_some in H.
    destruct (tr_authorization_details r) as [ds|] eqn:Ed.
    + destruct Hsel as (iss & es'' & -> & Hall).
      eapply (retain_goes_on _ _ ds iss) in H as (items' & Hf & H); [|done|].
      2:{ intros d Hd. apply detail_matched_spec. apply (Hall items d); [|done]. left. eauto. }
      eapply process_goes_on; [done|]. intros e He. apply Hn. by right.
    + unfold retain_details in H. rewrite Ed in H. apply step_ok in H. by eapply process_goes_on.
Qed.

Lemma token_condition_met r es resp : runs (token r) es (Ok resp) → token_condition r es.
Proof.
  intros H. apply token_ok in H as (st & t & srv & gts & id & cl & items & es_i & tok & nonce & t2 & H).
  cbv zeta in H. rewrite presented_key in H.
  destruct H as (-> & Hexp & Hg & Hgr & Hid & (sc & sup & Hs1 & Hs2 & Hs3) & Hit & ->).
  exists st, t, srv, id, cl. eexists. split; [reflexivity|].
  split; [by apply is_expired_false|]. split; [|split; [done|split; [|split]]].
  - exists gts. split; [done|]. unfold grant_checked in Hgr. destruct (tr_grant r) as [code u v|code tx] eqn:E.
    + destruct Hgr as (a & cv & ? & ? & ? & ? & ? & ?). split; [done|]. exists a, cv. done.
    + destruct Hgr as (o & id' & ? & ? & Hid' & Han & ?). split; [done|]. split.
      { intros Hid''. apply Han. congruence. }
      exists o. split; [done|]. split; [|done]. unfold token_items in Hit. rewrite E in Hit.
      destruct Hit as (o' & its & ? & ? & _). intros ?. congruence.
  - exists sc, sup. split; [done|]. split; [done|]. by apply forallb_contains.
  - unfold selection_answered. unfold token_items in Hit. destruct (tr_grant r) as [code u v|code tx] eqn:E; [done|].
    destruct Hit as (o & its & Ho & Hi & Hit). destruct (tr_authorization_details r) as [ds|]; [|done].
    destruct Hit as (iss & -> & Hf). exists iss. eexists. split; [reflexivity|].
    intros all d Hall Hd. apply detail_matched_spec.
    assert (all = its) as ->.
    { destruct Hall as [(o' & Ho' & Hi')|(a & Ha & _)]; congruence. }
    apply elem_of_list_lookup in Hd as (n & Hn). destruct (Forall2_lookup_l _ _ _ _ _ Hf Hn) as (it & _ & ?). eauto.
  - intros e. rewrite elem_of_app. intros [He|He].
    + unfold token_items in Hit. destruct (tr_grant r).
      * destruct Hit as (a & _ & _ & ->). by apply elem_of_nil in He.
      * destruct Hit as (o & its & _ & _ & Hit). destruct (tr_authorization_details r).
        -- destruct Hit as (iss & -> & _). apply elem_of_list_singleton in He as ->. by intros [].
        -- destruct Hit as [-> _]. by apply elem_of_nil in He.
    + rewrite !elem_of_cons, elem_of_nil in He. destruct He as [->|[->|[->|[->|[]]]]]; by intros [].
Qed.

Lemma token_iff r es o : runs (token r) es o → ((∃ resp, o = Ok resp) ↔ token_condition r es).
Proof.
  intros H. split; [|by apply token_goes_through]. intros [resp ->]. by eapply token_condition_met.
Qed.

(** ** credential *)

Definition credential_condition (r : credential_request) (es : list ievent) : Prop :=
  ∃ st tok iss auth cfg ow t1 t2 pe es',
    es = Get (cr_access_token r) (Some st) :: X (VIssuer (cr_credential_issuer r) (Some iss)) ::
         ow ++ X (VNow t1) :: X (VNow t2) :: pe ++ es' ∧
    s_stage st = Validated tok ∧ asked_for iss tok (cr_credential r) auth ∧ walked (cr_credential r) ow ∧
    assoc (au_configuration_id auth) (is_configurations iss) = Some cfg ∧
    live st t1 ∧ nonce_live tok t2 ∧ proof_given cfg (tk_c_nonce tok) (cr_proof r) pe ∧
    s_subject_id st ≠ None ∧
    (issuable iss cfg ∨ ∃ subj id ds, X (VDataset subj id (Some ds)) ∈ es' ∧ ds_pending ds = true) ∧
    ∀ e, e ∈ es' → ¬ failed e.

Lemma find_authorized_some cid l id (a : authorized) :
  (id, a) ∈ l → au_configuration_id a = cid → ∃ a', find_authorized cid l = Some a' ∧ au_configuration_id a' = cid.
Proof.
  induction l as [|[k b] l IH]; intros Hin Ha; [by apply elem_of_nil in Hin|]. simpl.
  case_bool_decide as Hb; [eauto|]. apply IH; [|done]. apply elem_of_cons in Hin as [[= -> ->]|]; done.
Qed.

Lemma authorized_goes_on st iss r tok auth ow {B} (f : authorized → iprog B) es o :
  s_stage st = Validated tok → asked_for iss tok (cr_credential r) auth → walked (cr_credential r) ow →
  runs (bind (credential_authorized st iss r) f) (ow ++ es) o →
  ∃ auth', au_configuration_id auth' = au_configuration_id auth ∧ runs (f auth') es o.
Proof.
  unfold credential_authorized, asked_for, walked. intros -> Ha Hw H.
  destruct (cr_credential r) as [id|fm].
  - subst ow. apply step_assoc, step_ok in H. rewrite Ha in H. exists auth. done.
  - destruct Hw as (n & ix & ->). destruct Ha as ((id & Hin) & l1 & cfg & l2 & Hc & Hs & Hl).
    assert (configuration_id_for iss fm = Some (au_configuration_id auth)) as Hcid.
    { apply find_configuration_spec. eauto 8. }
    rewrite Hcid in H. do 2 apply step_assoc in H. apply step_some in H.
    unfold iterate in H. apply step_assoc in H. apply step_assoc in H.
    apply step_x in H as (ix' & es' & [= -> <- <-] & H). apply step_ok, step_ok in H.
    destruct (find_authorized_some (au_configuration_id auth) (permute ix (tk_credentials tok)) id auth) as (a' & Ha' & Hc'); [|done|].
    { by rewrite permute_perm. }
    rewrite Ha' in H. exists a'. done.
Qed.

Lemma proofs_go_on st nonce jwts pe {B} (f : string → iprog B) es o did :
  proofs_in_order nonce jwts pe → runs (bind (verify_proofs st nonce jwts did) f) (pe ++ es) o →
  ∃ did', runs (f did') es o.
Proof.
  unfold proofs_in_order. intros Hf. revert did. induction Hf as [|jwt e jwts pe (p & kid & -> & Ht & Hn & Hk) Hf IH]; intros did H.
  { exists did. exact H. }
  cbn [verify_proofs] in H. apply step_assoc in H. apply step_x in H as (d & es' & [= <- <-] & H).
  rewrite Ht, Hk, bool_decide_true in H by done. cbn [negb] in H. eauto.
Qed.

Lemma verify_goes_on st tok cfg r t1 t2 pe {B} (f : string → iprog B) es o :
  s_stage st = Validated tok → live st t1 → nonce_live tok t2 → proof_given cfg (tk_c_nonce tok) (cr_proof r) pe →
  runs (bind (credential_verify st cfg r) f) (X (VNow t1) :: X (VNow t2) :: pe ++ es) o →
  ∃ did, runs (f did) es o.
Proof.
  unfold credential_verify, proof_given. intros -> Hl Hn Hp H.
  apply step_assoc in H. apply step_now in H as (? & ? & [= <- <-] & H).
  apply step_assoc in H. apply step_ensure in H; [|by rewrite (proj2 (is_expired_false _ _) Hl)].
  apply step_assoc in H. apply step_now in H as (? & ? & [= <- <-] & H).
  apply step_assoc in H. apply step_ensure in H; [|by rewrite (proj2 (c_nonce_expired_false _ _) Hn)].
  destruct (cc_proof_types cfg) as [types|].
  - destruct Hp as (Hj & p & Hpr & Ho). rewrite Hpr in H. apply step_assoc in H.
    apply step_ensure in H; [|by apply bool_decide_eq_true]. by eapply proofs_go_on.
  - subst pe. apply step_ok in H. eauto.
Qed.

(** One of the calls has failed. *)
Ltac nf Hn := exfalso; first
    [ eapply Hn; [do 0 apply elem_of_list_further; apply elem_of_list_here|exact I]
    | eapply Hn; [do 1 apply elem_of_list_further; apply elem_of_list_here|exact I]
    | eapply Hn; [do 2 apply elem_of_list_further; apply elem_of_list_here|exact I]
    | eapply Hn; [do 3 apply elem_of_list_further; apply elem_of_list_here|exact I]
    | eapply Hn; [do 4 apply elem_of_list_further; apply elem_of_list_here|exact I]
    | eapply Hn; [do 5 apply elem_of_list_further; apply elem_of_list_here|exact I]
    | eapply Hn; [do 6 apply elem_of_list_further; apply elem_of_list_here|exact I]
    | eapply Hn; [do 7 apply elem_of_list_further; apply elem_of_list_here|exact I]
    | eapply Hn; [do 8 apply elem_of_list_further; apply elem_of_list_here|exact I] ].
Lemma build_ok b i s : length (vc_context b) = 2 → quota_len (vc_type b) = 2 → vc_issuer b = KString i → i ≠ "" →
  vc_subject b = QOne s → cs_is_default s = false → vcb_build b = Ok b.
Proof. unfold vcb_build. intros -> -> -> Hi -> ->. simpl. by rewrite (proj2 (str_is_empty_false _) Hi). Qed.
Lemma build_no_issuer b v : vc_issuer b = KString "" → vcb_build b ≠ Ok v.
Proof. unfold vcb_build. intros ->. do 2 (destruct (Nat.ltb _ _); [done|]). done. Qed.
Lemma vc_for_builds iss cfg ctype did status claims : is_credential_issuer iss ≠ "" →
  ∃ v vcl, vc_for iss cfg ctype did status claims = Ok v ∧ ∀ t, vc_claims_from v t = @Ok error _ (vcl t).
Proof.
  intros Hi. unfold vc_for. destruct (match cc_display cfg with Some l => create_names l | None => (None, None) end) as [n d].
  match goal with |- context [vcb_build ?x] => set (b := x) end.
  assert (vc_subject b = QOne (CredentialSubject (Some did) claims)) as Hs by reflexivity.
  assert (vcb_build b = Ok b) as ->.
  { eapply (build_ok b (is_credential_issuer iss)); [reflexivity|reflexivity|reflexivity|done|exact Hs|reflexivity]. }
  exists b. eexists (λ t, VcClaims did None _ t _ _ b). split; [done|]. intros t. unfold vc_claims_from. by rewrite Hs.
Qed.
Lemma issue_goes_on st tok iss cfg did r ds es o :
  s_stage st = Validated tok → issuable iss cfg → s_subject_id st ≠ None → (∀ e, e ∈ es → ¬ failed e) →
  runs (issue_response st iss cfg did r ds) es o → ∃ resp, o = Ok resp.
Proof.
  intros Hs Hi Hsub Hn H. unfold issue_response in H. rewrite Hs in H.
  apply step_now in H as (? & ? & -> & H). apply step_x in H as (sg & ? & -> & H). cbn [ians imk] in sg, Hn.
  destruct sg; [|nf Hn]. apply step_ensure in H; [|done].
  assert (∀ resp es2, (∀ e, e ∈ es2 → ¬ failed e) →
    runs (bind now (λ t1, bind (gen GNonce) (λ c_nonce, bind now (λ t2,
      let token' := Token (tk_access_token tok) c_nonce (t2 + expire_nonce)%Z (tk_credentials tok) in
      let st' := State (s_subject_id st) (Validated token') (t1 + expire_access)%Z in
      sput (tk_access_token token') st' (t1 + expire_access)%Z (ServerError "issue saving state") ;;
      let! notification_id := gen GNotificationId in
      sput notification_id st' (t1 + expire_access)%Z (ServerError "issue saving state") ;;
      let! t3 := now in
      ok (CredentialResponse resp (Some c_nonce) (Some (c_nonce_expires_in token' t3))
            (Some notification_id)))))) es2 o → ∃ resp, o = Ok resp) as Hfin.
  { clear H Hn. intros resp es2 Hn H. apply step_now in H as (? & ? & -> & H). apply step_gen in H as (? & ? & -> & H).
    apply step_now in H as (? & ? & -> & H). cbv zeta in H. apply step_put in H as (b & ? & -> & H). destruct b; [|nf Hn].
    specialize (H eq_refl). apply step_gen in H as (? & ? & -> & H). apply step_put in H as (b & ? & -> & H). destruct b; [|nf Hn].
    specialize (H eq_refl). apply step_now in H as (? & ? & -> & H). apply runs_ret in H as [_ <-]. eauto. }
  unfold issuable in Hi. destruct (cc_format cfg) as [def|def|def|dt cs|vct cs]; try done.
  - destruct Hi as (Hne & types & Ht & Hlen). destruct (types !! 1) as [ct|] eqn:Ect.
    2:{ apply lookup_ge_None in Ect. lia. }
    destruct (s_subject_id st) as [subj|] eqn:Esub; [|done].
    unfold w3c_vc in H. rewrite Ht, Esub in H. do 2 apply step_assoc in H. apply step_some in H.
    rewrite Ect in H. do 2 apply step_assoc in H. apply step_some in H.
    apply step_x in H as (status & ? & -> & H). cbn [ians imk] in status, Hn. destruct status as [status|]; [|nf Hn].
    apply step_assoc in H. apply step_some in H.
    destruct (vc_for_builds iss cfg ct did status (ds_claims ds) Hne) as (v & vcl & Hv & Hvc).
    unfold vc_for in Hv.
    destruct (match cc_display cfg with Some l => create_names l | None => (None, None) end) as [n d].
    rewrite Hv in H. apply step_assoc, step_ok in H. unfold jwt_vc_json in H. rewrite Hvc in H.
    apply step_assoc, step_lift in H. apply step_x in H as (jwt & ? & -> & H).
    cbn [ians imk] in jwt, Hn. destruct jwt as [jwt|]; [|nf Hn].
    apply step_assoc, step_some, step_ok in H. eapply Hfin; [|done]. intros e He. apply Hn. by do 4 right.
  - unfold mso_mdoc in H. apply step_assoc in H. apply step_x in H as (mdl & ? & -> & H). cbn [ians imk] in mdl, Hn.
    destruct mdl as [mdl|]; [|nf Hn]. apply step_assoc, step_some, step_ok in H. eapply Hfin; [|done].
    intros e He. apply Hn. by do 3 right.
Qed.

Lemma issue_no_dataset st iss cfg did r ds es o subj id x :
  runs (issue_response st iss cfg did r ds) es o → X (VDataset subj id x) ∈ es → False.
Proof.
  intros H (es1 & es2 & ->)%elem_of_list_split.
  assert (wp (λ _ e, ∀ s i d, e ≠ X (VDataset s i d)) (λ _ _, True) (issue_response st iss cfg did r ds) []) as Hw.
  { unfold issue_response, w3c_vc, jwt_vc_json, mso_mdoc. iwp. destruct (vc_claims_from _ _); [|done..]. iwp. }
  by apply (wp_event _ _ _ _ _ _ _ _ Hw H subj id x).
Qed.
Lemma credential_goes_through r es o : runs (credential r) es o → credential_condition r es → ∃ resp, o = Ok resp.
Proof.
  intros H (st & tok & iss & auth & cfg & ow & t1 & t2 & pe & es' & -> & Hs & Ha & Hw & Hc & Hl & Hnl & Hp & Hsub & Hi & Hn).
  unfold credential in H. apply step_get in H as (? & ? & [= <- <-] & H). apply step_some in H.
  apply step_x in H as (? & ? & [= <- <-] & H). apply step_some in H.
  eapply authorized_goes_on in H as (auth' & Hc' & H); [|done..]. rewrite Hc', Hc in H. apply step_some in H.
  eapply verify_goes_on in H as (did & H); [|done..]. unfold credential_process, credential_dataset in H.
  destruct (s_subject_id st) as [subj|] eqn:Esub; [|done].
  apply step_assoc, step_some in H. apply step_assoc in H. apply step_x in H as (ds & es2 & -> & H).
  cbn [ians imk] in ds, Hn, Hi. destruct ds as [ds|]; [|nf Hn].
  apply step_assoc, step_some, step_ok in H. cbn [ds_pending] in H. destruct (ds_pending ds) eqn:Epd.
  - unfold defer_response in H. apply step_gen in H as (? & ? & -> & H). apply step_now in H as (? & ? & -> & H).
    apply step_put in H as (b & ? & -> & H). destruct b; [|nf Hn]. specialize (H eq_refl).
    apply runs_ret in H as [_ <-]. eauto.
  - destruct Hi as [Hi|(subj' & id & ds' & Hin & Hpd)].
    + eapply (issue_goes_on st tok); [done|done|by rewrite Esub| |exact H].
      intros e He. apply Hn. by right.
    + exfalso. apply elem_of_cons in Hin as [[= -> -> ->]|Hin]; [congruence|].
      by eapply issue_no_dataset in H.
Qed.

Lemma selected_asked iss tok c es auth : credential_selected iss tok c es auth → asked_for iss tok c auth ∧ walked c es.
Proof.
  unfold credential_selected, asked_for, walked. destruct c as [id|f]; [by intros [? ?]|].
  intros (cid & ix & Hc & -> & Hf). apply find_authorized_elem in Hf as (<- & id & Hin). split; [|eauto].
  split; [exists id; by rewrite permute_perm in Hin|]. by apply find_configuration_spec in Hc.
Qed.

Lemma credential_condition_met r es resp : runs (credential r) es (Ok resp) → credential_condition r es.
Proof.
  intros H. apply credential_ok in H as (st & tok & iss & es_o & auth & cfg & t1 & t2 & es_p & did & subj & ds0 & es_t &
    -> & Hs & Hsel & Hc & Hl & Hnl & Hp & Hsub & Ht).
  destruct (selected_asked _ _ _ _ _ Hsel) as [Ha Hw].
  exists st, tok, iss, auth, cfg, es_o, t1, t2, es_p. eexists. split; [simpl; reflexivity|].
  split_and!; [done|done|done|done|by apply is_expired_false|by apply c_nonce_expired_false| |congruence|..].
  - unfold proof_checked in Hp. unfold proof_given. destruct (cc_proof_types cfg); [|by destruct Hp].
    destruct Hp as (Hj & p & Hpr & Hf & _). split; [done|]. exists p. split; [done|]. by destruct p.
  - destruct (ds_pending ds0) eqn:Epd; [right; eexists _, _, _; split; [left|done]|left].
    destruct Ht as (t0 & es_b & jwt & t3 & nonce & t4 & nid & t5 & -> & Hi & _).
    unfold issuable. unfold issued_by in Hi. destruct (cc_format cfg) as [def|def|def|dt cs|vct cs]; try done.
    destruct Hi as (types & ct & sb & status & v & vcl & Hty & Hct & _ & Hv & _). split.
    + intros He. revert Hv. unfold vc_for.
      destruct (match cc_display cfg with Some l => create_names l | None => (None, None) end) as [n d].
      rewrite He. match goal with |- context [vcb_build ?x] => set (b := x) end.
      assert (vc_issuer b = KString "") as Hb by reflexivity.
      by apply build_no_issuer.
    + exists types. split; [done|]. apply lookup_lt_Some in Hct. lia.
  - intros e. rewrite elem_of_cons. intros [->|He]; [by intros []|]. destruct (ds_pending ds0).
    + destruct Ht as (txn & t & -> & _). rewrite !elem_of_cons, elem_of_nil in He. destruct He as [->|[->|[->|[]]]]; by intros [].
    + destruct Ht as (t0 & es_b & jwt & t3 & nonce & t4 & nid & t5 & -> & Hi & _).
      rewrite !elem_of_app, !elem_of_cons, !elem_of_nil in He.
      destruct He as [[->|[->|[]]]|[He|[->|[->|[->|[->|[->|[->|[->|[]]]]]]]]]]; try by intros [].
      unfold issued_by in Hi. destruct (cc_format cfg) as [def|def|def|dt cs|vct cs]; try done.
      * destruct Hi as (types & ct & sb & status & v & vcl & _ & _ & _ & _ & _ & ->).
        rewrite !elem_of_cons, elem_of_nil in He. destruct He as [->|[->|[]]]; by intros [].
      * subst es_b. apply elem_of_list_singleton in He as ->. by intros [].
Qed.

Lemma credential_iff r es o : runs (credential r) es o → ((∃ resp, o = Ok resp) ↔ credential_condition r es).
Proof.
  intros H. split; [|by apply credential_goes_through]. intros [resp ->]. by eapply credential_condition_met.
Qed.
