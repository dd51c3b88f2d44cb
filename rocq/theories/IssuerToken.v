(** Lemmas behind the token properties. *)
From Verif Require Import Base Json CoreModel VcModel Prog ProgFacts ExecSpec ExecFacts IssuerTypes
  ClaimsModel Sha256 IssuerModel IssuerSpec IssuerFacts IssuerWp IssuerExec IssuerOffer.

Lemma presented_key r : token_state_key (tr_grant r) = presented r.
Proof. unfold token_state_key, presented. by destruct (tr_grant r). Qed.

(** ** Redeemed once *)

Lemma token_read r es resp :
  runs (token r) es (Ok resp) →
  ∃ st es', es = Get (presented r) (Some st) :: Purge (presented r) true :: es' ∧
    key_kind (s_stage st) GAuthCode.
Proof.
  intros H. apply token_ok in H as (st & t & srv & gts & id & cl & items & es_i & tok & nonce & t2 & Hes & _ & _ & Hg & _).
  rewrite presented_key in Hes. exists st. eexists. split; [exact Hes|].
  unfold grant_checked in Hg. destruct (tr_grant r).
  - destruct Hg as (a & cv & -> & _). done.
  - destruct Hg as (o & id' & -> & _). done.
Qed.

Lemma token_once (c : iconfig) i j ri rj ti tj :
  ireach c → fresh (c_log c) → i ≠ j →
  answered c i (QToken ri) (Ok (RToken ti)) → answered c j (QToken rj) (Ok (RToken tj)) →
  presented ri = presented rj → overlap (c_log c) i j.
Proof.
  intros Hr Hf Hij Hi Hj Hid.
  apply answered_runs in Hi as Hri; [|done]. apply handler_ok in Hri as (oi' & [= <-] & Hri).
  apply token_read in Hri as (sti & esi & Hci & Hki).
  apply answered_runs in Hj as Hrj; [|done]. apply handler_ok in Hrj as (oj' & [= <-] & Hrj).
  apply token_read in Hrj as (stj & esj & Hcj & Hkj).
  rewrite <-Hid in Hcj. assert (one_shot GAuthCode) as Hone by by left.
  destruct (read_generated c i (presented ri) sti GAuthCode Hr) as (a & ea & Ha & Hea);
    [rewrite Hci; set_solver|done..|].
  split; intros Hb.
  - assert (Some stj = None); [|done].
    eapply (one_shot_gone c a ea GAuthCode (presented ri) i j sti (Some stj) [] [] esi); eauto.
    rewrite Hcj. set_solver.
  - assert (Some sti = None); [|done].
    eapply (one_shot_gone c a ea GAuthCode (presented ri) j i stj (Some sti) [] [] esj); eauto.
    rewrite Hci. set_solver.
Qed.

(** ** A failed attempt burns the code *)

Lemma handler_outcome {A} (m : iprog A) (f : A → ireply) es o :
  runs (let! y := m in ok (f y)) es o →
  ∃ o', runs m es o' ∧ o = match o' with Ok a => Ok (f a) | Err e => Err e | Panic w => Panic w end.
Proof.
  intros H. apply runs_bind in H as [(es1 & es2 & a & -> & Hm & H)|[(e & Hm & ->)|(w & Hm & ->)]].
  - apply runs_ret in H as [-> <-]. rewrite app_nil_r. by exists (Ok a).
  - by exists (Err e).
  - by exists (Panic w).
Qed.

Lemma token_first r es o :
  runs (token r) es o → ∃ v es', es = Get (presented r) v :: es' ∧
    (v = None → es' = [] ∧ o = Err (InvalidGrant "authorization code is invalid")).
Proof.
  unfold token. rewrite presented_key. unfold sget, get. cbn [bind]. intros H.
  destruct es as [|e es]; [done|]. destruct H as (v & -> & H). exists v, es. split; [done|].
  intros ->. cbn in H. apply runs_ret in H as [-> <-]. done.
Qed.

Lemma token_burned (c : iconfig) i j r st es r' o :
  ireach c → fresh (c_log c) → is_code (c_log c) (presented r) →
  calls_of i (c_log c) = Get (presented r) (Some st) :: Purge (presented r) true :: es →
  answered c j (QToken r') o → presented r' = presented r → before (c_log c) i j →
  o = Err (InvalidGrant "authorization code is invalid").
Proof.
  intros Hr Hf (en & Hen & Hev) Hi Hj Hp Hb.
  apply elem_of_list_lookup in Hen as [a Ha].
  apply answered_runs in Hj as Hrj; [|done]. apply handler_outcome in Hrj as (o' & Hrj & ->).
  apply token_first in Hrj as (v & es' & Hc & Hn). rewrite Hp in Hc.
  assert (v = None) as Hv.
  { eapply (one_shot_gone c a en GAuthCode (presented r) i j st v [] [] es); eauto.
    - by left.
    - rewrite Hc. set_solver. }
  destruct (Hn Hv) as [_ ->]. done.
Qed.

(** ** The transaction code *)

Lemma calls_take (c : iconfig) j m e :
  e ∈ calls_of j (take m (c_log c)) → e ∈ calls_of j (c_log c).
Proof.
  intros He. rewrite <-(take_drop m (c_log c)), calls_of_app. apply elem_of_app. by left.
Qed.

Lemma token_tx r es resp code tx :
  runs (token r) es (Ok resp) → tr_grant r = TGPreAuthorizedCode code tx →
  ∃ st o items es', es = Get code (Some st) :: Purge code true :: es' ∧ s_stage st = Offered o ∧
    off_items o = Some items ∧ tx = off_tx_code o.
Proof.
  intros H Hg. apply token_ok in H as
    (st & t & srv & gts & id & cl & items & es_i & tok & nonce & t2 & Hes & _ & _ & Hgc & _ & _ & Hit & _).
  unfold token_items, grant_checked in *. rewrite Hg in *.
  destruct Hgc as (o & id' & Ho & _ & _ & _ & ->). destruct Hit as (o' & its & Ho' & Hits & _).
  rewrite Ho in Ho'. injection Ho' as <-. eexists st, o, its, _. split; [exact Hes|]. done.
Qed.

Lemma created_tx (r : create_offer_request) es resp k v x b o :
  runs (create_offer r) es (Ok resp) → Put k v x b ∈ es → s_stage v = Offered o →
  off_tx_code o = cor_tx_code resp.
Proof.
  intros H Hin Hs. apply create_offer_ok in H as
    (iss & srv & code & asrv & es_tx & tx & es_st & es_ref & -> & _ & _ & Htx & Hst & Href).
  assert (cor_tx_code resp = tx) as ->.
  { destruct (co_send_type r); [destruct Href as [_ ->]|destruct Href as (? & ? & _ & ->)]; done. }
  rewrite !elem_of_app, !elem_of_cons in Hin.
  assert (Put k v x b ∈ es_tx → False) as Hn1.
  { destruct (co_tx_code_required r && wants r PreAuthorizedCode);
      [destruct Htx as (? & _ & ->)|destruct Htx as [_ ->]]; set_solver. }
  assert (Put k v x b ∈ es_ref → False) as Hn2.
  { destruct (co_send_type r); [destruct Href as [-> _]|destruct Href as (? & ? & -> & _)];
      rewrite ?elem_of_cons, ?elem_of_nil; [tauto|]. intros [?|[?|[[= -> -> -> ->]|[]]]]; done. }
  destruct Hin as [Hin|[Hin|[Hin|Hin]]]; [|tauto| |tauto].
  - destruct Hin as [?|[?|[?|Hin]]]; [done..|]. by apply elem_of_nil in Hin.
  - destruct (wants r PreAuthorizedCode || wants r AuthorizationCode); [|subst; by apply elem_of_nil in Hin].
    destruct Hst as (t & items & -> & _). apply elem_of_app in Hin as [Hin|Hin].
    + destruct items; [|by apply elem_of_nil in Hin]. apply elem_of_list_fmap in Hin as (? & ? & _). done.
    + rewrite !elem_of_cons, elem_of_nil in Hin. destruct Hin as [?|[[= -> -> -> ->]|[]]]; [done|].
      simpl in Hs. by simplify_eq.
Qed.

Lemma token_tx_source (c : iconfig) i r tr code tx :
  ireach c → answered c i (QToken r) (Ok (RToken tr)) → tr_grant r = TGPreAuthorizedCode code tx →
  ∃ j r' p, c_pool c !! j = Some (QCreateOffer r', p) ∧
    X (VGen GAuthCode code) ∈ calls_of j (c_log c) ∧ requested r' PreAuthorizedCode ∧
    (is_Some tx ↔ co_tx_code_required r' = true) ∧
    (∀ s, tx = Some s → X (VGen GTxCode s) ∈ calls_of j (c_log c)) ∧
    (∀ resp, p = Ret (Ok (RCreateOffer resp)) → cor_tx_code resp = tx).
Proof.
  intros Hr Ha Hg. apply answered_runs in Ha as Hrun; [|done].
  apply handler_ok in Hrun as (tr' & [= <-] & Hrun).
  eapply token_tx in Hrun as (st & o & items & es' & Hc & Hs & Hits & ->); [|done].
  assert (Get code (Some st) ∈ calls_of i (take (length (c_log c)) (c_log c))) as Hin.
  { rewrite firstn_all, Hc. set_solver. }
  destruct (read_pos _ _ _ _ _ Hr Hin) as (g & m & em & x & b & Hlt & Hm & Hem).
  destruct (put_pos _ _ _ _ _ _ _ Hr Hm Hem) as (q & p & Hq & Hp).
  unfold put_from in Hp. rewrite Hs in Hp.
  destruct q as [r'| | | | |r'|r'| | | |]; try done.
  - destruct Hp as (t & Hgen & _ & _ & _ & _ & _ & Hwants & Htx).
    destruct (wants r' PreAuthorizedCode) eqn:Hw; [|congruence].
    exists (e_who em), r', p. split; [done|]. split; [by eapply calls_take|].
    split; [by apply wants_requested|]. rewrite andb_true_r in Htx. split_and!.
    + destruct (co_tx_code_required r'); [|split; [rewrite Htx; by intros []|done]].
      destruct Htx as (? & -> & _). split; eauto.
    + intros s Hs'. destruct (co_tx_code_required r'); [|congruence].
      destruct Htx as (s' & Htx & Hin'). assert (s = s') as -> by congruence. by eapply calls_take.
    + intros resp ->. apply answered_runs in Hq; [|done].
      apply handler_ok in Hq as (resp' & [= <-] & Hq). symmetry.
      eapply created_tx; [done| |done]. apply calls_of_elem. exists em.
      split; [by eapply elem_of_list_lookup_2|]. done.
  - unfold credential_put in Hp. by rewrite Hs in Hp.
  - destruct Hp as (? & ? & ? & ? & ? & ? & Hp). unfold credential_put in Hp. by rewrite Hs in Hp.
Qed.

(** ** The client *)

Lemma token_client r es resp code u v :
  runs (token r) es (Ok resp) → tr_grant r = TGAuthorizationCode code u v →
  ∃ st a es' cv, es = Get code (Some st) :: Purge code true :: es' ∧ s_stage st = StAuthorized a ∧
    tr_client_id r = Some (az_client_id a) ∧ u = az_redirect_uri a ∧ v = Some cv ∧
    code_challenge cv = az_code_challenge a.
Proof.
  intros H Hg. apply token_ok in H as
    (st & t & srv & gts & id & cl & items & es_i & tok & nonce & t2 & Hes & _ & _ & Hgc & _ & _ & Hit & _).
  unfold token_items, grant_checked in *. rewrite Hg in *.
  destruct Hgc as (a & cv & Ho & _ & ? & -> & -> & ?). eexists st, a, _, cv.
  split; [exact Hes|]. done.
Qed.

Lemma resolves_asked (c : iconfig) j m a r :
  ireach c → resolves a (calls_of j (take m (c_log c))) r → asked_by c a r.
Proof.
  intros Hr H. destruct a as [u|r']; simpl in H; [|by left; congruence]. right.
  destruct H as (st & exp & t & Hg & _ & Hs & _).
  destruct (read_pos _ _ _ _ _ Hr Hg) as (g & n & en & x & b & _ & Hn & Hen).
  destruct (put_pos _ _ _ _ _ _ _ Hr Hn Hen) as (q & p & Hq & Hp).
  unfold put_from in Hp. rewrite Hs in Hp. destruct q; try done.
  - destruct Hp as (tok & t1 & t2 & <- & Hgen & -> & _). exists tok, (e_who en), p.
    split; [done|]. split; [done|]. by eapply calls_take.
  - unfold credential_put in Hp. by rewrite Hs in Hp.
  - destruct Hp as (? & ? & ? & ? & ? & ? & Hp). unfold credential_put in Hp. by rewrite Hs in Hp.
Qed.

Lemma token_client_source (c : iconfig) i r tr code u v :
  ireach c → answered c i (QToken r) (Ok (RToken tr)) → tr_grant r = TGAuthorizationCode code u v →
  ∃ j a ro p cv, c_pool c !! j = Some (QAuthorize a, p) ∧ asked_by c a ro ∧
    X (VGen GAuthCode code) ∈ calls_of j (c_log c) ∧
    tr_client_id r = Some (ro_client_id ro) ∧ u = ro_redirect_uri ro ∧ v = Some cv ∧
    code_challenge cv = ro_code_challenge ro.
Proof.
  intros Hr Ha Hg. apply answered_runs in Ha as Hrun; [|done].
  apply handler_ok in Hrun as (tr' & [= <-] & Hrun).
  eapply token_client in Hrun as (st & a & es' & cv & Hc & Hs & -> & -> & -> & Hcv); [|done].
  assert (Get code (Some st) ∈ calls_of i (take (length (c_log c)) (c_log c))) as Hin.
  { rewrite firstn_all, Hc. set_solver. }
  destruct (read_pos _ _ _ _ _ Hr Hin) as (g & m & em & x & b & Hlt & Hm & Hem).
  destruct (put_pos _ _ _ _ _ _ _ Hr Hm Hem) as (q & p & Hq & Hp).
  unfold put_from in Hp. rewrite Hs in Hp. destruct q; try done.
  - destruct Hp as (ro & t & Hres & Hgen & _ & _ & _ & _ & _ & -> & -> & Hch & _).
    eexists (e_who em), _, ro, p, cv. split; [done|]. split; [by eapply resolves_asked|].
    split; [by eapply calls_take|]. rewrite <-Hch. done.
  - unfold credential_put in Hp. by rewrite Hs in Hp.
  - destruct Hp as (? & ? & ? & ? & ? & ? & Hp). unfold credential_put in Hp. by rewrite Hs in Hp.
Qed.

(** ** What the token covers *)

Lemma format_eqb_spec f g : format_eqb f g = true ↔ same_format f g.
Proof. destruct f, g; simpl; rewrite ?bool_decide_eq_true; naive_solver. Qed.
Lemma credential_authorization_eqb_spec a b :
  credential_authorization_eqb a b = true ↔ same_credential a b.
Proof. destruct a, b; simpl; rewrite ?bool_decide_eq_true, ?format_eqb_spec; naive_solver. Qed.

Lemma find_item_spec d items it :
  find_item (ad_credential d) items = Some it →
  ∃ l1 l2, items = l1 ++ it :: l2 ∧ item_matches d it ∧ ∀ it', it' ∈ l1 → ¬ item_matches d it'.
Proof.
  induction items as [|i items IH]; simpl; [done|]. intros H.
  assert (∀ d', ai_item i = ItemDetail d' →
    credential_authorization_eqb (ad_credential d') (ad_credential d) = false → ¬ item_matches d i) as Hno.
  { intros d' Hd' He (d'' & Hd'' & Hm). rewrite Hd' in Hd''. simplify_eq.
    apply credential_authorization_eqb_spec in Hm. congruence. }
  assert (find_item (ad_credential d) items = Some it → ¬ item_matches d i →
    ∃ l1 l2, i :: items = l1 ++ it :: l2 ∧ item_matches d it ∧ ∀ it', it' ∈ l1 → ¬ item_matches d it') as Hrec.
  { intros Hf Hn. destruct (IH Hf) as (l1 & l2 & -> & Hm & Hl). exists (i :: l1), l2.
    split; [done|]. split; [done|]. intros it' [->|Hi]%elem_of_cons; auto. }
  destruct (ai_item i) as [d'|s] eqn:Hi.
  - destruct (credential_authorization_eqb _ _) eqn:He.
    + simplify_eq. exists [], items. split; [done|]. split; [|by intros ? ?%elem_of_nil].
      exists d'. split; [done|]. by apply credential_authorization_eqb_spec.
    + apply Hrec; [done|]. by eapply Hno.
  - apply Hrec; [done|]. intros (d' & Hd' & _). congruence.
Qed.

Lemma token_items_covers st r es items : token_items st r es items → covers st r items.
Proof.
  unfold token_items, covers. intros H. destruct (tr_grant r).
  - destruct H as (a & Hs & -> & _). eexists. split; [right; eauto|]. done.
  - destruct H as (o & its & Hs & Hits & H). exists its. split; [left; eauto|].
    destruct (tr_authorization_details r) as [ds|]; [|by destruct H].
    destruct H as (iss & _ & H). eapply Forall2_impl; [done|].
    intros d it [Hf _]. by apply find_item_spec.
Qed.

(** The credentials of a token, as a table. *)
Lemma assoc_ainsert {A} k k' (v : A) l :
  assoc k (ainsert k' v l) = if bool_decide (k = k') then Some v else assoc k l.
Proof.
  induction l as [|[k1 v1] l IH]; simpl; [done|].
  destruct (decide (k' = k1)) as [->|Hne]; [rewrite (bool_decide_true (k1 = k1)) by done; simpl; by destruct (bool_decide (k = k1))|].
  rewrite (bool_decide_false (k' = k1)) by done. simpl. rewrite IH.
  destruct (decide (k = k1)) as [->|]; [|by rewrite (bool_decide_false (k = k1))].
  rewrite (bool_decide_true (k1 = k1)), bool_decide_false by congruence. done.
Qed.
Lemma keys_ainsert {A} k (v : A) l x : x ∈ keys (ainsert k v l) ↔ x = k ∨ x ∈ keys l.
Proof.
  unfold keys. induction l as [|[k1 v1] l IH]; simpl; [set_solver|].
  case_bool_decide; simpl; [set_solver|]. set_solver.
Qed.
Lemma nodup_ainsert {A} k (v : A) l : NoDup (keys l) → NoDup (keys (ainsert k v l)).
Proof.
  induction l as [|[k1 v1] l IH]; intros H; [by repeat constructor; apply not_elem_of_nil|].
  simpl. apply NoDup_cons in H as [H1 H2]. case_bool_decide; simpl.
  - subst. by constructor.
  - constructor; [|by apply IH]. rewrite keys_ainsert. intros [->|?]; auto.
Qed.

Lemma authorized_credentials_table items : table_ok items (authorized_credentials items).
Proof.
  unfold authorized_credentials. induction items as [|it items IH] using rev_ind.
  { split; [constructor|]. split; [|done]. set_solver. }
  rewrite foldl_app. simpl.
  set (m0 := foldl _ [] items) in *. clearbody m0.
  assert (∀ ids, (∀ id, id ∈ ids → id ∈ ai_identifiers it) →
    let m := foldl (λ m id, ainsert id (Authorized id (ai_configuration_id it) None) m) m0 ids in
    NoDup (keys m) ∧ (∀ id, id ∈ keys m ↔ (id ∈ keys m0 ∨ id ∈ ids)) ∧
    (∀ id a, assoc id m = Some a → au_identifier a = id ∧
     ∃ i, i ∈ items ++ [it] ∧ id ∈ ai_identifiers i ∧ au_configuration_id a = ai_configuration_id i)) as Hm.
  { intros ids. induction ids as [|id ids IHi] using rev_ind; intros Hsub; cbn [foldl].
    - destruct IH as (H1 & H2 & H3). split; [done|]. split; [set_solver|].
      intros id a Ha. destruct (H3 _ _ Ha) as (Hid & i & Hi & ?). split; [done|].
      exists i. split; [set_solver|done].
    - rewrite foldl_app. destruct IHi as (H1 & H2 & H3); [set_solver|]. cbn [foldl]. split; [|split].
      + by apply nodup_ainsert.
      + intros x. rewrite keys_ainsert, H2. set_solver.
      + intros x a. rewrite assoc_ainsert. case_bool_decide as Hx.
        * intros [= <-]. subst. simpl. split; [done|]. exists it. split; [set_solver|]. split; [|done].
          apply Hsub. set_solver.
        * apply H3. }
  destruct (Hm (ai_identifiers it)) as (H1 & H2 & H3); [done|]. destruct IH as (_ & IH & _).
  split; [done|]. split; [|done]. intros id. rewrite H2, IH. set_solver.
Qed.

Lemma authorized_details_listed items : listed items (authorized_details items).
Proof. unfold listed, authorized_details. destruct (omap _ _) eqn:E; by rewrite ?E. Qed.

Lemma token_covers r es resp :
  runs (token r) es (Ok resp) →
  ∃ st items tok, Get (presented r) (Some st) ∈ es ∧ covers st r items ∧
    tk_access_token tok = trs_access_token resp ∧ trs_c_nonce resp = Some (tk_c_nonce tok) ∧
    table_ok items (tk_credentials tok) ∧
    listed items (trs_authorization_details resp) ∧
    ∀ k v x b, Put k v x b ∈ es →
      k = trs_access_token resp ∧ v = State (s_subject_id st) (Validated tok) (s_expires_at st) ∧ b = true.
Proof.
  intros H. apply token_ok in H as
    (st & t & srv & gts & id & cl & items & es_i & tok & nonce & t2 & -> & _ & _ & Hgc & _ & _ & Hit & ->).
  rewrite presented_key. eexists st, items, (Token tok nonce (t2 + minutes 10)%Z (authorized_credentials items)).
  split; [set_solver|]. split; [by eapply token_items_covers|]. split; [done|]. split; [done|].
  split; [apply authorized_credentials_table|]. split; [apply authorized_details_listed|].
  intros k v x b. simpl. rewrite !elem_of_cons, elem_of_app, !elem_of_cons, elem_of_nil.
  intros Hin. assert (Put k v x b ∉ es_i) as Hn.
  { unfold token_items in Hit. destruct (tr_grant r).
    - destruct Hit as (? & _ & _ & ->). by intros ?%elem_of_nil.
    - destruct Hit as (? & ? & _ & _ & Hit). destruct (tr_authorization_details r).
      + destruct Hit as (? & -> & _). by intros ?%elem_of_list_singleton.
      + destruct Hit as [-> _]. by intros ?%elem_of_nil. }
  destruct Hin as [?|[?|[?|[?|[?|[?|[?|[?|[?|[Heq|[]]]]]]]]]]]; try done.
  by injection Heq as -> -> -> ->.
Qed.

(** A requested detail that was not authorized is refused. *)
Lemma find_item_none d items : (∀ it, it ∈ items → ¬ item_matches d it) → find_item (ad_credential d) items = None.
Proof.
  intros H. destruct (find_item _ _) as [it|] eqn:E; [|done]. exfalso.
  apply find_item_spec in E as (l1 & l2 & -> & Hm & _). eapply H; [|done]. set_solver.
Qed.

Lemma token_denied r es :
  runs (token r) es (Err not_authorized) →
  ∃ st all ds d, Get (presented r) (Some st) ∈ es ∧ state_items st all ∧
    tr_authorization_details r = Some ds ∧ d ∈ ds ∧ ∀ it, it ∈ all → ¬ item_matches d it.
Proof.
  set (Q := λ (h : ihist) (o : outcome error token_response), o = Err not_authorized →
    ∃ st all ds d, Get (presented r) (Some st) ∈ h ∧ state_items st all ∧
    tr_authorization_details r = Some ds ∧ d ∈ ds ∧ ∀ it, it ∈ all → ¬ item_matches d it).
  assert (wp (λ _ _, True) Q (token r) []) as Hwp.
  2:{ intros H. exact (wp_runs _ _ _ _ _ _ Hwp H eq_refl). }
  unfold token. rewrite presented_key. iwx st'. iwo st Hst. subst. apply wp_bind. iwp1; [done|unfold bindQ|done].
  apply wp_bind.
  apply (wp_call_lemma _ _ (λ h o, (([] ++ [Get (presented r) (Some st)]) ++ [Purge (presented r) true]) `prefix_of` h ∧
     o ≠ Err not_authorized)).
  { apply wp_prefix. unfold token_verify, check_scopes. iwp. }
  intros h [u|e|w] [Hh He]; unfold bindQ, Q; [|congruence|done].
  assert (Get (presented r) (Some st) ∈ h) as Hin.
  { destruct Hh as [k ->]. apply elem_of_app. left. hin. }
  clear Hh He. unfold token_process. apply wp_bind.
  apply (wp_call_lemma _ _ (λ h' o, h `prefix_of` h' ∧ (o = Err not_authorized →
    ∃ all ds d, state_items st all ∧
    tr_authorization_details r = Some ds ∧ d ∈ ds ∧ ∀ it, it ∈ all → ¬ item_matches d it))).
  { apply wp_prefix. destruct (tr_grant r); destruct (s_stage st) as [| |o| | | | |] eqn:Hs; try by iwp.
    apply wp_bind. apply wp_of_opt; [intros its Hits|]; unfold bindQ; [|done].
    unfold retain_details. destruct (tr_authorization_details r) as [ds|] eqn:Hds; [|by iwp].
    iwx iss'. iwo iss Hiss.
    set (Q' := λ (h' : ihist) (o : outcome error (list authorized_item)), o = Err not_authorized →
      ∃ d, d ∈ ds ∧ ∀ it, it ∈ its → ¬ item_matches d it).
    apply (wp_call_lemma _ _ Q').
    2:{ intros h' o' HQ' Hp. split; [done|]. intros Ho. destruct (HQ' Ho) as (d & Hd & Hn).
        exists its, ds, d. split_and!; try done. left. eauto. }
    assert (∀ l, (∀ d, d ∈ l → d ∈ ds) → ∀ h, wp (λ _ _, True) Q' (mapM_prog (λ auth_det : authorization_detail,
        match find_item (ad_credential auth_det) its with
        | Some item => token_verify_claims iss (ad_credential auth_det) ;; ok item
        | None => fail not_authorized
        end) l) h) as Hl; [|by apply Hl].
    intros l. induction l as [|d l IH]; intros Hsub h'; cbn [mapM_prog]; [by iwp|].
    apply wp_bind. destruct (find_item _ _) as [it|] eqn:Hf.
    - apply (wp_call_lemma _ _ (λ _ o, o ≠ Err not_authorized)).
      { unfold token_verify_claims. iwp. }
      intros h1 [b|e|w] He; unfold bindQ; [|intros [= ->]; done|done].
      apply wp_bind. eapply wp_call_lemma; [apply IH; set_solver|].
      intros h2 [bs|e|w] He'; unfold bindQ; [by iwp| |done]. intros [= ->]. by apply He'.
    - iwp1. unfold bindQ. intros _. exists d. split; [set_solver|].
      intros it Hit Hm. destruct Hm as (d' & Hd' & Hm).
      assert (∃ it', find_item (ad_credential d) its = Some it') as [? ?]; [|congruence].
      clear -Hit Hd' Hm. induction its as [|i its IH]; [by apply elem_of_nil in Hit|].
      apply elem_of_cons in Hit as [<-|Hit]; simpl.
      + rewrite Hd'. rewrite (proj2 (credential_authorization_eqb_spec _ _) Hm). eauto.
      + destruct (ai_item i); [destruct (credential_authorization_eqb _ _)|]; eauto. }
  intros h' [items|e|w] [Hh He]; unfold bindQ; [by iwp| |done].
  intros [= ->]. destruct (He eq_refl) as (all & ds & d & ? & ? & ? & ?). exists st, all, ds, d.
  split; [|done]. destruct Hh as [k ->]. apply elem_of_app. by left.
Qed.
