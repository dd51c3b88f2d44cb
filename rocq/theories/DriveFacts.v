(** Facts about the example wallet together with the library. *)
From Verif Require Import Base Json CoreModel VcModel Prog ProgFacts ExecSpec ExecFacts Sha256 IssuerTypes MetaSerde MatcherModel VerifierModel
  HolderModel HolderSpec HolderFacts HolderExec HolderRuns WalletStepSpec HolderSteps HolderSerial HolderProps
  RecordSerde WalletModel WalletSpec WalletFacts DriveSpec.

(** ** Sessions *)
Notation trace := (list (command * list effect)).
Lemma split_cases {A} (A1 A2 B1 B2 : list A) a b : A1 ++ a :: A2 = B1 ++ b :: B2 →
  (∃ M, B1 = A1 ++ a :: M ∧ A2 = M ++ b :: B2) ∨ (A1 = B1 ∧ a = b ∧ A2 = B2) ∨ (∃ M, A1 = B1 ++ b :: M ∧ B2 = M ++ a :: A2).
Proof.
  revert B1. induction A1 as [|x A1 IH]; intros [|y B1]; simpl.
  - intros [= -> ->]. auto.
  - intros [= -> ->]. left. by exists B1.
  - intros [= -> <-]. right. right. by exists A1.
  - intros [= -> H]. destruct (IH _ H) as [(M & -> & ->)|[(-> & -> & ->)|(M & -> & ->)]]; eauto 8.
Qed.
Lemma all_calls_app t1 t2 : all_calls (t1 ++ t2) = all_calls t1 ++ all_calls t2.
Proof. unfold all_calls. by rewrite map_app, concat_app. Qed.
Lemma all_calls_cons e t : all_calls (e :: t) = calls_in e ++ all_calls t.
Proof. done. Qed.
Lemma calls_in_elem l e : l ∈ calls_in e ↔ Call l ∈ e.2.
Proof.
  unfold calls_in. rewrite elem_of_list_omap. split.
  - intros (x & Hx & E). destruct x; try done. by injection E as ->.
  - intros H. by exists (Call l).
Qed.
Lemma call_at tr i l : all_calls tr !! i = Some l → ∃ t1 e t2, tr = t1 ++ e :: t2 ∧ Call l ∈ e.2 ∧
  length (all_calls t1) ≤ i < length (all_calls t1) + length (calls_in e).
Proof.
  revert i. induction tr as [|e tr IH]; intros i; [done|]. rewrite all_calls_cons. intros H.
  destruct (decide (i < length (calls_in e))) as [Hi|Hi].
  - rewrite lookup_app_l in H by done. exists [], e, tr. split; [done|]. split; [|simpl; lia].
    apply calls_in_elem. by eapply elem_of_list_lookup_2.
  - rewrite lookup_app_r in H by lia. destruct (IH _ H) as (t1 & e' & t2 & -> & Hl & Hi').
    exists (e :: t1), e', t2. split; [done|]. split; [done|]. rewrite all_calls_cons, app_length. lia.
Qed.
Lemma session_at cx ks w0 w t1 e t2 : session cx ks w0 = (w, t1 ++ e :: t2) →
  ∃ ks1 w1, session cx ks1 w0 = (w1, t1) ∧ e.2 = (perform cx e.1 w1).2.
Proof.
  revert w0 t1. induction ks as [|k ks IH]; intros w0 t1; simpl; [by destruct t1|].
  destruct (perform cx k w0) as [w' es] eqn:Ep. destruct (session cx ks w') as [w'' tr] eqn:Es. intros [= -> H].
  destruct t1 as [|x t1]; simpl in H; injection H as E1 E2.
  - exists [], w0. rewrite <-E1. simpl. by rewrite Ep.
  - rewrite <-E1. subst tr. destruct (IH _ _ Es) as (ks1 & w1 & H1 & H2). exists (k :: ks1), w1. simpl. by rewrite Ep, H1.
Qed.

(** Which command makes a call. *)
Lemma elem_map_call l ls : Call l ∈ map Call ls ↔ l ∈ ls.
Proof. rewrite elem_of_list_fmap. split; [by intros (? & [= ->] & ?)|eauto]. Qed.
Definition makes (k : command) (l : lib_call) : Prop :=
  match l with
  | LOffer _ => (∃ t r, k = MakeOffer t r) ∨ (∃ p o r, k = OpenLink p o r)
  | LAccept _ => ∃ d, k = Accept d
  | LPin _ p => ∃ d, k = Pin p d
  | LToken _ | LCredentials _ | LSave _ => ∃ t g s d, k = GetCredentials t g s d
  | LRequest _ => (∃ t r, k = Request t r) ∨ (∃ p o r, k = OpenLink p o r)
  | LAuthorize _ => ∃ d, k = Authorize d
  | LPresent _ => ∃ d, k = Present d
  end.
Lemma perform_makes cx k w l : Call l ∈ (perform cx k w).2 → makes k l.
Proof.
  assert (∀ l' ls r, (∀ c, c ∈ ls → makes k c) → (Call l' ∉ r.2) → Call l' ∈ (calls ls r).2 → makes k l') as Hg.
  { intros l' ls r Hl Hr H. simpl in H. apply elem_calls in H as [H|H]; [by apply Hl|done]. }
  assert (∀ b w1 w2, Call l ∉ (if b : bool then emit w1 else fails w2).2) as Hb.
  { intros [] w1 w2; [apply emit_call|apply fails_call]. }
  destruct k; cbn [perform]; intros H.
  - by apply emit_call in H.
  - by apply reset_call in H.
  - simpl in H. apply elem_of_list_singleton in H. destruct (List.find _ _) as [x|]; [|done]. by destruct (show_detail x).
  - exfalso. revert H. unfold run_delete. destruct (ws_remove id written (w_store w)) as [s [[]|e|e]]; [apply emit_call|apply fails_call|].
    simpl. by rewrite elem_of_list_singleton.
  - revert H. unfold run_offer. destruct (read_offer text); [|by intros ?%fails_call]. apply Hg; [|destruct answer; [apply emit_call|apply fails_call]].
    intros c' ->%elem_of_list_singleton. simpl. eauto.
  - revert H. apply Hg; [|apply Hb]. intros c' ->%elem_of_list_singleton. simpl. eauto.
  - revert H. apply Hg; [|apply Hb]. intros c' ->%elem_of_list_singleton. simpl. eauto.
  - revert H. unfold run_credentials. destruct token; [destruct got; [destruct (save_all cx saves (w_store w)) as [s b]|]|].
    all: apply Hg; [|first [apply fails_call|destruct (b && told); [apply reset_call|apply fails_call]]].
    all: intros c' Hc; repeat (apply elem_of_cons in Hc as [->|Hc]; [simpl; eauto|]); by apply elem_of_nil in Hc.
  - revert H. unfold run_request. apply Hg; [|destruct answer; [apply emit_call|apply fails_call]]. intros c' ->%elem_of_list_singleton. simpl. eauto.
  - revert H. apply Hg; [|destruct answer; [apply emit_call|apply fails_call]]. intros c' ->%elem_of_list_singleton. simpl. eauto.
  - revert H. apply Hg; [|destruct done; [apply reset_call|apply fails_call]]. intros c' ->%elem_of_list_singleton. simpl. eauto.
  - destruct (link_of payload) as [t|t|]; [| |by apply elem_of_nil in H].
    + revert H. unfold run_offer. destruct (read_offer t); [|by intros ?%fails_call]. apply Hg; [|destruct offered; [apply emit_call|apply fails_call]].
      intros c' ->%elem_of_list_singleton. simpl. eauto 6.
    + revert H. unfold run_request. apply Hg; [|destruct requested; [apply emit_call|apply fails_call]].
      intros c' ->%elem_of_list_singleton. simpl. eauto 6.
Qed.
Lemma request_taken_calls e r : request_taken e = Some r → calls_in e ≠ [].
Proof.
  unfold request_taken. destruct (existsb _ e.2) eqn:E; [|done]. apply existsb_exists in E as (x & Hx & Hy).
  destruct x as [[]| | | |]; try done. apply elem_of_list_In in Hx. apply calls_in_elem in Hx. intros _ H. rewrite H in Hx. by apply elem_of_nil in Hx.
Qed.
Lemma offer_taken_calls e r : offer_taken e = Some r → calls_in e ≠ [].
Proof.
  unfold offer_taken. destruct (existsb _ e.2) eqn:E; [|done]. apply existsb_exists in E as (x & Hx & Hy).
  destruct x as [[]| | | |]; try done. apply elem_of_list_In in Hx. apply calls_in_elem in Hx. intros _ H. rewrite H in Hx. by apply elem_of_nil in Hx.
Qed.
(** An entry whose call has a smaller number is earlier, or the same. *)
Lemma earlier (tr A1 A2 B1 B2 : trace) a b i j : tr = A1 ++ a :: A2 → tr = B1 ++ b :: B2 → i < j →
  length (all_calls A1) ≤ i → j < length (all_calls B1) + length (calls_in b) →
  (∃ M, B1 = A1 ++ a :: M ∧ A2 = M ++ b :: B2) ∨ (A1 = B1 ∧ a = b ∧ A2 = B2).
Proof.
  intros -> H Hij Hi Hj. apply split_cases in H as [?|[?|(M & -> & _)]]; [by left|by right|]. exfalso.
  rewrite all_calls_app, all_calls_cons, !app_length in Hi. lia.
Qed.
Lemma place_of (tr A1 A2 B1 B2 : trace) a b : tr = A1 ++ a :: A2 → tr = B1 ++ b :: B2 → calls_in a ≠ [] →
  length (all_calls B1) ≤ length (all_calls A1) < length (all_calls B1) + length (calls_in b) → A1 = B1 ∧ a = b ∧ A2 = B2.
Proof.
  intros -> H Ha Hl. apply split_cases in H as [(M & -> & _)|[?|(M & -> & _)]]; [|done|]; exfalso;
    rewrite all_calls_app, all_calls_cons, !app_length in Hl.
  - destruct (calls_in a); [done|simpl in Hl; lia].
  - lia.
Qed.
Lemma latest_unique {A} (f : command * list effect → option A) (tr : trace) r r' : latest f tr r → latest f tr r' → r' = r.
Proof.
  intros (T1 & e & T2 & -> & He & Hn) (U1 & u & U2 & H & Hu & Hn').
  apply split_cases in H as [(M & _ & ->)|[(_ & -> & _)|(M & _ & ->)]].
  - rewrite (Hn u) in Hu; [done|]. set_solver.
  - congruence.
  - rewrite (Hn' e) in He; [done|]. set_solver.
Qed.

(** ** The library *)
Lemma request_answer_post url : wp anyE (λ es r, ∀ y, r = Ok (HRRequest y) →
  HX (EUuid (hq_id y)) ∈ es ∧ ∀ f cr, HX (EFind f cr) ∈ es → cr = Some (hq_credentials y)) (hhandler (HRequest url)) [].
Proof.
  unfold hhandler, h_request. hwp.
  all: intros y Hy; simpl in Hy; try done; injection Hy as <-; split; [hhin|]; intros; by inv_in.
Qed.
Lemma offer_answer_post cl sb o : wp anyE (λ es r, ∀ y, r = Ok (HROffer y) →
  HX (EUuid (or_issuance_id y)) ∈ es ∧ or_issuer y = of_credential_issuer o ∧ or_grants y = of_grants o ∧
  ∀ k, is_Some (assoc k (or_offered y)) ↔ k ∈ of_configuration_ids o) (hhandler (HOffer cl sb o)) [].
Proof.
  unfold hhandler, h_offer, fetch_issuer. hwp.
  intros y [= <-]. cbn [or_issuance_id or_issuer or_grants or_offered]. split; [hhin|]. split; [done|]. split; [done|]. intros k.
  match goal with F : offered_configs _ _ _ = Some _ |- _ => pose proof (offered_configs_ok _ _ _ _ F) as Hk; pose proof F as Hf end. split.
  - intros [cf Hc]. apply Hk in Hc as [[? _]|[_ ?]]; [done|]. done.
  - intros Hin. apply (mk_is_Some _ _) in Hf. pose proof (proj1 (offered_configs_some _ _ _) Hf k Hin) as [cf Hc].
    exists cf. apply Hk. by left.
Qed.

Section library.
Context (c : hconfig) (Hr : hreach c).
Notation log := (c_log c).
Lemma made_in i e : e ∈ calls_of i log → ∃ m, made c m i e.
Proof.
  intros H. apply calls_of_elem in H as ([j e' eff] & Hin & <- & <-). apply elem_of_list_lookup in Hin as [m Hm].
  exists m, eff. exact Hm.
Qed.
Lemma in_made i e m : made c m i e → e ∈ calls_of i log.
Proof. intros [eff H]. apply calls_of_elem. exists (Entry i e eff). split; [by eapply elem_of_list_lookup_2|done]. Qed.
Lemma request_answered i url y : answered c i (HRequest url) (Ok (HRRequest y)) →
  (∃ m, made c m i (HX (EUuid (hq_id y)))) ∧ ∀ m f cr, made c m i (HX (EFind f cr)) → cr = Some (hq_credentials y).
Proof.
  intros Ha. apply (reachable_path _ _ _ _ _ _ Hr) in Ha. destruct (wp_runs _ _ _ _ _ _ (request_answer_post url) Ha y eq_refl) as [H1 H2].
  split; [by apply made_in|]. intros m f cr Hm. eapply H2. by eapply in_made.
Qed.
Lemma offer_answered i cl sb o y : answered c i (HOffer cl sb o) (Ok (HROffer y)) →
  (∃ m, made c m i (HX (EUuid (or_issuance_id y)))) ∧ or_issuer y = of_credential_issuer o ∧ or_grants y = of_grants o ∧
  ∀ k, is_Some (assoc k (or_offered y)) ↔ k ∈ of_configuration_ids o.
Proof.
  intros Ha. apply (reachable_path _ _ _ _ _ _ Hr) in Ha. destruct (wp_runs _ _ _ _ _ _ (offer_answer_post cl sb o) Ha y eq_refl) as [H1 H2].
  split; [by apply made_in|done].
Qed.
Lemma request_saved n i url id : asked c i (HRequest url) → saved c n i id → ∃ m, made c m i (HX (EUuid id)).
Proof.
  intros Hq (v & x & b & Hn). destruct (say_pos _ Hr _ _ _ _ Hn) as (q & Hq' & Hs).
  rewrite (asked_inj _ _ _ _ Hq' Hq) in Hs. destruct v as [v|v]; destruct Hs as [_ Hs]; [done|]. simpl in Hs.
  destruct Hs as (? & ? & ? & Hu & _). apply past_made in Hu as (m & _ & ?). by exists m.
Qed.
Lemma offer_saved n i cl sb o id : asked c i (HOffer cl sb o) → saved c n i id → ∃ m, made c m i (HX (EUuid id)).
Proof.
  intros Hq (v & x & b & Hn). destruct (say_pos _ Hr _ _ _ _ Hn) as (q & Hq' & Hs).
  rewrite (asked_inj _ _ _ _ Hq' Hq) in Hs. destruct v as [v|v]; destruct Hs as [_ Hs]; [|done]. simpl in Hs.
  destruct Hs as (? & ? & Hu & _). apply past_made in Hu as (m & _ & ?). by exists m.
Qed.
End library.
