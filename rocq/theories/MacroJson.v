(** What a request macro builds, and what is read from the same text as JSON. *)
From Verif Require Import Base Json MatcherModel JsonParse CoreModel VcModel Prog IssuerTypes SerdeSpec SerdeModel SerdeFacts
  MacroModel MacroSpec MacroFacts.

Definition entries_json (m : mfields) : list (string * json) := map (λ kv, (kv.1, as_json kv.2)) m.
Lemma as_json_obj m : as_json (MObj m) = JObj (entries_json m).
Proof. cbn [as_json]. f_equal. induction m as [|[k v] m IH]; [done|]. cbn [entries_json map fst snd]. by f_equal. Qed.
Lemma into_map_once {A} (m : list (string * A)) : NoDup (keys m) → into_map m = m.
Proof.
  induction m as [|[k v] m IH] using rev_ind; [done|]. rewrite keys_app. intros H. apply NoDup_app in H as (H & Hd & _).
  rewrite into_map_snoc, IH by done. apply ainsert_new. intros Hin. apply (Hd k Hin). by apply elem_of_list_singleton.
Qed.
Lemma lookups_json k m : NoDup (keys m) →
  lookups k (entries_json m) = match assoc k (into_map m) with Some v => [as_json v] | None => [] end.
Proof.
  intros Hnd. rewrite (into_map_once _ Hnd). induction m as [|[k' v] m IH]; [done|].
  simpl in Hnd. apply NoDup_cons in Hnd as [Hn Hnd]. cbn [entries_json map fst snd assoc]. case_bool_decide as E.
  - subst. rewrite lookups_eq. fold (entries_json m). rewrite IH by done.
    assert (assoc k' m = None) as -> by (by apply assoc_none). done.
  - rewrite lookups_ne by done. by apply IH.
Qed.
Lemma text_json v s : text v = Some s → as_json v = JStr s.
Proof. destruct v; try done; by intros [= ->]. Qed.
Lemma own_text_json v s : own_text v = Some s → as_json v = JStr s.
Proof. destruct v as [| | | | |[]|]; try done; by intros [= ->]. Qed.
Lemma own_texts_json v l : own_texts v = Some l → as_json v = ser_strs l.
Proof.
  destruct v as [| | |vs| | |]; try done. simpl. intros H. apply mapM_Some in H. unfold ser_strs, ser_list. f_equal.
  induction H as [|v s vs l Hv _ IH]; [done|]. simpl. apply own_text_json in Hv. by rewrite Hv, IH.
Qed.
(** A field read from JSON. *)
Lemma req_json {A B} (f : mvalue → option A) (d : json → option B) g k m v (a : A) : NoDup (keys m) →
  assoc k (into_map m) = Some v → f v = Some a → (f v = Some a → d (as_json v) = Some (g a)) → req d k (entries_json m) = Some (g a).
Proof. intros Hnd Ev Ef H. unfold req. rewrite lookups_json, Ev by done. by apply H. Qed.
Lemma dflt_text k m v s : NoDup (keys m) → assoc k (into_map m) = Some v → text v = Some s → dflt de_str "" k (entries_json m) = Some s.
Proof. intros Hnd Ev Ef. unfold dflt. rewrite lookups_json, Ev by done. by rewrite (text_json _ _ Ef). Qed.
Lemma req_text k m v s : NoDup (keys m) → assoc k (into_map m) = Some v → text v = Some s → req de_str k (entries_json m) = Some s.
Proof. intros Hnd Ev Ef. unfold req. rewrite lookups_json, Ev by done. by rewrite (text_json _ _ Ef). Qed.
Lemma own_is_text v s : own_text v = Some s → text v = Some s.
Proof. by destruct v as [| | | | |[]|]. Qed.
Lemma opt_json {A} (f : mvalue → option A) (d : json → option A) k m o : NoDup (keys m) →
  option_of f (assoc k (into_map m)) = Some o → (∀ v a, assoc k (into_map m) = Some v → f v = Some a → d (as_json v) = Some a ∧ as_json v ≠ JNull) →
  opt d k (entries_json m) = Some o.
Proof.
  intros Hnd Eo H. unfold opt. rewrite lookups_json by done. destruct (assoc k (into_map m)) as [v|]; simpl in Eo.
  - apply fmap_Some in Eo as (a & Ea & ->). destruct (H v a eq_refl Ea) as [Hd Hn]. rewrite Hd. by destruct (as_json v).
  - by injection Eo as <-.
Qed.
Lemma opt_text k m o : NoDup (keys m) → option_of text (assoc k (into_map m)) = Some o → opt de_str k (entries_json m) = Some o.
Proof. intros Hnd H. apply (opt_json text); [done|done|]. intros v a _ Ea. by rewrite (text_json _ _ Ea). Qed.
Lemma opt_unsaid {A} (d : json → option A) k m : NoDup (keys m) → unsaid m k → opt d k (entries_json m) = Some None.
Proof. intros Hnd H. apply assoc_unsaid in H. unfold opt. by rewrite lookups_json, H. Qed.
Lemma assoc_in_map (m : mfields) k (v : mvalue) : assoc k (into_map m) = Some v → (k, v) ∈ m.
Proof. intros H. apply assoc_says in H. by apply says_elem. Qed.
Lemma unrepeated_obj (m : mfields) : unrepeated (MObj m) → NoDup (keys m) ∧ ∀ k (v : mvalue), (k, v) ∈ m → unrepeated v.
Proof. inversion 1 as [|? ? ?|? ? Hn]; subst; [done|]. by destruct (Hn m). Qed.
Lemma unrepeated_arr l : unrepeated (MArr l) → ∀ v, v ∈ l → unrepeated v.
Proof. inversion 1 as [? ?| |? Hn ?]; subst; [done|]. by destruct (Hn l). Qed.

(** ** Offers *)
Lemma grants_json v l : one_of grant_of v = Some l → de_list de_grant_type (as_json v) = Some l ∧ as_json v ≠ JNull.
Proof.
  intros H. apply (one_of_iff grant_of _ _ _ grant_of_iff) in H as [[-> ->]|(x & g & -> & -> & ->)]; [done|].
  split; [|done]. by destruct g.
Qed.
Lemma offer_json imported m r b t : create_offer_macro imported m = Some r → NoDup (keys m) →
  says m "tx_code_required" b → says m "send_type" (MSend t) → de_create_offer (as_json (MObj m)) = Some r.
Proof.
  intros H Hnd Hb Ht. apply assoc_says in Hb, Ht. unfold create_offer_macro in H. apart H. injection H as <-.
  rewrite Hb in E7. rewrite Ht in E8. injection E8 as <-. destruct b; try done. injection E7 as <-.
  destruct m1 as [| | |[|v l]| | |]; try done. injection E1 as <-. rewrite grant_types_one in E6.
  rewrite as_json_obj. unfold de_create_offer, obj.
  rewrite (dflt_text _ _ _ _ Hnd E E3), (opt_text _ _ _ Hnd E4).
  assert (req de_strs "credential_configuration_ids" (entries_json m) = Some x3) as ->.
  { unfold req. rewrite lookups_json, E0 by done. rewrite (own_texts_json (MArr (v :: l)) x3) by done. apply de_strs_ser. }
  rewrite (opt_json _ _ _ _ _ Hnd E6) by (intros ?? _; apply grants_json).
  unfold req. rewrite !lookups_json, Hb, Ht by done. cbn [as_json]. by destruct t.
Qed.

(** ** Authorization details *)
Lemma plain_claim_obj v : plain_claim v → ∃ m, v = MObj m ∧ ∀ k (v : mvalue), (k, v) ∈ m → k ∉ ["mandatory"; "value_type"; "display"] ∧ plain_claim v.
Proof. intros [m H]. by exists m. Qed.
Lemma claim_loop_json m : (∀ k v, (k, v) ∈ m → k ∉ ["mandatory"; "value_type"; "display"] ∧ de_claim (as_json v) = Some (macro_claim v)) →
  ∀ set, claim_loop (entries_json m) None set =
    Some (match fold_left (λ acc kv, ainsert kv.1 kv.2 acc) (map (λ kv, (kv.1, macro_claim kv.2)) m) set with [] => CEntry None | s => CSet s end).
Proof.
  induction m as [|[k v] m IH]; intros H set; [by destruct set|]. cbn [entries_json map claim_loop fst snd fold_left].
  destruct (H k v) as [Hk Hv]; [apply elem_of_cons; by left|].
  rewrite !bool_decide_false by (intros ->; apply Hk; repeat constructor). rewrite Hv. apply IH.
  intros k' v' Hin. apply H. apply elem_of_cons. by right.
Qed.
Lemma claim_json v : plain_claim v → de_claim (as_json v) = Some (macro_claim v).
Proof.
  induction v as [| | | |m IH| |] using mvalue_ind'; intros Hpc; destruct (plain_claim_obj _ Hpc) as (m' & E & Hm); try done.
  injection E as <-. rewrite as_json_obj, de_claim_obj, claim_loop_json.
  - destruct m as [|kv m]; [done|]. rewrite macro_claim_set. unfold macro_claims, into_map.
    destruct (fold_left _ _ []) eqn:Ef; [|done]. exfalso. revert Ef. rewrite <- (rev_involutive (kv :: m)).
    destruct (rev (kv :: m)) eqn:Er. { apply (f_equal (@length _)) in Er. by rewrite rev_length in Er. }
    cbn [rev]. rewrite map_app, fold_left_app. cbn [map fold_left]. apply ainsert_nonnil.
  - intros k v Hin. destruct (Hm k v Hin) as [Hk Hp]. split; [done|]. rewrite Forall_forall in IH. by apply (IH (k, v)).
Qed.
Lemma de_entries_json m : (∀ k v, (k, v) ∈ m → de_claim (as_json v) = Some (macro_claim v)) →
  ∀ acc, de_entries de_claim (entries_json m) acc = Some (fold_left (λ acc kv, ainsert kv.1 kv.2 acc) (map (λ kv, (kv.1, macro_claim kv.2)) m) acc).
Proof.
  induction m as [|[k v] m IH]; intros H acc; [done|]. cbn [entries_json map de_entries fst snd fold_left].
  rewrite (H k v) by (apply elem_of_cons; by left). apply IH. intros k' v' Hin. apply (H k'). apply elem_of_cons. by right.
Qed.
Lemma claims_json m : (∀ k v, (k, v) ∈ m → plain_claim v) → de_claimset (as_json (MObj m)) = Some (macro_claims m).
Proof.
  intros H. rewrite as_json_obj. unfold de_claimset, de_map, obj. rewrite de_entries_json; [done|].
  intros k v Hin. apply claim_json. by apply (H k).
Qed.
(** A definition, with whatever the macro does with its claims. *)
Lemma definition_json sub m t s : NoDup (keys m) → plain_definition (MObj m) →
  option_of own_texts (assoc "type" (into_map m)) = Some t → option_of sub (assoc "credentialSubject" (into_map m)) = Some s →
  (∀ cs c, sub (MObj cs) = Some c → c = macro_claims cs) → de_definition (as_json (MObj m)) = Some (CredentialDefinition None t s).
Proof.
  intros Hnd (m' & [= <-] & Hctx & Hsub) Et Es Hm. rewrite as_json_obj. unfold de_definition, obj.
  rewrite (opt_unsaid _ _ _ Hnd Hctx). rewrite (opt_json own_texts _ _ _ _ Hnd Et).
  2: { intros v a _ Ea. rewrite (own_texts_json _ _ Ea). split; [apply de_strs_ser|done]. }
  rewrite (opt_json sub _ _ _ _ Hnd Es); [done|]. intros v a Ev Ea. apply assoc_says in Ev.
  destruct (Hsub v Ev) as (cs & -> & Hcs). rewrite (Hm _ _ Ea). split; [by apply claims_json|]. by rewrite as_json_obj.
Qed.
Lemma first_of_json m v : NoDup (keys m) → unsaid m "claims" → assoc "credential_definition" (into_map m) = Some v →
  first_of ["credential_definition"; "claims"] (entries_json m) = Some ("credential_definition", as_json v).
Proof.
  intros Hnd Hu. rewrite (into_map_once _ Hnd). unfold unsaid in Hu. clear Hnd. induction m as [|[k x] m IH]; [done|].
  simpl in Hu. apply not_elem_of_cons in Hu as [Hk Hu]. cbn [entries_json map fst snd assoc first_of]. case_bool_decide as E.
  - subst. intros [= ->]. done.
  - intros Ev. rewrite bool_decide_false; [by apply IH|]. intros Hin. apply elem_of_cons in Hin as [->|Hin]; [done|].
    apply elem_of_list_singleton in Hin. by subst.
Qed.
Lemma first_of_unsaid m : unsaid m "claims" → unsaid m "credential_definition" →
  first_of ["credential_definition"; "claims"] (entries_json m) = None.
Proof.
  unfold unsaid. intros H1 H2. induction m as [|[k x] m IH]; [done|].
  simpl in H1, H2. apply not_elem_of_cons in H1 as [H1 H1'], H2 as [H2 H2']. cbn [entries_json map fst snd first_of].
  rewrite bool_decide_false; [by apply IH|]. intros Hin. apply elem_of_cons in Hin as [->|Hin]; [done|].
  apply elem_of_list_singleton in Hin. by subst.
Qed.
Lemma subject_is cs c : subject_value (MObj cs) = Some c → c = macro_claims cs.
Proof. by intros [= <-]. Qed.
Lemma token_subject_is cs c : token_subject_value (MObj cs) = Some c → c = macro_claims cs.
Proof. destruct cs; [|done]. by intros [= <-]. Qed.
(** The parts of a detail that both macros share. *)
Lemma detail_json m c : NoDup (keys m) → plain_detail (MObj m) → de_authorization (entries_json m) = Some c →
  de_detail (as_json (MObj m)) = Some (AuthorizationDetail c None).
Proof.
  intros Hnd (m' & [= <-] & (t & Ht & Htt) & Hl & _) Hc. rewrite as_json_obj. unfold de_detail, obj, de_detail_entries.
  rewrite (opt_unsaid _ _ _ Hnd Hl), Hc. apply assoc_says in Ht. apply text_iff in Htt.
  unfold req. rewrite lookups_json, Ht by done. by rewrite (text_json _ _ Htt).
Qed.
Lemma format_json m x f d : NoDup (keys m) → assoc "credential_configuration_id" (into_map m) = None →
  assoc "format" (into_map m) = Some f → the_format f = Some x →
  (∃ v, assoc "credential_definition" (into_map m) = Some v ∧ de_definition (as_json v) = Some d) →
  de_authorization (entries_json m) = Some (ByFormat (FJwtVcJson d)).
Proof.
  intros Hnd Hid Hf Hx (v & Hv & Hd). apply the_format_iff in Hx as ->. unfold de_authorization, de_format, req.
  rewrite !lookups_json by done. rewrite Hid, Hf, Hv. cbn [as_json de_str]. rewrite bool_decide_true by done. by rewrite Hd.
Qed.
Lemma macro_detail_json v d : macro_detail v = Some d → unrepeated v → plain_detail v → de_detail (as_json v) = Some d.
Proof.
  destruct v as [| | | |m| |]; try done. simpl. intros H Hun Hp. destruct (unrepeated_obj _ Hun) as [Hnd Hin].
  apart H. injection H as <-. fold (as_json (MObj m)). apply detail_json; [done|done|].
  destruct Hp as (m' & [= <-] & _ & _ & Hcl & Hdef). unfold macro_authorization in E0.
  destruct (assoc "credential_configuration_id" (into_map m)) as [id|] eqn:Eid.
  - apart E0. injection E0 as <-. unfold de_authorization. rewrite (req_text _ _ _ _ Hnd Eid (own_is_text _ _ E2)).
    do 2 f_equal. unfold de_profile_claims.
    destruct (assoc "credential_definition" (into_map m)) as [c|] eqn:Ec.
    + apply bind_Some in E1 as (d & Hd & [= <-]). rewrite (first_of_json _ _ Hnd Hcl Ec). rewrite bool_decide_true by done.
      destruct c as [| | | |dm| |]; try done. cbn [configuration_definition] in Hd. rewrite subject_of_value in Hd. apart Hd. injection Hd as <-.
      rewrite (definition_json subject_value _ _ _ (proj1 (unrepeated_obj _ (Hin _ _ (assoc_in_map _ _ _ Ec))))
        (Hdef _ (proj1 (assoc_says _ _ _) Ec)) E1 E0 subject_is). done.
    + injection E1 as <-. rewrite first_of_unsaid; [done|done|by apply assoc_unsaid].
  - apart E0. injection E0 as <-. apply (format_json _ x4 x1); [done|done|done|done|]. exists x2. split; [done|].
    destruct x2 as [| | | |dm| |]; try done. cbn [format_definition] in E3. rewrite subject_of_value in E3. apart E3. injection E3 as <-.
    apply (definition_json subject_value); [|by apply Hdef, assoc_says| |done|apply subject_is].
    + exact (proj1 (unrepeated_obj _ (Hin _ _ (assoc_in_map _ _ _ E2)))).
    + rewrite E0. simpl. by rewrite E6.
Qed.
Lemma token_detail_json v d : token_detail v = Some d → unrepeated v → plain_detail v → de_detail (as_json v) = Some d.
Proof.
  destruct v as [| | | |m| |]; try done. simpl. intros H Hun Hp. destruct (unrepeated_obj _ Hun) as [Hnd Hin].
  apart H. injection H as <-. fold (as_json (MObj m)). apply detail_json; [done|done|].
  destruct Hp as (m' & [= <-] & _ & _ & Hcl & Hdef). unfold token_configuration in E0.
  destruct (assoc "credential_configuration_id" (into_map m)) as [id|] eqn:Eid.
  - destruct (assoc "credential_definition" (into_map m)) as [c|] eqn:Ec; [done|].
    apart E0. injection E0 as <-. unfold de_authorization. rewrite (req_text _ _ _ _ Hnd Eid (own_is_text _ _ E1)).
    do 2 f_equal. unfold de_profile_claims. rewrite first_of_unsaid; [done|done|by apply assoc_unsaid].
  - apart E0. injection E0 as <-. apply (format_json _ x4 x1); [done|done|done|done|]. exists x2. split; [done|].
    destruct x2 as [| | | |dm| |]; try done. cbn [token_definition] in E3. rewrite token_subject_of in E3. apart E3. injection E3 as <-.
    apply (definition_json token_subject_value); [|by apply Hdef, assoc_says| |done|apply token_subject_is].
    + exact (proj1 (unrepeated_obj _ (Hin _ _ (assoc_in_map _ _ _ E2)))).
    + rewrite E0. simpl. by rewrite E6.
Qed.
Lemma details_json f m o : (∀ v d, f v = Some d → unrepeated v → plain_detail v → de_detail (as_json v) = Some d) →
  unrepeated (MObj m) → plain_details m → option_of (one_of f) (assoc "authorization_details" (into_map m)) = Some o →
  opt (de_list de_detail) "authorization_details" (entries_json m) = Some o.
Proof.
  intros Hf Hun Hp Ho. destruct (unrepeated_obj _ Hun) as [Hnd Hin]. apply (opt_json (one_of f)); [done|done|].
  intros v l Ev El. pose proof (Hin _ _ (assoc_in_map _ _ _ Ev)) as Huv. apply assoc_says in Ev.
  apply (one_of_iff f (λ v a, f v = Some a)) in El; [|done]. destruct El as [[-> ->]|(x & d & -> & -> & Hx)]; [done|].
  split; [|done]. cbn [as_json map]. unfold de_list. cbn [mapM]. rewrite (Hf _ _ Hx); [done| |].
  - apply (unrepeated_arr _ Huv). by apply elem_of_list_singleton.
  - apply (Hp _ Ev). by apply elem_of_list_singleton.
Qed.

(** ** Token requests *)
Lemma token_json m r : token_macro m = Some r → unrepeated (MObj m) → plain_details m → de_token_request (as_json (MObj m)) = Some r.
Proof.
  intros H Hun Hp. destruct (unrepeated_obj _ Hun) as [Hnd Hin]. apply token_macro_iff in H.
  destruct H as (_ & Hi & Hc & Hg & Hd). destruct r as [i c g d]. cbn [tr_credential_issuer tr_client_id tr_grant tr_authorization_details] in *.
  apply required_text in Hi as (vi & Hi & Ti). apply optional_text in Hc.
  apply (optional_iff (one_of token_detail)) in Hd; [|intros; apply one_of_iff, token_detail_iff].
  rewrite as_json_obj. unfold de_token_request, obj. rewrite (dflt_text _ _ _ _ Hnd Hi Ti), (opt_text _ _ _ Hnd Hc).
  rewrite (details_json token_detail _ _ token_detail_json Hun Hp Hd).
  assert (de_token_grant (entries_json m) = Some g) as ->; [|done]. unfold de_token_grant. destruct g as [code uri verifier|code tx].
  - destruct Hg as (Hg & Hcode & Hu & v & -> & Hv). apply assoc_says in Hg.
    apply required_text in Hcode as (vc & Hcode & Tc), Hv as (vv & Hv & Tv). apply optional_text in Hu.
    rewrite (req_text _ _ _ "authorization_code" Hnd Hg) by done. rewrite bool_decide_true by done.
    rewrite (req_text _ _ _ _ Hnd Hcode Tc), (opt_text _ _ _ Hnd Hu). rewrite (opt_text _ _ (Some v) Hnd); [done|]. rewrite Hv. simpl. by rewrite Tv.
  - destruct Hg as (Hg & Hcode & Htx). apply assoc_says in Hg. apply required_text in Hcode as (vc & Hcode & Tc). apply optional_text in Htx.
    rewrite (req_text _ _ _ pre_authorized_name Hnd Hg) by done. rewrite bool_decide_false by done. rewrite bool_decide_true by done.
    rewrite (req_text _ _ _ _ Hnd Hcode Tc), (opt_text _ _ _ Hnd Htx). done.
Qed.

(** ** Credential requests *)
Lemma first_proof m : NoDup (keys m) → unsaid m "proofs" →
  first_of ["proof"; "proofs"] (entries_json m) = (λ v, ("proof", as_json v)) <$> assoc "proof" (into_map m).
Proof.
  intros Hnd Hu. rewrite (into_map_once _ Hnd). unfold unsaid in Hu. clear Hnd. induction m as [|[k x] m IH]; [done|].
  simpl in Hu. apply not_elem_of_cons in Hu as [Hk Hu]. cbn [entries_json map fst snd assoc first_of]. destruct (bool_decide_reflect ("proof" = k)) as [<-|E].
  - by rewrite bool_decide_true by (repeat constructor).
  - rewrite bool_decide_false; [by apply IH|]. intros Hin. apply elem_of_cons in Hin as [->|Hin]; [done|].
    apply elem_of_list_singleton in Hin. by subst.
Qed.
Definition bare_definition (m : mfields) : Prop :=
  ∀ d, says m "credential_definition" (MObj d) → unsaid d "@context" ∧ unsaid d "credentialSubject".
Lemma credential_json m r : credential_macro m = Some r → unrepeated (MObj m) → bare_definition m →
  de_credential_request (as_json (MObj m)) = Some r.
Proof.
  intros H Hun Hb. destruct (unrepeated_obj _ Hun) as [Hnd Hin]. apply credential_macro_iff in H.
  destruct H as (Ho & Hi & Ha & Hc & Hp). destruct r as [i a c p]. cbn [cr_credential_issuer cr_access_token cr_credential cr_proof] in *.
  apply required_text in Hi as (vi & Hi & Ti), Ha as (va & Ha & Ta).
  apply (optional_iff proof_value) in Hp; [|apply proof_value_iff].
  rewrite as_json_obj. unfold de_credential_request, obj. rewrite (dflt_text _ _ _ _ Hnd Hi Ti), (dflt_text _ _ _ _ Hnd Ha Ta).
  assert (de_issuance (entries_json m) = Some c) as ->.
  { unfold de_issuance. destruct c as [id|[d| | | |]]; try done.
    - apply required_text in Hc as (vid & Hid & Tid). by rewrite (req_text _ _ _ _ Hnd Hid Tid).
    - destruct Hc as (Hf & x & Hx & dm & ts & -> & (t & Ht & Hts) & ->).
      assert (Hid : unsaid m "credential_identifier").
      { intros Hid. apply Ho in Hid. by repeat (apply elem_of_cons in Hid as [?|Hid]; [done|]); apply elem_of_nil in Hid. }
      apply assoc_unsaid in Hid. destruct (Hb _ Hx) as [Hctx Hsub]. apply assoc_says in Hf, Hx, Ht. apply own_texts_iff in Hts.
      destruct (unrepeated_obj _ (Hin _ _ (assoc_in_map _ _ _ Hx))) as [Hndd _].
      unfold req at 1. rewrite lookups_json, Hid by done. unfold de_format.
      rewrite (req_text _ _ _ "jwt_vc_json" Hnd Hf) by done. rewrite bool_decide_true by done.
      unfold req. rewrite lookups_json, Hx by done. rewrite as_json_obj. unfold de_definition, obj.
      rewrite (opt_unsaid _ _ _ Hndd Hctx), (opt_unsaid _ _ _ Hndd Hsub).
      rewrite (opt_json own_texts _ _ _ (Some ts) Hndd); [done|by rewrite Ht; simpl; rewrite Hts|].
      intros v l _ El. rewrite (own_texts_json _ _ El). split; [apply de_strs_ser|done]. }
  assert (de_proof (entries_json m) = p) as ->; [|done].
  assert (Hps : unsaid m "proofs").
  { intros Hid. apply Ho in Hid. by destruct c; repeat (apply elem_of_cons in Hid as [?|Hid]; [done|]); apply elem_of_nil in Hid. }
  unfold de_proof. rewrite (first_proof _ Hnd Hps). destruct (assoc "proof" (into_map m)) as [v|] eqn:Ev; simpl in Hp; [|by injection Hp as <-].
  apply fmap_Some in Hp as (q & Hq & ->). cbn [fmap option_fmap option_map]. rewrite bool_decide_true by done.
  apply proof_value_iff in Hq as (pm & jwt & -> & Hpt & Hj & ->). rewrite as_json_obj. cbn [obj].
  destruct (unrepeated_obj _ (Hin _ _ (assoc_in_map _ _ _ Ev))) as [Hndp _]. apply assoc_says in Hpt.
  apply required_text in Hj as (vj & Hj & Tj). rewrite (req_text _ _ _ "jwt" Hndp Hpt) by done. rewrite bool_decide_true by done.
  by rewrite (req_text _ _ _ _ Hndp Hj Tj).
Qed.

(** ** Authorization requests: the reader goes through the members in the order in which they come. *)
Definition same_at (k : string) (a b : request_object) : Prop :=
  (k = "credential_issuer" → ro_credential_issuer a = ro_credential_issuer b) ∧
  (k = "response_type" → ro_response_type a = ro_response_type b) ∧
  (k = "client_id" → ro_client_id a = ro_client_id b) ∧
  (k = "redirect_uri" → ro_redirect_uri a = ro_redirect_uri b) ∧
  (k = "state" → ro_state a = ro_state b) ∧
  (k = "code_challenge" → ro_code_challenge a = ro_code_challenge b) ∧
  (k = "code_challenge_method" → ro_code_challenge_method a = ro_code_challenge_method b) ∧
  (k = "authorization_details" → ro_authorization_details a = ro_authorization_details b) ∧
  (k = "scope" → ro_scope a = ro_scope b) ∧
  (k = "subject_id" → ro_subject_id a = ro_subject_id b) ∧
  (k = "issuer_state" → ro_issuer_state a = ro_issuer_state b).
Lemma same_at_refl k a : same_at k a a.
Proof. by repeat split. Qed.
Lemma same_at_trans k a b c : same_at k a b → same_at k b c → same_at k a c.
Proof.
  intros (?&?&?&?&?&?&?&?&?&?&?) (?&?&?&?&?&?&?&?&?&?&?). repeat split; intros Hk;
  match goal with H : k = ?n → ?x = _, H' : k = ?n → _ = ?y |- ?x = ?y => rewrite (H Hk); by apply H' end.
Qed.
Lemma same_everywhere a b : (∀ k, same_at k a b) → a = b.
Proof.
  intros H. destruct a, b. f_equal;
  [by apply (H "credential_issuer")|by apply (H "response_type")|by apply (H "client_id")|by apply (H "redirect_uri")
  |by apply (H "state")|by apply (H "code_challenge")|by apply (H "code_challenge_method")|by apply (H "authorization_details")
  |by apply (H "scope")|by apply (H "subject_id")|by apply (H "issuer_state")].
Qed.
Definition reads_to (strict : bool) (k : string) (j : json) (r : request_object) : Prop :=
  ∀ r0, ∃ r1, read_key strict k j r0 "" = Some (r1, "") ∧ same_at k r1 r ∧ ∀ k', k' ≠ k → same_at k' r1 r0.
Lemma read_keys_to strict m r : NoDup (keys m) → (∀ k j, (k, j) ∈ m → reads_to strict k j r) →
  ∀ r0, ∃ r1, read_keys strict m r0 "" = Some (r1, "") ∧ (∀ k, k ∈ keys m → same_at k r1 r) ∧ ∀ k, k ∉ keys m → same_at k r1 r0.
Proof.
  induction m as [|[k j] m IH]; intros Hnd H r0.
  - exists r0. split; [done|]. split; [intros k Hk; by apply elem_of_nil in Hk|]. intros; apply same_at_refl.
  - simpl in Hnd. apply NoDup_cons in Hnd as [Hn Hnd]. destruct (H k j) with (r0 := r0) as (r1 & E1 & Hk & Ho); [apply elem_of_cons; by left|].
    destruct IH with (r0 := r1) as (r2 & E2 & Hk2 & Ho2); [done|intros k' j' Hin; apply H; apply elem_of_cons; by right|].
    exists r2. cbn [read_keys]. rewrite E1. split; [done|]. split.
    + intros k' Hk'. simpl in Hk'. apply elem_of_cons in Hk' as [->|Hk']; [|by apply Hk2].
      apply (same_at_trans _ _ r1); [by apply Ho2|done].
    + intros k' Hk'. simpl in Hk'. apply not_elem_of_cons in Hk' as [Hne Hk']. apply (same_at_trans _ _ r1); [by apply Ho2|by apply Ho].
Qed.
Ltac at_key := intros r0; destruct r0; eexists; split; [unfold read_key;
    repeat (rewrite bool_decide_false by discriminate);
    try (rewrite bool_decide_false by (intros Hin; repeat (apply elem_of_cons in Hin as [?|Hin]; [discriminate|]); by apply elem_of_nil in Hin));
    repeat (rewrite bool_decide_false by discriminate); try (rewrite bool_decide_true by first [done|repeat constructor]); cbn [de_str]; try reflexivity
  |split; [repeat split; intros; try discriminate; cbn; try done|intros k' Hne; repeat split; intros; try congruence; done]].
Lemma authorization_json strict m r : authorization_macro m = Some r → unrepeated (MObj m) → plain_details m →
  required a_text "response_type" m "code" → required a_text "code_challenge_method" m "S256" →
  de_authorization_request strict (as_json (MObj m)) = Some (ARObject r).
Proof.
  intros H Hun Hp Hrt Hcm. destruct (unrepeated_obj _ Hun) as [Hnd Hin].
  assert (Had : opt (de_list de_detail) "authorization_details" (entries_json m) = Some (ro_authorization_details r)).
  { unfold authorization_macro in H. apart H. injection H as <-. rewrite details_one in E5.
    by apply (details_json macro_detail _ _ macro_detail_json). }
  apply authorization_macro_built in H.
  destruct H as (Ho & Hi & _ & Ert & Hc & Hru & Hst & Hcc & _ & Ecm & Hd & Hsc & [re Hre] & Hsu & [wi Hwi] & [uh Huh] & His).
  assert (Hnj : NoDup (keys (entries_json m))) by (unfold keys, entries_json; rewrite map_map; exact Hnd).
  assert (Hkeys : ∀ k, k ∈ keys (entries_json m) ↔ k ∈ keys m) by (intros k; unfold keys, entries_json; rewrite map_map; done).
  assert (Hopt : ∀ k o j, optional a_text k m o → (k, j) ∈ entries_json m → ∃ s, j = JStr s ∧ o = Some s).
  { intros k o j Hk Hj. apply elem_of_list_In, in_map_iff in Hj as ([k' v] & [= -> <-] & Hv). apply elem_of_list_In in Hv.
    apply optional_text in Hk. rewrite (into_map_once _ Hnd), (assoc_elem _ _ _ Hnd Hv) in Hk. simpl in Hk.
    apply fmap_Some in Hk as (s & Hs & ->). exists s. by rewrite (text_json _ _ Hs). }
  assert (Hreq : ∀ k s j, required a_text k m s → (k, j) ∈ entries_json m → j = JStr s).
  { intros k s j Hk Hj. apply elem_of_list_In, in_map_iff in Hj as ([k' v] & [= -> <-] & Hv). apply elem_of_list_In in Hv.
    apply required_text in Hk as (v' & Hk & Hs). rewrite (into_map_once _ Hnd), (assoc_elem _ _ _ Hnd Hv) in Hk. injection Hk as <-.
    by apply text_json. }
  rewrite as_json_obj. unfold de_authorization_request, obj.
  destruct (read_keys_to strict (entries_json m) r Hnj) with (r0 := empty_request) as (r1 & -> & Hk & Hn).
  - intros k j Hj. assert (Hkn : k ∈ authorization_names). { apply Ho, Hkeys. change k with (k, j).1. by apply elem_of_list_fmap_1. }
    unfold authorization_names in Hkn.
    apply elem_of_cons in Hkn as [->|Hkn]. { rewrite (Hreq _ _ _ Hi Hj). at_key. }
    apply elem_of_cons in Hkn as [->|Hkn]. { rewrite (Hreq _ _ _ Hrt Hj). at_key. }
    apply elem_of_cons in Hkn as [->|Hkn]. { rewrite (Hreq _ _ _ Hc Hj). at_key. }
    apply elem_of_cons in Hkn as [->|Hkn]. { destruct (Hopt _ _ _ Hru Hj) as (s & -> & Es). at_key. }
    apply elem_of_cons in Hkn as [->|Hkn]. { destruct (Hopt _ _ _ Hst Hj) as (s & -> & Es). at_key. }
    apply elem_of_cons in Hkn as [->|Hkn]. { rewrite (Hreq _ _ _ Hcc Hj). at_key. }
    apply elem_of_cons in Hkn as [->|Hkn]. { rewrite (Hreq _ _ _ Hcm Hj). at_key. }
    apply elem_of_cons in Hkn as [->|Hkn].
    { assert (∃ l, de_list de_detail j = Some l ∧ ro_authorization_details r = Some l) as (l & El & Er).
      { revert Had. apply elem_of_list_In, in_map_iff in Hj as ([k' v] & [= -> <-] & Hv). apply elem_of_list_In in Hv.
        unfold opt. rewrite lookups_json by done. rewrite (into_map_once _ Hnd), (assoc_elem _ _ _ Hnd Hv). intros Had.
        destruct (ro_authorization_details r) as [l|]; [|exfalso].
        - exists l. split; [|done]. destruct (as_json v); try done; by apply fmap_Some in Had as (? & -> & [= ->]).
        - simpl in Hd. apply (says_unsaid m "authorization_details" v); [|done]. apply assoc_says. rewrite (into_map_once _ Hnd).
          by apply assoc_elem. }
      intros r0; destruct r0; eexists; split; [unfold read_key; repeat (rewrite bool_decide_false by discriminate);
        rewrite bool_decide_true by done; rewrite El; reflexivity|].
      split; [repeat split; intros; try discriminate; cbn; done|intros k' Hne; repeat split; intros; try congruence; done]. }
    apply elem_of_cons in Hkn as [->|Hkn]. { destruct (Hopt _ _ _ Hsc Hj) as (s & -> & Es). at_key. }
    apply elem_of_cons in Hkn as [->|Hkn]. { destruct (Hopt _ _ _ Hre Hj) as (s & -> & Es). at_key. }
    apply elem_of_cons in Hkn as [->|Hkn]. { rewrite (Hreq _ _ _ Hsu Hj). at_key. }
    apply elem_of_cons in Hkn as [->|Hkn]. { destruct (Hopt _ _ _ Hwi Hj) as (s & -> & Es). at_key. }
    apply elem_of_cons in Hkn as [->|Hkn]. { destruct (Hopt _ _ _ Huh Hj) as (s & -> & Es). at_key. }
    apply elem_of_list_singleton in Hkn as ->. destruct (Hopt _ _ _ His Hj) as (s & -> & Es). at_key.
  - rewrite bool_decide_true by done. do 2 f_equal. apply same_everywhere. intros k.
    destruct (decide (k ∈ keys (entries_json m))) as [Hi'|Hi']; [by apply Hk|].
    pose proof (Hn k Hi') as Hs. rewrite Hkeys in Hi'.
    assert (HR : ∀ n s, required a_text n m s → k = n → False).
    { intros n s (v & Hv & _) ->. by apply (says_unsaid m n v). }
    assert (HO : ∀ n A (P : mvalue → A → Prop) o, optional P n m o → k = n → o = None).
    { intros n A P [a|] Hn' ->; [|done]. destruct Hn' as (v & Hv & _). exfalso. by apply (says_unsaid m n v). }
    apply (same_at_trans _ _ empty_request); [done|]. unfold same_at, empty_request. cbn [ro_credential_issuer ro_response_type ro_client_id ro_redirect_uri ro_state ro_code_challenge
      ro_code_challenge_method ro_authorization_details ro_scope ro_subject_id ro_issuer_state].
    split; [intros E; by destruct (HR _ _ Hi E)|]. split; [by rewrite Ert|]. split; [intros E; by destruct (HR _ _ Hc E)|].
    split; [intros E; by rewrite (HO _ _ _ _ Hru E)|]. split; [intros E; by rewrite (HO _ _ _ _ Hst E)|].
    split; [intros E; by destruct (HR _ _ Hcc E)|]. split; [by rewrite Ecm|]. split; [intros E; by rewrite (HO _ _ _ _ Hd E)|].
    split; [intros E; by rewrite (HO _ _ _ _ Hsc E)|]. split; [intros E; by destruct (HR _ _ Hsu E)|intros E; by rewrite (HO _ _ _ _ His E)].
Qed.
