From Verif Require Import Base Json CoreModel VcModel BuilderSpec.

Lemma add_values {A} (q : quota A) x : values (quota_add q x) = values q ++ [x].
Proof. by destruct q. Qed.
Lemma adds_values {A} (q : quota A) xs : values (foldl quota_add q xs) = values q ++ xs.
Proof.
  revert q. induction xs as [|x xs IH]; intros q; simpl; [by rewrite app_nil_r|].
  rewrite IH, add_values, <-app_assoc. done.
Qed.
Lemma shapes {A} (q : quota A) (k : kind A) :
  (quota_is_one q = true ↔ ∃ x, q = QOne x) ∧ (quota_is_many q = true ↔ ∃ l, q = QMany l) ∧
  (kind_is_string k = true ↔ ∃ s, k = KString s) ∧ (kind_is_object k = true ↔ ∃ x, k = KObject x).
Proof.
  repeat split; try (by intros [? ->]); (destruct q as [x|l]; destruct k as [s|y]; intros H; try discriminate H; eexists; reflexivity).
Qed.
Lemma quota_counts {A} (q : quota A) :
  quota_len q = length (values q) ∧ (quota_is_empty q = true ↔ values q = []).
Proof. destruct q as [a|[|a l]]; done. Qed.
Lemma adds_translations ls vs : translations (foldl ls_add ls vs) = translations ls ++ vs.
Proof.
  revert ls. induction vs as [|v vs IH]; intros ls; simpl; [by rewrite app_nil_r|].
  rewrite IH. replace (translations (ls_add ls v)) with (translations ls ++ [v]); [by rewrite <-app_assoc|].
  destruct ls as [s|q]; simpl; [done|]. by rewrite add_values.
Qed.
Lemma ls_counts ls : ls_len ls = length (translations ls) ∧ (ls_is_empty ls = true ↔ translations ls = []).
Proof.
  unfold ls_is_empty. destruct ls as [s|[a|[|a l]]]; done.
Qed.
Lemma find_lang_spec lang l s : find_lang lang l = Some s ↔
  ∃ l1 v l2, l = l1 ++ v :: l2 ∧ lv_language v = Some lang ∧ lv_value v = s ∧ ∀ v', v' ∈ l1 → lv_language v' ≠ Some lang.
Proof.
  induction l as [|v l IH]; simpl.
  - split; [done|]. by intros ([|] & ? & ? & [=] & _).
  - case_bool_decide as Hv.
    + split.
      * intros [= <-]. exists [], v, l. split; [done|]. split; [done|]. split; [done|]. by intros v' ?%elem_of_nil.
      * intros ([|w l1] & v' & l2 & Heq & Hl & Hs & Hn); simpl in Heq; injection Heq as -> ->; [by rewrite Hs|].
        destruct (Hn w); [by left|done].
    + rewrite IH. split.
      * intros (l1 & v' & l2 & -> & Hl & Hs & Hn). exists (v :: l1), v', l2. split; [done|]. split; [done|]. split; [done|].
        intros w [->|Hw]%elem_of_cons; auto.
      * intros ([|w l1] & v' & l2 & Heq & Hl & Hs & Hn); simpl in Heq; injection Heq as -> ->; [done|].
        exists l1, v', l2. split; [done|]. split; [done|]. split; [done|]. intros w' Hw'. apply Hn. by right.
Qed.
Lemma ls_value_spec q lang s : ls_value (KObject q) lang = Some s ↔
  ∃ l1 v l2, values q = l1 ++ v :: l2 ∧ lv_language v = Some lang ∧ lv_value v = s ∧
    ∀ v', v' ∈ l1 → lv_language v' ≠ Some lang.
Proof. rewrite <-find_lang_spec. destruct q as [a|l]; simpl; [by case_bool_decide|done]. Qed.

(** ** Credentials *)
Lemma cs_is_default_spec s : cs_is_default s = true ↔ s = empty_subject.
Proof. destruct s as [[i|] [|c l]]; split; done. Qed.
Lemma has_content_spec s : has_content s ↔ cs_is_default s = false.
Proof.
  destruct s as [[i|] [|c l]]; unfold has_content; simpl; (split; [naive_solver|]); intros; try done;
    first [by left|by right].
Qed.

Fixpoint drop_empty (l : list credential_subject) : list credential_subject :=
  match l with [] => [] | s :: r => if cs_is_default s then drop_empty r else s :: r end.
Lemma drop_empty_snoc l s : drop_empty (l ++ [s]) =
  match drop_empty l with [] => if cs_is_default s then [] else [s] | d => d ++ [s] end.
Proof.
  induction l as [|x l IH]; simpl; [done|]. destruct (cs_is_default x); [exact IH|]. done.
Qed.
Lemma drop_empty_nil l : drop_empty l = [] ↔ ∀ s, s ∈ l → cs_is_default s = true.
Proof.
  induction l as [|x l IH]; simpl.
  - split; [by intros _ s ?%elem_of_nil|done].
  - destruct (cs_is_default x) eqn:E.
    + rewrite IH. split.
      * intros H s [->|Hs]%elem_of_cons; auto.
      * intros H s Hs. apply H. by right.
    + split; [done|]. intros H. rewrite (H x) in E by by left. done.
Qed.
Lemma drop_empty_suffix l : ∃ pre, l = pre ++ drop_empty l ∧ ∀ s, s ∈ pre → s = empty_subject.
Proof.
  induction l as [|x l (pre & IH & Hp)]; simpl.
  - exists []. split; [done|]. by intros s ?%elem_of_nil.
  - destruct (cs_is_default x) eqn:E.
    + exists (x :: pre). split; [by rewrite IH at 1|]. apply cs_is_default_spec in E as ->.
      intros s [->|Hs]%elem_of_cons; auto.
    + exists []. split; [done|]. by intros s ?%elem_of_nil.
Qed.
Definition subject_state (l : list credential_subject) : quota credential_subject :=
  match drop_empty l with [] => QOne cs_default | [s] => QOne s | d => QMany d end.

Lemma subject_step l s :
  subject_state (l ++ [s]) =
  match subject_state l with
  | QOne one => if cs_is_default one then QOne s else QMany [one; s]
  | QMany l => QMany (l ++ [s])
  end.
Proof.
  unfold subject_state. rewrite drop_empty_snoc.
  assert (∀ d r, drop_empty l = d :: r → cs_is_default d = false) as Hd.
  { induction l as [|x l IH]; simpl; [done|]. destruct (cs_is_default x) eqn:E; [exact IH|]. by intros d r [= <- _]. }
  destruct (drop_empty l) as [|d [|d' r]] eqn:E; simpl.
  - destruct (cs_is_default s) eqn:Es; [|done]. apply cs_is_default_spec in Es as ->. done.
  - by rewrite (Hd d []).
  - done.
Qed.

Definition expected_vc (cs : list vc_call) : vc :=
  VC (KString "https://www.w3.org/2018/credentials/v1" :: contexts_given cs) (last (ids_given cs))
     (match types_given cs with [] => QOne "VerifiableCredential" | l => QMany ("VerifiableCredential" :: l) end)
     (default None (last (names_given cs))) (default None (last (descriptions_given cs)))
     (KString (default "" (last (issuers_given cs)))) (subject_state (subjects_given cs)) None None
     (default None (last (statuses_given cs)))
     (match proofs_given cs with [] => None | [p] => Some (QOne p) | l => Some (QMany l) end).

Lemma builder_state cs : vc_builder cs = expected_vc cs.
Proof.
  unfold vc_builder. induction cs as [|c cs IH] using rev_ind; [done|].
  rewrite foldl_app. cbn [foldl]. rewrite IH. unfold expected_vc.
  unfold contexts_given, ids_given, types_given, names_given, descriptions_given, issuers_given,
    subjects_given, statuses_given, proofs_given.
  rewrite !omap_app. destruct c; cbn [vc_step omap list_omap]; rewrite ?app_nil_r, ?last_snoc;
    unfold vcb_add_context, vcb_id, vcb_add_type, vcb_add_name, vcb_add_description, vcb_issuer,
      vcb_add_subject, vcb_add_proof, vcb_status;
    cbn [vc_context vc_id vc_type vc_name vc_description vc_issuer vc_subject vc_valid_from vc_valid_until vc_status vc_proof];
    try done.
  - f_equal. by destruct (omap _ cs).
  - f_equal. symmetry. apply subject_step.
  - f_equal. by destruct (omap _ cs) as [|p' [|p'' l]].
Qed.

Lemma complete_build cs : complete cs ↔ vcb_build (vc_builder cs) = Ok (vc_builder cs).
Proof.
  rewrite builder_state. unfold complete, vcb_build, expected_vc.
  cbn [vc_context vc_id vc_type vc_name vc_description vc_issuer vc_subject].
  assert ((∃ s, s ∈ subjects_given cs ∧ has_content s) ↔
    (match subject_state (subjects_given cs) with QOne s => cs_is_default s | QMany _ => false end) = false) as Hs.
  { unfold subject_state. destruct (drop_empty (subjects_given cs)) as [|s l] eqn:E.
    - simpl. split; [|done]. intros (s & Hin & Hc%has_content_spec).
      rewrite drop_empty_nil in E. rewrite (E _ Hin) in Hc. done.
    - assert (cs_is_default s = false ∧ s ∈ subjects_given cs) as [Hd Hin].
      { clear -E. induction (subjects_given cs) as [|x l' IH]; simpl in E; [done|].
        destruct (cs_is_default x) eqn:Ex.
        - destruct IH; [done|]. split; [done|by right].
        - injection E as -> ->. split; [done|by left]. }
      destruct l; (split; [by intros|intros _; exists s; by rewrite has_content_spec]). }
  rewrite Hs. clear Hs.
  destruct (contexts_given cs) as [|c l]; simpl; [split; [naive_solver|done]|].
  destruct (types_given cs) as [|t l']; simpl; [split; [naive_solver|done]|].
  destruct (last (issuers_given cs)) as [i|]; simpl.
  2:{ split; [|done]. intros (_ & _ & (i & [=] & _) & _). }
  destruct (str_is_empty i) eqn:Ei.
  { split; [|done]. intros (_ & _ & (i' & [= <-] & Hi) & _). by destruct i. }
  destruct (match subject_state _ with QOne s => _ | QMany _ => _ end).
  { split; [|done]. by intros (_ & _ & _ & [=]). }
  split; [done|]. intros _. split; [done|]. split; [done|]. split; [|done]. exists i. split; [done|]. by intros ->.
Qed.
Lemma build_cases b : vcb_build b = Ok b ∨ ∃ e, vcb_build b = Err e.
Proof. unfold vcb_build. repeat case_match; eauto. Qed.
Lemma build_iff cs :
  (∃ v, vcb_build (vc_builder cs) = Ok v) ↔ complete cs.
Proof.
  rewrite complete_build. split; [|eauto]. intros (v & Hv).
  destruct (build_cases (vc_builder cs)) as [H|(e & H)]; congruence.
Qed.
Lemma build_err cs : (∃ e, vcb_build (vc_builder cs) = Err e) ↔ ¬ complete cs.
Proof.
  rewrite complete_build. destruct (build_cases (vc_builder cs)) as [H|(e & H)].
  - split; [|done]. intros (e & He). congruence.
  - split; [|eauto]. intros _ H'. congruence.
Qed.
Lemma built_ok cs v : vcb_build (vc_builder cs) = Ok v → v = expected_vc cs ∧ complete cs.
Proof.
  intros H. assert (complete cs) as Hc by (apply build_iff; eauto). split; [|done].
  apply complete_build in Hc. rewrite <-builder_state. congruence.
Qed.
Lemma build_carries cs v :
  vcb_build (vc_builder cs) = Ok v →
  vc_context v = KString "https://www.w3.org/2018/credentials/v1" :: contexts_given cs ∧
  values (vc_type v) = "VerifiableCredential" :: types_given cs ∧
  (∃ before, subjects_given cs = before ++ values (vc_subject v) ∧ ∀ s, s ∈ before → s = empty_subject) ∧
  (∃ i, vc_issuer v = KString i ∧ last (issuers_given cs) = Some i) ∧
  vc_id v = last (ids_given cs) ∧
  vc_name v = default None (last (names_given cs)) ∧
  vc_description v = default None (last (descriptions_given cs)) ∧
  vc_status v = default None (last (statuses_given cs)) ∧
  from_option values [] (vc_proof v) = proofs_given cs.
Proof.
  intros [-> (Hc & Ht & (i & Hi & _) & (s & Hs & Hcont))]%built_ok. unfold expected_vc.
  cbn [vc_context vc_id vc_type vc_name vc_description vc_issuer vc_subject vc_valid_from vc_valid_until vc_status vc_proof].
  split; [done|]. split; [by destruct (types_given cs)|]. split.
  { destruct (drop_empty_suffix (subjects_given cs)) as (pre & Hpre & Hp). exists pre. split; [|done].
    rewrite Hpre at 1. f_equal. unfold subject_state. destruct (drop_empty (subjects_given cs)) as [|x [|y l]] eqn:E; [|done..].
    rewrite drop_empty_nil in E. apply has_content_spec in Hcont. rewrite (E _ Hs) in Hcont. done. }
  split; [exists i; by rewrite Hi|]. split; [done|]. split; [done|]. split; [done|]. split; [done|].
  by destruct (proofs_given cs) as [|p [|p' l]].
Qed.

(** ** Claims *)
Lemma claims_ok {E} v at_ s rest : values (vc_subject v) = s :: rest →
  ∃ c, @vc_claims_from E v at_ = Ok c ∧
    vcc_sub c = default "" (cs_id s) ∧ vcc_jti c = default "" (vc_id v) ∧
    (∀ i, vc_issuer v = KString i ∨ vc_issuer v = KObject i → vcc_iss c = i) ∧
    vcc_iat c = at_ ∧ vcc_exp c = option_map timestamp (vc_valid_until v) ∧ vcc_vc c = v.
Proof.
  intros H. unfold vc_claims_from. destruct (vc_subject v) as [s'|l]; simpl in H.
  - injection H as -> <-. eexists. split; [done|]. repeat split; cbn. intros i [->| ->]; done.
  - subst l. eexists. split; [done|]. repeat split; cbn. intros i [->| ->]; done.
Qed.
Lemma claims_panic {E} v at_ : (∃ w, @vc_claims_from E v at_ = Panic w) ↔ values (vc_subject v) = [].
Proof.
  unfold vc_claims_from. destruct (vc_subject v) as [s|[|s l]]; simpl; (split; [by intros []|]); try done; eauto.
Qed.
Lemma built_never_panics {E} cs v at_ w : vcb_build (vc_builder cs) = Ok v → @vc_claims_from E v at_ ≠ Panic w.
Proof.
  intros H Hp. assert (values (vc_subject v) = []) as Hv by (apply (claims_panic (E := E) v at_); eauto).
  apply built_ok in H as [-> _]. unfold expected_vc, subject_state in Hv. cbn [vc_subject] in Hv.
  by destruct (drop_empty _) as [|x [|y l]].
Qed.

(** ** Presentations *)
Definition expected_vp (uuid : string) (cs : list vp_call) : vp :=
  VP (KString "https://www.w3.org/2018/credentials/v1" :: vp_contexts_given cs) (Some ("urn:uuid:" +:+ uuid))
     (match vp_types_given cs with [] => QOne "VerifiablePresentation" | l => QMany ("VerifiablePresentation" :: l) end)
     (match vp_credentials_given cs with [] => None | l => Some l end) (last (vp_holders_given cs)) None.
Lemma vp_builder_state uuid cs : vp_builder uuid cs = expected_vp uuid cs.
Proof.
  unfold vp_builder. induction cs as [|c cs IH] using rev_ind; [done|].
  rewrite foldl_app. cbn [foldl]. rewrite IH. unfold expected_vp.
  unfold vp_contexts_given, vp_types_given, vp_credentials_given, vp_holders_given.
  rewrite !omap_app. destruct c; cbn [vp_step omap list_omap]; rewrite ?app_nil_r, ?last_snoc;
    unfold vpb_add_context, vpb_add_type, vpb_add_credential, vpb_holder;
    cbn [vp_context vp_id vp_type vp_credential vp_holder vp_proof]; try done.
  - f_equal. by destruct (omap _ cs).
  - f_equal. by destruct (omap _ cs).
Qed.
Lemma vp_build_iff uuid cs :
  (∃ v, vpb_build (vp_builder uuid cs) = Ok v) ↔ vp_contexts_given cs ≠ [] ∧ vp_types_given cs ≠ [].
Proof.
  rewrite vp_builder_state. unfold vpb_build, expected_vp. cbn [vp_context vp_type].
  destruct (vp_contexts_given cs) as [|c l], (vp_types_given cs) as [|t l']; simpl; naive_solver.
Qed.
Lemma vp_build_err uuid cs :
  (∃ e, vpb_build (vp_builder uuid cs) = Err e) ↔ vp_contexts_given cs = [] ∨ vp_types_given cs = [].
Proof.
  rewrite vp_builder_state. unfold vpb_build, expected_vp. cbn [vp_context vp_type].
  destruct (vp_contexts_given cs) as [|c l], (vp_types_given cs) as [|t l']; simpl; naive_solver.
Qed.
Lemma vp_build_carries uuid cs v :
  vpb_build (vp_builder uuid cs) = Ok v →
  vp_context v = KString "https://www.w3.org/2018/credentials/v1" :: vp_contexts_given cs ∧
  values (vp_type v) = "VerifiablePresentation" :: vp_types_given cs ∧
  default [] (vp_credential v) = vp_credentials_given cs ∧
  vp_holder v = last (vp_holders_given cs) ∧ vp_id v = Some ("urn:uuid:" +:+ uuid).
Proof.
  rewrite vp_builder_state. unfold vpb_build. repeat case_match; try done. intros [= <-].
  unfold expected_vp. cbn [vp_context vp_type vp_credential vp_holder vp_id].
  split; [done|]. split; [by destruct (vp_types_given cs)|]. split; [by destruct (vp_credentials_given cs)|]. done.
Qed.
Lemma vp_new_fails uuid : ∃ e, vpb_build (vpb_new uuid) = Err e.
Proof. eauto. Qed.
