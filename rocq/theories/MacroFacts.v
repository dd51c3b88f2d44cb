(** Facts about the request macros. *)
From Verif Require Import Base Json MatcherModel JsonParse CoreModel VcModel Prog IssuerTypes SerdeModel SerdeFacts
  MacroModel MacroSpec.

(** ** What is said *)
Lemma assoc_ainsert {A} k k' (a : A) l : assoc k (ainsert k' a l) = if bool_decide (k' = k) then Some a else assoc k l.
Proof.
  induction l as [|[k1 v] l IH]; simpl.
  - case_bool_decide as E; case_bool_decide as E'; congruence.
  - destruct (bool_decide_reflect (k' = k1)) as [->|H]; simpl.
    + repeat case_bool_decide; congruence.
    + destruct (bool_decide_reflect (k = k1)) as [->|H'].
      * by rewrite bool_decide_false.
      * exact IH.
Qed.
Lemma says_app m k v k' v' : says (m ++ [(k', v')]) k v ↔ (k' = k ∧ v' = v) ∨ (k' ≠ k ∧ says m k v).
Proof.
  split.
  - intros (a & b & E & Hb). destruct b as [|[kb vb] b _] using rev_ind.
    + apply app_inj_tail in E as [_ E]. left. by simplify_eq.
    + rewrite app_comm_cons, app_assoc in E. apply app_inj_tail in E as [-> E]. simplify_eq.
      rewrite keys_app in Hb. right. split.
      * intros ->. apply Hb. apply elem_of_app. right. by apply elem_of_list_singleton.
      * exists a, b. split; [done|]. intros Hin. apply Hb. apply elem_of_app. by left.
  - intros [[-> ->]|[Hne (a & b & -> & Hb)]].
    + exists m, []. split; [done|]. apply not_elem_of_nil.
    + exists a, (b ++ [(k', v')]). split; [by rewrite <- app_assoc|]. rewrite keys_app. intros Hin.
      apply elem_of_app in Hin as [?|Hin]; [done|]. apply elem_of_list_singleton in Hin. simpl in Hin. congruence.
Qed.
Lemma into_map_snoc {A} (m : list (string * A)) kv : into_map (m ++ [kv]) = ainsert kv.1 kv.2 (into_map m).
Proof. unfold into_map. by rewrite fold_left_app. Qed.
Lemma assoc_says m k v : assoc k (into_map m) = Some v ↔ says m k v.
Proof.
  induction m as [|[k' v'] m IH] using rev_ind.
  - simpl. split; [done|]. intros (a & b & E & _). by destruct a.
  - rewrite into_map_snoc, assoc_ainsert, says_app. simpl. case_bool_decide as E.
    + subst. split; [intros [= ->]; by left|intros [[_ ->]|[? _]]; done].
    + rewrite IH. split; [intros H; by right|intros [[? _]|[_ ?]]; done].
Qed.
Lemma keys_into_map {A} (m : list (string * A)) k : k ∈ keys (into_map m) ↔ k ∈ keys m.
Proof.
  induction m as [|[k' v'] m IH] using rev_ind; [done|].
  rewrite into_map_snoc, keys_ainsert', keys_app, elem_of_app, IH. simpl. rewrite elem_of_list_singleton. naive_solver.
Qed.
Lemma nodup_into_map {A} (m : list (string * A)) : NoDup (keys (into_map m)).
Proof.
  induction m as [|[k' v'] m IH] using rev_ind; [apply NoDup_nil_2|]. rewrite into_map_snoc. by apply nodup_ainsert'.
Qed.
Lemma assoc_none {A} k (m : list (string * A)) : assoc k m = None ↔ k ∉ keys m.
Proof.
  induction m as [|[k' v] m IH]; simpl; [split; [intros _; apply not_elem_of_nil|done]|].
  rewrite not_elem_of_cons. case_bool_decide as E; [split; [done|intros [? _]; done]|]. rewrite IH. naive_solver.
Qed.
Lemma assoc_unsaid m k : assoc k (into_map m) = None ↔ unsaid m k.
Proof. rewrite assoc_none. unfold unsaid. by rewrite keys_into_map. Qed.
Lemma says_fun m k v v' : says m k v → says m k v' → v = v'.
Proof. intros H H'. apply assoc_says in H, H'. congruence. Qed.
Lemma says_unsaid m k v : says m k v → unsaid m k → False.
Proof. intros H H'. apply assoc_says in H. apply assoc_unsaid in H'. congruence. Qed.
Lemma said m k : (∃ v, says m k v) ∨ unsaid m k.
Proof.
  destruct (assoc k (into_map m)) as [v|] eqn:E; [left; exists v; by apply assoc_says|right; by apply assoc_unsaid].
Qed.

(** ** Taking entries out *)
Lemma assoc_delete {A} k k' (m : list (string * A)) : k ≠ k' → assoc k (adelete k' m) = assoc k m.
Proof.
  intros Hne. unfold adelete. induction m as [|[k1 v] m IH]; [done|]. simpl.
  destruct (bool_decide_reflect (k1 = k')) as [->|E]; simpl.
  - rewrite (bool_decide_false (k = k')) by done. exact IH.
  - case_bool_decide; [done|exact IH].
Qed.
Lemma keys_delete {A} k k' (m : list (string * A)) : k ∈ keys (adelete k' m) ↔ k ∈ keys m ∧ k ≠ k'.
Proof.
  unfold adelete. induction m as [|[k1 v] m IH].
  - simpl. rewrite elem_of_nil. naive_solver.
  - simpl. destruct (bool_decide_reflect (k1 = k')) as [->|E]; simpl; rewrite ?elem_of_cons, IH; naive_solver.
Qed.
Lemma consumed (m : mfields) u : check_consumed m = Some u ↔ ∀ k, k ∉ keys m.
Proof.
  destruct u. destruct m as [|[k v] m]; simpl.
  - split; [intros _ k; apply not_elem_of_nil|done].
  - split; [done|]. intros H. destruct (H k). apply elem_of_cons. by left.
Qed.
Lemma expect_some k m v m' : expect k m = Some (v, m') ↔ assoc k m = Some v ∧ m' = adelete k m.
Proof. unfold expect, get. destruct (assoc k m); split; [intros [= -> ->]; done|intros [[= ->] ->]; done|done|intros [? _]; done]. Qed.
(** What is left after taking out some names. *)
Lemma consumed_names ks m u : check_consumed (foldr adelete (into_map m) ks) = Some u ↔ only ks m.
Proof.
  rewrite consumed. unfold only.
  assert (H : ∀ k, k ∈ keys (foldr adelete (into_map m) ks) ↔ k ∈ keys m ∧ k ∉ ks).
  { intros k. induction ks as [|k' ks IH]; simpl.
    - rewrite keys_into_map. split; [intros ?; split; [done|apply not_elem_of_nil]|intros [? _]; done].
    - rewrite keys_delete, IH, not_elem_of_cons. tauto. }
  split.
  - intros Hn k Hk. destruct (decide (k ∈ ks)) as [|Hks]; [done|]. destruct (Hn k). by apply H.
  - intros Ho k Hk. apply H in Hk as [Hk Hks]. by apply Hks, Ho.
Qed.
Lemma only_same ks ks' m : (∀ k, k ∈ ks → k ∈ ks') → only ks m → only ks' m.
Proof. intros H Ho k Hk. by apply H, Ho. Qed.
Lemma only_less k ks m : only (k :: ks) m → unsaid m k → only ks m.
Proof. intros Ho Hu x Hx. specialize (Ho x Hx). apply elem_of_cons in Ho as [->|?]; done. Qed.

(** ** Values *)
Lemma text_iff v s : text v = Some s ↔ a_text v s.
Proof.
  unfold a_text. split.
  - destruct v; simpl; intros H; try done; simplify_eq; [by left|right; by eexists].
  - intros [->|[o ->]]; done.
Qed.
Lemma own_text_iff v s : own_text v = Some s ↔ an_own_text v s.
Proof.
  unfold an_own_text. split.
  - destruct v as [| | | | |[]|]; simpl; intros H; try done; simplify_eq; auto.
  - intros [->| ->]; done.
Qed.
Lemma mapM_iff {A} (f : mvalue → option A) (P : mvalue → A → Prop) l l' :
  (∀ v a, f v = Some a ↔ P v a) → mapM f l = Some l' ↔ Forall2 P l l'.
Proof.
  intros H. rewrite mapM_Some. split; intros HF; (eapply Forall2_impl; [exact HF|]); intros v a; apply H.
Qed.
Lemma own_texts_iff v l : own_texts v = Some l ↔ own_list v l.
Proof.
  unfold own_list. split.
  - destruct v as [| | |vs| | |]; try done. simpl. intros H. exists vs. split; [done|].
    by apply (mapM_iff own_text an_own_text _ _ own_text_iff).
  - intros (vs & -> & H). simpl. by apply (mapM_iff own_text an_own_text _ _ own_text_iff).
Qed.
Lemma required_iff {A} (f : mvalue → option A) (P : mvalue → A → Prop) k m a :
  (∀ v a, f v = Some a ↔ P v a) → required P k m a ↔ ∃ v, assoc k (into_map m) = Some v ∧ f v = Some a.
Proof. intros H. unfold required. setoid_rewrite assoc_says. by setoid_rewrite H. Qed.
Lemma optional_iff {A} (f : mvalue → option A) (P : mvalue → A → Prop) k m o :
  (∀ v a, f v = Some a ↔ P v a) → optional P k m o ↔ option_of f (assoc k (into_map m)) = Some o.
Proof.
  intros H. unfold optional, option_of. destruct o as [a|].
  - rewrite (required_iff f P) by done. destruct (assoc k (into_map m)) as [v|].
    + rewrite fmap_Some. split; [intros (? & [= <-] & E); by exists a|intros (x & E & [= ->]); by exists v].
    + split; [intros (? & ? & _); done|done].
  - rewrite <- assoc_unsaid. destruct (assoc k (into_map m)) as [v|]; [|done].
    split; [done|]. intros E. apply fmap_Some in E as (? & _ & ?). done.
Qed.
Definition one_of {A} (f : mvalue → option A) (v : mvalue) : option (list A) :=
  match v with MArr l => l ← mapM f l; juxtaposed l | _ => None end.
Lemma one_of_iff {A} (f : mvalue → option A) (P : mvalue → A → Prop) v l :
  (∀ v a, f v = Some a ↔ P v a) → one_of f v = Some l ↔ one_at_most P v l.
Proof.
  intros H. unfold one_at_most. split.
  - destruct v as [| | |vs| | |]; try done. simpl. intros E. apply bind_Some in E as (l' & E & E').
    apply mapM_Some in E. destruct l' as [|a [|? ?]]; simpl in E'; simplify_eq.
    + apply Forall2_nil_inv_r in E as ->. by left.
    + apply Forall2_cons_inv_r in E as (x & r & Hx & Hr & ->). apply Forall2_nil_inv_r in Hr as ->.
      right. exists x, a. split; [done|]. split; [done|]. by apply H.
  - intros [[-> ->]|(x & a & -> & -> & Hx)]; [done|]. apply H in Hx. simpl. by rewrite Hx.
Qed.
Lemma grant_of_iff v g : grant_of v = Some g ↔ v = MStr (grant_name g).
Proof.
  split.
  - destruct v; simpl; try done. case_bool_decide; [intros [= <-]; by subst|]. case_bool_decide; [intros [= <-]; by subst|done].
  - intros ->. by destruct g.
Qed.
Lemma grant_types_one o : grant_types_of o = option_of (one_of grant_of) o.
Proof. destruct o as [[]|]; try done. simpl. by destruct (mapM _ _). Qed.
Lemma details_one f o : details_of f o = option_of (one_of f) o.
Proof. destruct o as [[]|]; try done. simpl. by destruct (mapM _ _). Qed.
Lemma send_type_iff v t : send_type_of v = Some t ↔ a_send_type v t.
Proof.
  unfold a_send_type. split.
  - intros H. destruct v as [| |s| | |[] s|t']; simpl in H; try done; simplify_eq.
    + right. exists s. split; [by left|done].
    + right. exists s. split; [by right|done].
    + by left.
  - intros [->|(s & [->| ->] & ->)]; done.
Qed.

(** Takes a macro's run apart, and puts it together. *)
Ltac apart H := repeat first
  [ progress (unfold get in H; cbn [fst snd] in H)
  | let x := fresh "x" in let E := fresh "E" in apply bind_Some in H as (x & E & H);
    first [ destruct x; apply expect_some in E as [E ->]
          | match type of x with prod _ _ => destruct x end | idtac ]; try rewrite !assoc_delete in E by discriminate ];
  try rewrite !assoc_delete in H by discriminate.
Ltac together := repeat first
  [ progress (unfold get; cbn [fst snd mbind option_bind])
  | rewrite !assoc_delete by discriminate
  | match goal with
    | |- context [expect ?k ?m ≫= _] =>
        let E := fresh in eassert (E : expect k m = Some (_, _)) by
          (apply expect_some; split; [rewrite ?assoc_delete by discriminate; eassumption|reflexivity]);
        rewrite E; clear E; cbn [mbind option_bind]
    | H : ?x = Some _ |- context [?x ≫= _] => rewrite H; cbn [mbind option_bind]
    end ].
Ltac members := let k := fresh in let H := fresh in
  intros k H; repeat (apply elem_of_cons in H as [->|H]; [repeat constructor|]); by apply elem_of_nil in H.
(** From the names a macro has taken out to a list of names, and back. *)
Ltac names_of E ks :=
  eapply only_same; [|apply (consumed_names ks) in E; exact E]; members.
Ltac consume ks :=
  match goal with H : only _ ?m |- context [check_consumed ?x ≫= _] =>
    let E := fresh in assert (E : check_consumed x = Some ());
    [apply (consumed_names ks); eapply only_same; [|exact H]; members|rewrite E; clear E; cbn [mbind option_bind]]
  end.

(** ** [create_offer_request!] *)
Lemma create_offer_macro_iff imported m r : create_offer_macro imported m = Some r ↔ offer_written imported m r.
Proof.
  unfold offer_written. rewrite (required_iff text a_text) by apply text_iff. rewrite (optional_iff text a_text) by apply text_iff.
  rewrite (required_iff own_texts own_list) by apply own_texts_iff.
  rewrite (optional_iff (one_of grant_of) (one_at_most _)) by (intros v a; apply one_of_iff, grant_of_iff).
  rewrite (required_iff send_type_of a_send_type) by apply send_type_iff.
  setoid_rewrite <- assoc_unsaid. unfold required. setoid_rewrite <- assoc_says. split.
  - intros H. unfold create_offer_macro in H. apart H. injection H as <-. simpl.
    split; [names_of E2 ["send_type"; "tx_code_required"; "grant_types"; "credential_configuration_ids"; "subject_id"; "credential_issuer"]|].
    split; [by eexists|]. split; [done|].
    destruct m1 as [| | |[|v l]| | |]; try done. injection E1 as <-.
    split; [by eexists|]. split. { intros ->. apply mapM_Some in E5. by apply Forall2_nil_inv_r in E5. }
    split; [by rewrite <- grant_types_one|]. split.
    + destruct (assoc "tx_code_required" _) as [[]|]; try done; injection E7 as <-; [left; by eexists|by right].
    + destruct (assoc "send_type" _) as [v'|]; [left; by eexists|]. right. destruct imported; [|done]. by injection E8 as <-.
  - intros (Ho & (vi & Hi & Hti) & Hs & (vc & Hc & Htc) & Hne & Hg & Ht & Hst). destruct r as [i s c g t st]. simpl in *.
    destruct vc as [| | |[|v l]| | |]; try done. { simpl in Htc. by injection Htc as <-. }
    simpl in Htc. unfold create_offer_macro. together.
    consume ["send_type"; "tx_code_required"; "grant_types"; "credential_configuration_ids"; "subject_id"; "credential_issuer"].
    rewrite grant_types_one, Hg. cbn [mbind option_bind].
    replace (match assoc "tx_code_required" (into_map m) with
             | Some (MBool b) => Some b | None => Some false | _ => None end) with (Some t)
      by (destruct Ht as [(? & -> & ->)|[-> ->]]; done).
    simpl.
    replace (match assoc "send_type" (into_map m) with
             | Some v0 => send_type_of v0 | None => if imported then Some ByVal else None end) with (Some st)
      by (destruct Hst as [(? & -> & ->)|(-> & -> & ->)]; done).
    cbn in Htc |- *. by rewrite Htc.
Qed.

(** ** Authorization details *)
Lemma mvalue_ind' (P : mvalue → Prop) :
  (∀ b, P (MBool b)) → (∀ z, P (MNum z)) → (∀ s, P (MStr s)) → (∀ l, Forall P l → P (MArr l)) →
  (∀ m, Forall (λ kv, P kv.2) m → P (MObj m)) → (∀ o s, P (MText o s)) → (∀ t, P (MSend t)) → ∀ v, P v.
Proof.
  intros H1 H2 H3 H4 H5 H6 H7. fix IH 1. intros [b|z|s|l|m|o s|t];
    [apply H1|apply H2|apply H3| | |apply H6|apply H7].
  - apply H4. induction l as [|v l IHl]; constructor; [apply IH|exact IHl].
  - apply H5. induction m as [|[k v] m IHm]; constructor; [apply IH|exact IHm].
Qed.
Lemma macro_claim_set kv m : macro_claim (MObj (kv :: m)) = CSet (macro_claims (kv :: m)).
Proof.
  unfold macro_claims. cbn [macro_claim]. do 2 f_equal. destruct kv as [k v]. cbn [map fst snd]. f_equal.
  induction m as [|[k' v'] m IH]; [done|]. cbn [map fst snd]. f_equal. exact IH.
Qed.
Lemma assoc_map {A B} (f : A → B) k m : assoc k (into_map (map (λ kv, (kv.1, f kv.2)) m)) = f <$> assoc k (into_map m).
Proof.
  induction m as [|[k' v'] m IH] using rev_ind; [done|]. rewrite map_app. cbn [map fst snd].
  rewrite !into_map_snoc, !assoc_ainsert. cbn [fst snd]. by case_bool_decide.
Qed.
Lemma assoc_elem {A} k (a : A) l : NoDup (keys l) → (k, a) ∈ l → assoc k l = Some a.
Proof.
  induction l as [|[k' v] l IH]; intros Hnd Hin; [by apply elem_of_nil in Hin|].
  simpl in Hnd. apply NoDup_cons in Hnd as [Hn Hnd]. simpl. apply elem_of_cons in Hin as [E|Hin].
  - injection E as <- <-. by rewrite bool_decide_true.
  - rewrite bool_decide_false; [by apply IH|]. intros ->. apply Hn. apply elem_of_list_fmap. by exists (k', a).
Qed.
Lemma says_elem m k v : says m k v → (k, v) ∈ m.
Proof. intros (a & b & -> & _). apply elem_of_app. right. apply elem_of_cons. by left. Qed.
Lemma macro_claims_spec m : (∀ k v, (k, v) ∈ m → claim_written v (macro_claim v)) →
  NoDup (keys (macro_claims m)) ∧ (∀ k, k ∈ keys m → k ∈ keys (macro_claims m)) ∧
  ∀ k c, (k, c) ∈ macro_claims m → ∃ v, says m k v ∧ claim_written v c.
Proof.
  intros H. unfold macro_claims. split; [apply nodup_into_map|]. split.
  - intros k Hk. apply keys_into_map. unfold keys. by rewrite map_map.
  - intros k c Hin. apply assoc_elem in Hin; [|apply nodup_into_map]. rewrite assoc_map in Hin.
    apply fmap_Some in Hin as (v & Hv & ->). apply assoc_says in Hv. exists v. split; [done|].
    apply (H k). by apply says_elem.
Qed.
Lemma macro_claim_spec v : claim_written v (macro_claim v).
Proof.
  induction v as [| | | |m IH| |] using mvalue_ind'; try (apply a_claim; done).
  destruct m as [|kv m]; [apply a_claim; done|]. rewrite macro_claim_set.
  destruct (macro_claims_spec (kv :: m)) as (H1 & H2 & H3).
  { intros k v Hin. rewrite Forall_forall in IH. by apply (IH (k, v)). }
  by apply a_set.
Qed.
Lemma macro_claims_written m : claims_written (MObj m) (macro_claims m).
Proof. exists m. split; [done|]. apply macro_claims_spec. intros. apply macro_claim_spec. Qed.
Lemma detail_type_iff m u : detail_type (into_map m) = Some u ↔ type_written m.
Proof.
  destruct u. unfold detail_type, type_written. setoid_rewrite <- assoc_says. split.
  - destruct (assoc "type" (into_map m)) as [t|] eqn:E; [|done]. intros H. exists t. split; [done|]. intros s ->.
    by case_bool_decide.
  - intros (t & E & H). rewrite E. destruct t; try done. rewrite bool_decide_true; [done|]. by apply H.
Qed.
Lemma the_format_iff v u : the_format v = Some u ↔ v = MStr "jwt_vc_json".
Proof.
  destruct u. split; [|by intros ->]. destruct v; try done. simpl. case_bool_decide; [by subst|done].
Qed.

(** The subject is either what the macro makes of it, or not an object. *)
Definition subject_value (v : mvalue) : option claimset :=
  match v with MObj m => Some (macro_claims m) | _ => None end.
Lemma subject_of_value d : subject_of d = option_of subject_value (assoc "credentialSubject" d).
Proof. unfold subject_of. by destruct (assoc _ d) as [[]|]. Qed.
Lemma subject_written v cs : subject_value v = Some cs → claims_written v cs.
Proof. destruct v; try done. simpl. intros [= <-]. apply macro_claims_written. Qed.
Lemma option_of_optional {A} (f : mvalue → option A) (P : mvalue → A → Prop) k m o :
  (∀ v a, f v = Some a → P v a) → option_of f (assoc k (into_map m)) = Some o → optional P k m o.
Proof.
  intros H. unfold option_of. destruct (assoc k (into_map m)) as [v|] eqn:E.
  - intros E'. apply fmap_Some in E' as (a & Ea & ->). exists v. split; [by apply assoc_says|by apply H].
  - intros [= <-]. by apply assoc_unsaid.
Qed.
Lemma optional_option_of {A} (f : mvalue → option A) (P : mvalue → A → Prop) k m o :
  (∀ v a, P v a → is_Some (f v)) → optional P k m o → is_Some (option_of f (assoc k (into_map m))).
Proof.
  intros H. destruct o as [a|]; simpl.
  - intros (v & Hv & Ha). apply assoc_says in Hv. rewrite Hv. simpl. destruct (H _ _ Ha) as [a' ->]. by eexists.
  - intros Hu. apply assoc_unsaid in Hu. rewrite Hu. by eexists.
Qed.
Lemma claims_value v cs : claims_written v cs → is_Some (subject_value v).
Proof. intros (m & -> & _). by eexists. Qed.

Lemma configuration_definition_built v d : configuration_definition v = Some d → definition_written claims_written v d.
Proof.
  destruct v as [| | | |m| |]; try done. simpl. rewrite subject_of_value. intros H. apart H. injection H as <-.
  exists m. split; [done|]. split; [done|]. cbn [cd_type cd_subject].
  split; [eapply option_of_optional; [|exact E0]; intros ?? ?; by apply own_texts_iff|].
  eapply option_of_optional; [|exact E]. apply subject_written.
Qed.
Lemma configuration_definition_compiles v d : definition_written claims_written v d → is_Some (configuration_definition v).
Proof.
  intros (m & -> & _ & Ht & Hs). simpl. rewrite subject_of_value.
  destruct (optional_option_of subject_value _ _ _ _ claims_value Hs) as [s ->]. simpl.
  destruct (optional_option_of own_texts _ _ _ _ (λ v a H, mk_is_Some _ _ (proj2 (own_texts_iff v a) H)) Ht) as [t ->]. by eexists.
Qed.
Lemma format_definition_built v d : format_definition v = Some d → definition_written claims_written v d ∧ cd_type d ≠ None.
Proof.
  destruct v as [| | | |m| |]; try done. simpl. rewrite subject_of_value. intros H. apart H. injection H as <-.
  split; [|done]. exists m. split; [done|]. split; [done|]. cbn [cd_type cd_subject]. split.
  - exists x. split; [by apply assoc_says|by apply own_texts_iff].
  - eapply option_of_optional; [|exact E0]. apply subject_written.
Qed.
Lemma format_definition_compiles v d :
  definition_written claims_written v d → cd_type d ≠ None → is_Some (format_definition v).
Proof.
  intros (m & -> & _ & Ht & Hs) Hn. simpl. destruct (cd_type d) as [ts|]; [|done]. destruct Ht as (t & Ht & Hts).
  apply assoc_says in Ht. apply own_texts_iff in Hts. rewrite Ht. simpl. rewrite subject_of_value.
  destruct (optional_option_of subject_value _ _ _ _ claims_value Hs) as [s ->]. simpl. rewrite Hts. by eexists.
Qed.
Lemma macro_detail_built v d : macro_detail v = Some d → detail_written v d.
Proof.
  destruct v as [| | | |m| |]; try done. simpl. intros H. apart H. injection H as <-. exists m. split; [done|].
  split; [by eapply detail_type_iff|]. split; [done|]. cbn [ad_credential].
  unfold macro_authorization in E0. destruct (assoc "credential_configuration_id" (into_map m)) as [id|] eqn:Eid.
  - apart E0. injection E0 as <-. split; [exists id; split; [by apply assoc_says|by apply own_text_iff]|].
    destruct (assoc "credential_definition" (into_map m)) as [c|] eqn:Ec.
    + apply bind_Some in E1 as (d & Hd & [= <-]). exists c. split; [by apply assoc_says|]. exists d.
      split; [done|]. by apply configuration_definition_built.
    + injection E1 as <-. by apply assoc_unsaid.
  - apart E0. injection E0 as <-. apply the_format_iff in E4 as ->.
    apply format_definition_built in E3 as [H3 H3']. split; [by apply assoc_unsaid|]. split; [by apply assoc_says|].
    split; [|done]. eexists. split; [by apply assoc_says|done].
Qed.
Lemma macro_detail_compiles v d : detail_written v d → is_Some (macro_detail v).
Proof.
  intros (m & -> & Ht & _ & H). simpl. apply (detail_type_iff _ ()) in Ht. rewrite Ht. simpl. unfold macro_authorization.
  destruct (ad_credential d) as [id p|[c| | | |]]; try done.
  - destruct H as [(v & Hv & Hid) Hp]. apply assoc_says in Hv. apply own_text_iff in Hid. rewrite Hv.
    destruct p as [p|].
    + destruct Hp as (x & Hx & c & _ & Hc). apply assoc_says in Hx. rewrite Hx.
      destruct (configuration_definition_compiles _ _ Hc) as [c' ->]. simpl. rewrite Hid. by eexists.
    + apply assoc_unsaid in Hp. rewrite Hp. simpl. rewrite Hid. by eexists.
  - destruct H as (Hu & Hf & (x & Hx & Hc) & Hn). apply assoc_unsaid in Hu. apply assoc_says in Hf, Hx.
    rewrite Hu, Hf. simpl. rewrite Hx. simpl. destruct (format_definition_compiles _ _ Hc Hn) as [c' ->]. by eexists.
Qed.

(** ** [authorization_request!] *)
Lemma one_of_built {A} (f : mvalue → option A) (P : mvalue → A → Prop) :
  (∀ v a, f v = Some a → P v a) → ∀ v l, one_of f v = Some l → one_at_most P v l.
Proof.
  intros H v l E. apply (one_of_iff f (λ v a, f v = Some a)) in E; [|done].
  destruct E as [?|(x & a & -> & -> & E)]; [by left|]. right. exists x, a. auto.
Qed.
Lemma one_of_compiles {A} (f : mvalue → option A) (P : mvalue → A → Prop) :
  (∀ v a, P v a → is_Some (f v)) → ∀ v l, one_at_most P v l → is_Some (one_of f v).
Proof.
  intros H v l [[-> ->]|(x & a & -> & -> & E)]; [by eexists|]. destruct (H _ _ E) as [a' E']. simpl. rewrite E'. by eexists.
Qed.
Definition authorization_taken : list string :=
  ["authorization_details"; "issuer_state"; "user_hint"; "wallet_issuer"; "resource"; "scope"; "state"; "redirect_uri";
   "subject_id"; "code_challenge_method"; "code_challenge"; "client_id"; "response_type"; "credential_issuer"].
Lemma authorization_macro_built m r : authorization_macro m = Some r → authorization_written m r.
Proof.
  intros H. unfold authorization_macro in H. apart H. injection H as <-. rewrite details_one in E5.
  assert (HR : ∀ k v s, assoc k (into_map m) = Some v → text v = Some s → required a_text k m s).
  { intros k v s Ek Ev. exists v. split; [by apply assoc_says|by apply text_iff]. }
  assert (HO : ∀ k o, option_of text (assoc k (into_map m)) = Some o → optional a_text k m o).
  { intros k o. apply option_of_optional. intros ???. by apply text_iff. }
  unfold authorization_written; cbn [ro_credential_issuer ro_response_type ro_client_id ro_redirect_uri ro_state ro_code_challenge
    ro_code_challenge_method ro_authorization_details ro_scope ro_subject_id ro_issuer_state].
  split; [names_of E6 authorization_taken|].
  destruct (text m1) as [s1|] eqn:T1; [|done]. destruct (text m4) as [s4|] eqn:T4; [|done].
  split; [by eapply HR|]. split; [exists s1; by eapply HR|]. split. { injection E8 as <-. unfold response_type_of_text. by case_bool_decide. }
  split; [by eapply HR|]. split; [by apply HO|]. split; [by apply HO|]. split; [by eapply HR|].
  split; [exists s4; by eapply HR|]. split; [by destruct x7|].
  split; [eapply option_of_optional; [|exact E5]; apply one_of_built, macro_detail_built|].
  split; [by apply HO|]. split; [eexists; by apply HO|]. split; [by eapply HR|]. split; [eexists; by apply HO|].
  split; [eexists; by apply HO|by apply HO].
Qed.
Lemma required_text k m s : required a_text k m s → ∃ v, assoc k (into_map m) = Some v ∧ text v = Some s.
Proof. apply (required_iff text a_text), text_iff. Qed.
Lemma optional_text k m o : optional a_text k m o → option_of text (assoc k (into_map m)) = Some o.
Proof. apply (optional_iff text a_text), text_iff. Qed.
Lemma authorization_macro_compiles m r : authorization_written m r → is_Some (authorization_macro m).
Proof.
  intros (Ho & Hi & [srt Hrt] & _ & Hc & Hru & Hst & Hcc & [scm Hcm] & _ & Had & Hsc & [re Hre] & Hsu & [wi Hwi] & [uh Huh] & His).
  apply required_text in Hi as (vi & Hi & Ti), Hrt as (vrt & Hrt & Trt), Hc as (vc & Hc & Tc), Hcc as (vcc & Hcc & Tcc),
    Hcm as (vcm & Hcm & Tcm), Hsu as (vsu & Hsu & Tsu).
  apply optional_text in Hru, Hst, Hsc, Hre, Hwi, Huh, His.
  destruct (optional_option_of (one_of macro_detail) _ _ _ _ (one_of_compiles _ _ macro_detail_compiles) Had) as [ad Hd].
  rewrite <- details_one in Hd. unfold authorization_macro. together. consume authorization_taken.
  rewrite Trt, Tcm. cbn [fmap option_fmap option_map mbind option_bind]. together. by eexists.
Qed.

(** ** [token_request!] *)
Definition token_subject_value (v : mvalue) : option claimset := match v with MObj [] => Some [] | _ => None end.
Lemma token_subject_of d : token_subject d = option_of token_subject_value (assoc "credentialSubject" d).
Proof. unfold token_subject. by destruct (assoc _ d) as [[| | | |[]| |]|]. Qed.
Lemma token_subject_iff v cs : token_subject_value v = Some cs ↔ no_claims v cs.
Proof. unfold no_claims. split; [destruct v as [| | | |[]| |]; try done; by intros [= <-]|by intros [-> ->]]. Qed.
Lemma token_definition_iff v d : token_definition v = Some d ↔ definition_written no_claims v d ∧ cd_type d ≠ None.
Proof.
  split.
  - destruct v as [| | | |m| |]; try done. simpl. rewrite token_subject_of. intros H. apart H. injection H as <-.
    split; [|done]. exists m. split; [done|]. split; [done|]. cbn [cd_type cd_subject]. split.
    + exists x. split; [by apply assoc_says|by apply own_texts_iff].
    + eapply option_of_optional; [|exact E0]. intros ?? ?. by apply token_subject_iff.
  - intros [(m & -> & Hctx & Ht & Hs) Hn]. destruct d as [ctx [ts|] sub]; [|done]. cbn [cd_context cd_type cd_subject] in *. subst.
    destruct Ht as (t & Ht & Hts). apply assoc_says in Ht. apply own_texts_iff in Hts. simpl. rewrite Ht. simpl.
    rewrite token_subject_of. apply (optional_iff token_subject_value) in Hs; [|apply token_subject_iff]. rewrite Hs. simpl.
    by rewrite Hts.
Qed.
Lemma token_detail_iff v d : token_detail v = Some d ↔ token_detail_written v d.
Proof.
  split.
  - destruct v as [| | | |m| |]; try done. simpl. intros H. apart H. injection H as <-. exists m. split; [done|].
    split; [by eapply detail_type_iff|]. split; [done|]. cbn [ad_credential].
    unfold token_configuration in E0. destruct (assoc "credential_configuration_id" (into_map m)) as [id|] eqn:Eid.
    + destruct (assoc "credential_definition" (into_map m)) as [c|] eqn:Ec; [done|]. apart E0. injection E0 as <-.
      split; [exists id; split; [by apply assoc_says|by apply own_text_iff]|]. split; [by apply assoc_unsaid|done].
    + apart E0. injection E0 as <-. apply the_format_iff in E4 as ->. apply token_definition_iff in E3 as [H3 H3'].
      split; [by apply assoc_unsaid|]. split; [by apply assoc_says|]. split; [|done]. eexists. split; [by apply assoc_says|done].
  - intros (m & -> & Ht & Hl & H). simpl. apply (detail_type_iff _ ()) in Ht. rewrite Ht. simpl. unfold token_configuration.
    destruct d as [[id p|[c| | | |]] l]; try done; cbn [ad_credential ad_locations] in *; subst l.
    + destruct H as ((v & Hv & Hid) & Hu & ->). apply assoc_says in Hv. apply own_text_iff in Hid. apply assoc_unsaid in Hu.
      rewrite Hv, Hu, Hid. done.
    + destruct H as (Hu & Hf & (x & Hx & Hc) & Hn). apply assoc_unsaid in Hu. apply assoc_says in Hf, Hx.
      rewrite Hu, Hf. simpl. rewrite Hx. simpl. assert (token_definition x = Some c) as -> by (by apply token_definition_iff). done.
Qed.
Definition token_taken : list string := ["authorization_details"; "grant_type"; "client_id"; "credential_issuer"].
Lemma token_macro_iff m r : token_macro m = Some r ↔ token_written m r.
Proof.
  unfold token_written.
  rewrite (optional_iff (one_of token_detail) (one_at_most _)) by (intros v a; apply one_of_iff, token_detail_iff).
  rewrite (required_iff text a_text) by apply text_iff. rewrite (optional_iff text a_text) by apply text_iff. split.
  - intros H. unfold token_macro in H. apart H. injection H as <-.
    cbn [tr_credential_issuer tr_client_id tr_grant tr_authorization_details].
    destruct m1 as [| |s| | | |]; try done. cbn [macro_grant] in E1. case_bool_decide; [subst s|case_bool_decide; [subst s|done]].
    + apart E1. injection E1 as <- <-. rewrite ?assoc_delete in E2 by discriminate. rewrite details_one in E2.
      split; [names_of E3 (["authorization_details"; "tx_code"; "pre-authorized_code"; "grant_type"; "client_id"; "credential_issuer"])|].
      split; [by eexists|]. split; [done|]. split; [|done]. split; [by apply assoc_says|].
      split; [eapply (required_iff text); [apply text_iff|]; by eexists|by apply (optional_iff text), E8; apply text_iff].
    + apart E1. injection E1 as <- <-. rewrite ?assoc_delete in E2 by discriminate. rewrite details_one in E2.
      split; [names_of E3 (["authorization_details"; "code_verifier"; "redirect_uri"; "code"; "grant_type"; "client_id"; "credential_issuer"])|].
      split; [by eexists|]. split; [done|]. split; [|done]. split; [by apply assoc_says|].
      split; [eapply (required_iff text); [apply text_iff|]; by eexists|].
      split; [by apply (optional_iff text), E9; apply text_iff|]. eexists. split; [done|].
      eapply (required_iff text); [apply text_iff|]. by eexists.
  - destruct r as [i c g d]. cbn [tr_credential_issuer tr_client_id tr_grant tr_authorization_details].
    intros (Ho & (vi & Hi & Ti) & Hc & Hg & Hd). rewrite <- details_one in Hd. destruct g as [code uri verifier|code tx].
    + destruct Hg as (Hg & Hcode & Hu & v & -> & Hv). apply assoc_says in Hg.
      apply required_text in Hcode as (vc & Hcode & Tc), Hv as (vv & Hv & Tv). apply optional_text in Hu.
      unfold token_macro. together. cbn [macro_grant].
      rewrite bool_decide_false by done. rewrite bool_decide_true by done. together.
      consume ["authorization_details"; "code_verifier"; "redirect_uri"; "code"; "grant_type"; "client_id"; "credential_issuer"].
      together. done.
    + destruct Hg as (Hg & Hcode & Htx). apply assoc_says in Hg.
      apply required_text in Hcode as (vc & Hcode & Tc). apply optional_text in Htx.
      unfold token_macro. together. cbn [macro_grant].
      rewrite bool_decide_true by done. together.
      consume ["authorization_details"; "tx_code"; "pre-authorized_code"; "grant_type"; "client_id"; "credential_issuer"].
      together. done.
Qed.

(** ** [credential_request!] *)
Lemma credential_definition_iff v d : credential_definition_of v = Some d ↔ type_of_definition v d.
Proof.
  unfold type_of_definition. split.
  - destruct v as [| | | |m| |]; try done. simpl. intros H. apart H. injection H as <-. exists m, x0.
    split; [done|]. split; [|done]. exists x. split; [by apply assoc_says|by apply own_texts_iff].
  - intros (m & ts & -> & (t & Ht & Hts) & ->). apply assoc_says in Ht. apply own_texts_iff in Hts. simpl. rewrite Ht. simpl. by rewrite Hts.
Qed.
Definition proof_value (v : mvalue) : option key_proof :=
  match v with
  | MObj p =>
      _ ← match assoc "proof_type" (into_map p) with
          | Some (MStr t) => if bool_decide (t = "jwt") then Some () else None
          | _ => None end;
      jwt ← assoc "jwt" (into_map p);
      jwt ← text jwt;
      Some (PSingle jwt)
  | _ => None
  end.
Lemma macro_proof_value m : macro_proof m = p ← option_of proof_value (assoc "proof" m); Some (p, adelete "proof" m).
Proof.
  unfold macro_proof, get. destruct (assoc "proof" m) as [[| | | |p| |]|]; try done. simpl.
  destruct (assoc "proof_type" (into_map p)) as [[]|]; try done. case_bool_decide; [|done]. simpl.
  destruct (assoc "jwt" (into_map p)); [|done]. simpl. by destruct (text _).
Qed.
Lemma proof_value_iff v p : proof_value v = Some p ↔ proof_written v p.
Proof.
  unfold proof_written. split.
  - destruct v as [| | | |m| |]; try done. cbn [proof_value]. intros H. apart H. injection H as <-. exists m, x1. split; [done|].
    destruct (assoc "proof_type" (into_map m)) as [[]|] eqn:Et; try done. case_bool_decide; [|done]. subst.
    split; [by apply assoc_says|]. split; [|done]. eapply (required_iff text); [apply text_iff|]. by eexists.
  - intros (m & jwt & -> & Ht & Hj & ->). apply assoc_says in Ht. apply required_text in Hj as (v & Hv & Tv).
    cbn [proof_value]. rewrite Ht. rewrite bool_decide_true by done. cbn [mbind option_bind]. rewrite Hv. simpl. by rewrite Tv.
Qed.
Lemma credential_macro_iff m r : credential_macro m = Some r ↔ credential_written m r.
Proof.
  unfold credential_written. rewrite (optional_iff proof_value) by apply proof_value_iff.
  rewrite !(required_iff text a_text) by apply text_iff. split.
  - intros H. unfold credential_macro in H. apart H. injection H as <-. rewrite macro_proof_value in E2.
    cbn [cr_credential_issuer cr_access_token cr_credential cr_proof].
    apply bind_Some in E2 as (p & E2 & [= <- <-]). unfold macro_issuance, get in E1. rewrite ?assoc_delete in E1 by discriminate.
    destruct (assoc "credential_response_encryption" (adelete "proof" m2)) eqn:Ee; [done|].
    destruct (assoc "credential_identifier" (into_map m)) as [id|] eqn:Eid.
    + apart E1. injection E1 as <- <-. rewrite !assoc_delete in Ee by discriminate. rewrite !assoc_delete in E2 by discriminate.
      split.
      { eapply (only_less "credential_response_encryption"); [|by apply assoc_unsaid].
        names_of E3 ["credential_response_encryption"; "proof"; "credential_identifier"; "access_token"; "credential_issuer"]. }
      split; [by eexists|]. split; [by eexists|]. split; [|done]. eapply (required_iff text); [apply text_iff|]. by eexists.
    + apart E1. injection E1 as <- <-. rewrite !assoc_delete in Ee by discriminate. rewrite !assoc_delete in E2 by discriminate.
      apply the_format_iff in E10 as ->. split.
      { eapply (only_less "credential_identifier"); [|by apply assoc_unsaid].
        eapply (only_less "credential_response_encryption"); [|by apply assoc_unsaid].
        names_of E3 ["credential_response_encryption"; "proof"; "credential_definition"; "format"; "credential_identifier"; "access_token"; "credential_issuer"]. }
      split; [by eexists|]. split; [by eexists|]. split; [|done]. split; [by apply assoc_says|].
      eexists. split; [by apply assoc_says|by apply credential_definition_iff].
  - destruct r as [i a c p]. cbn [cr_credential_issuer cr_access_token cr_credential cr_proof].
    intros (Ho & (vi & Hi & Ti) & (va & Ha & Ta) & Hc & Hp).
    assert (Hu : assoc "credential_response_encryption" (into_map m) = None).
    { apply assoc_unsaid. intros Hin. apply Ho in Hin. by destruct c; repeat (apply elem_of_cons in Hin as [?|Hin]; [done|]); apply elem_of_nil in Hin. }
    destruct c as [id|[d| | | |]]; try done.
    + apply required_text in Hc as (vid & Hid & Tid). unfold credential_macro. together. unfold macro_issuance, get.
      rewrite !assoc_delete by discriminate. rewrite Hid, Tid. cbn [mbind option_bind]. rewrite macro_proof_value.
      rewrite !assoc_delete by discriminate. rewrite Hp. cbn [mbind option_bind]. together.
      consume ["credential_response_encryption"; "proof"; "credential_identifier"; "access_token"; "credential_issuer"].
      rewrite Hu. cbn [mbind option_bind]. together. done.
    + destruct Hc as (Hf & x & Hx & Hd). apply assoc_says in Hf, Hx. apply credential_definition_iff in Hd.
      assert (Hid : assoc "credential_identifier" (into_map m) = None).
      { apply assoc_unsaid. intros Hin. apply Ho in Hin. by repeat (apply elem_of_cons in Hin as [?|Hin]; [done|]); apply elem_of_nil in Hin. }
      unfold credential_macro. together. unfold macro_issuance, get.
      rewrite !assoc_delete by discriminate. rewrite Hid. together.
      cbn [the_format]. rewrite bool_decide_true by done. cbn [mbind option_bind]. rewrite macro_proof_value.
      rewrite !assoc_delete by discriminate. rewrite Hp. cbn [mbind option_bind]. together.
      consume ["credential_response_encryption"; "proof"; "credential_definition"; "format"; "credential_identifier"; "access_token"; "credential_issuer"].
      rewrite Hu. cbn [mbind option_bind]. together. done.
Qed.

(** ** Members given more than once, and the order of members *)
Definition alike (m m' : mfields) : Prop := ∀ n w, says m n w ↔ says m' n w.
Lemma alike_sym m m' : alike m m' → alike m' m.
Proof. intros H n w. symmetry. apply H. Qed.
Lemma unsaid_alike m m' n : alike m m' → unsaid m n → unsaid m' n.
Proof. intros H Hu. destruct (said m' n) as [[w Hw]|]; [|done]. apply H in Hw. by destruct (says_unsaid _ _ _ Hw). Qed.
Lemma only_alike m m' ks : alike m m' → only ks m → only ks m'.
Proof.
  intros H Ho k Hk. destruct (said m' k) as [[w Hw]|Hu]; [|by destruct Hu]. apply H in Hw. apply Ho. apply says_elem in Hw.
  change k with (k, w).1. by apply elem_of_list_fmap_1.
Qed.
Lemma required_alike {A} (P : mvalue → A → Prop) k m m' a : alike m m' → required P k m a → required P k m' a.
Proof. intros H (v & Hv & Hp). exists v. split; [by apply H|done]. Qed.
Lemma optional_alike {A} (P : mvalue → A → Prop) k m m' o : alike m m' → optional P k m o → optional P k m' o.
Proof. destruct o; [apply required_alike|apply unsaid_alike]. Qed.
Lemma says_twice k v n w a b : n ≠ k ∨ k ∈ keys b → says (a ++ (k, v) :: b) n w ↔ says (a ++ b) n w.
Proof.
  induction b as [|[k' v'] b IH] using rev_ind; intros H.
  - rewrite app_nil_r, says_app. destruct H as [H|H]; [|by apply elem_of_nil in H]. split; [intros [[-> _]|[_ ?]]; done|]. intros Hs. right. split; [by intros ->|done].
  - rewrite app_comm_cons, !app_assoc, !says_app.
    destruct (decide (k' = n)) as [->|Hn]; [tauto|]. rewrite IH; [done|]. destruct H as [H|H]; [by left|].
    rewrite keys_app in H. apply elem_of_app in H as [H|H]; [by right|]. apply elem_of_list_singleton in H. simpl in H. left. by subst.
Qed.
Lemma alike_twice k v a b : k ∈ keys b → alike (a ++ (k, v) :: b) (a ++ b).
Proof. intros Hk n w. apply says_twice. by right. Qed.
Lemma says_once m n w : NoDup (keys m) → says m n w ↔ (n, w) ∈ m.
Proof.
  intros Hnd. split; [apply says_elem|]. intros H. destruct (said m n) as [[w' Hw]|Hu].
  - apply says_elem in Hw as Hw'. assert (w = w') as ->; [|done].
    pose proof (assoc_elem _ _ _ Hnd H). pose proof (assoc_elem _ _ _ Hnd Hw'). congruence.
  - exfalso. apply Hu. change n with (n, w).1. by apply elem_of_list_fmap_1.
Qed.
Lemma alike_permutation m m' : NoDup (keys m) → Permutation m m' → alike m m'.
Proof.
  intros Hnd Hp n w. rewrite !says_once; [by rewrite Hp| |done]. unfold keys in *. by rewrite <- Hp.
Qed.
Lemma offer_alike i m m' r : alike m m' → offer_written i m r → offer_written i m' r.
Proof.
  intros H (H1 & H2 & H3 & H4 & H5 & H6 & H7 & H8). split; [by eapply only_alike|]. split; [by eapply required_alike|].
  split; [by eapply optional_alike|]. split; [by eapply required_alike|]. split; [done|]. split; [by eapply optional_alike|].
  split; [destruct H7 as [H7|[H7 E]]; [left; by eapply required_alike|right; split; [by eapply unsaid_alike|done]]|].
  destruct H8 as [H8|[H8 E]]; [left; by eapply required_alike|right; split; [by eapply unsaid_alike|done]].
Qed.
Lemma authorization_alike m m' r : alike m m' → authorization_written m r → authorization_written m' r.
Proof.
  intros H (H1 & H2 & [s3 H3] & H4 & H5 & H6 & H7 & H8 & [s9 H9] & H10 & H11 & H12 & [s13 H13] & H14 & [s15 H15] & [s16 H16] & H17).
  split; [by eapply only_alike|]. repeat (split; [first [done|by eapply required_alike|by eapply optional_alike
    |eexists; by eapply required_alike|eexists; by eapply optional_alike]|]). by eapply optional_alike.
Qed.
Lemma token_alike m m' r : alike m m' → token_written m r → token_written m' r.
Proof.
  intros H (H1 & H2 & H3 & H4 & H5). split; [by eapply only_alike|]. split; [by eapply required_alike|]. split; [by eapply optional_alike|].
  split; [|by eapply optional_alike]. destruct (tr_grant r).
  - destruct H4 as (H4 & H6 & H7 & v & -> & H8). split; [by apply H|]. split; [by eapply required_alike|]. split; [by eapply optional_alike|].
    exists v. split; [done|by eapply required_alike].
  - destruct H4 as (H4 & H6 & H7). split; [by apply H|]. split; [by eapply required_alike|by eapply optional_alike].
Qed.
Lemma credential_alike m m' r : alike m m' → credential_written m r → credential_written m' r.
Proof.
  intros H (H1 & H2 & H3 & H4 & H5). split; [by eapply only_alike|]. split; [by eapply required_alike|]. split; [by eapply required_alike|].
  split; [|by eapply optional_alike]. destruct (cr_credential r) as [id|[]]; try done; [by eapply required_alike|].
  destruct H4 as [H4 H6]. split; [by apply H|by eapply required_alike].
Qed.
Lemma option_same {A} (x y : option A) : (∀ a, x = Some a → y = Some a) → (∀ a, y = Some a → x = Some a) → x = y.
Proof. intros H H'. destruct x as [a|]; [symmetry; by apply H|]. destruct y as [a|]; [|done]. by apply H'. Qed.
Lemma offer_macro_alike i m m' : alike m m' → create_offer_macro i m = create_offer_macro i m'.
Proof.
  intros H. apply option_same; intros r; rewrite !create_offer_macro_iff; apply offer_alike; [done|by apply alike_sym].
Qed.
Lemma token_macro_alike m m' : alike m m' → token_macro m = token_macro m'.
Proof. intros H. apply option_same; intros r; rewrite !token_macro_iff; apply token_alike; [done|by apply alike_sym]. Qed.
Lemma credential_macro_alike m m' : alike m m' → credential_macro m = credential_macro m'.
Proof. intros H. apply option_same; intros r; rewrite !credential_macro_iff; apply credential_alike; [done|by apply alike_sym]. Qed.
Lemma authorization_macro_alike_some m m' r : alike m m' → authorization_macro m = Some r → authorization_macro m' = Some r.
Proof.
  intros H Hr. assert (∀ k, assoc k (into_map m) = assoc k (into_map m')) as E.
  { intros k. apply option_same; intros v; rewrite !assoc_says; apply H. }
  pose proof (authorization_macro_built _ _ Hr) as [Ho _]. apply (only_alike _ _ _ H) in Ho.
  unfold authorization_macro in Hr. apart Hr. rewrite E in *. unfold authorization_macro. together. consume authorization_taken.
  together. exact Hr.
Qed.
Lemma authorization_macro_alike m m' : alike m m' → authorization_macro m = authorization_macro m'.
Proof. intros H. apply option_same; intros r; apply authorization_macro_alike_some; [done|by apply alike_sym]. Qed.
