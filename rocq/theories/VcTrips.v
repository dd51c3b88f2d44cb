(** Credentials and presentations survive being written and read. *)
From Coq Require Import Lia DecimalString DecimalZ.
From Verif Require Import Base StringSpec Json MatcherModel JsonParse JsonText CoreModel VcModel Prog IssuerTypes
  IssuerClaims SerdeSpec SerdeModel SerdeFacts SerdeTrips SerdeText SerdeProps ErrorModel VcSpec VcSerde.
Local Arguments String.append : simpl never.

(** ** JSON values *)
Lemma proper_arr l : proper (JArr l) ↔ Forall proper l.
Proof. cbn [proper]. induction l as [|x l IH]; [split; [constructor|done]|]. rewrite Forall_cons. by rewrite IH. Qed.
Lemma proper_obj m : proper (JObj m) ↔ NoDup (keys m) ∧ Forall (λ kv, proper kv.2) m.
Proof.
  cbn [proper]. assert (∀ P R R' : Prop, (R ↔ R') → (P ∧ R ↔ P ∧ R')) as Hc by tauto. apply Hc. clear.
  induction m as [|[k x] l IH]; [split; [constructor|done]|]. rewrite Forall_cons. by rewrite IH.
Qed.
Fixpoint value_entries (m acc : list (string * json)) : list (string * json) :=
  match m with [] => acc | (k, v) :: r => value_entries r (ainsert k (value_of v) acc) end.
Lemma value_of_obj m : value_of (JObj m) = JObj (value_entries m []).
Proof. reflexivity. Qed.
Lemma value_entries_de m : ∀ acc, de_entries de_value m acc = Some (value_entries m acc).
Proof. induction m as [|[k v] m IH]; intros acc; [done|]. apply IH. Qed.
Lemma value_entries_proper m : ∀ acc, Forall (λ kv, value_of kv.2 = kv.2) m → NoDup (keys (acc ++ m)) →
  value_entries m acc = acc ++ m.
Proof.
  induction m as [|[k v] m IH]; intros acc H Hnd; simpl; [by rewrite app_nil_r|].
  apply Forall_cons in H as [Hv H]. simpl in Hv. rewrite Hv. rewrite ainsert_new.
  - rewrite IH; [by rewrite <-app_assoc|done|by rewrite <-app_assoc].
  - rewrite keys_app in Hnd. apply NoDup_app in Hnd as (_ & Hd & _). intros Hin. apply (Hd k Hin). simpl.
    apply elem_of_cons. by left.
Qed.
Lemma value_of_proper j : proper j → value_of j = j.
Proof.
  induction j as [|b|t|s|l IH|m IH] using json_ind'; intros H; try done.
  - apply proper_arr in H. cbn [value_of]. f_equal. induction l as [|x l IHl]; [done|].
    apply Forall_cons in H as [Hx H]. apply Forall_cons in IH as [IHx IH]. simpl. f_equal; [by apply IHx|by apply IHl].
  - apply proper_obj in H as [Hnd H]. rewrite value_of_obj. f_equal. apply (value_entries_proper m []); [|done].
    apply Forall_forall. intros kv Hin. apply (proj1 (Forall_forall _ _) IH kv Hin). by apply (proj1 (Forall_forall _ _) H kv Hin).
Qed.
Lemma value_entries_inv m : ∀ acc, Forall (λ kv, proper (value_of kv.2)) m → NoDup (keys acc) → Forall (λ kv, proper kv.2) acc →
  NoDup (keys (value_entries m acc)) ∧ Forall (λ kv, proper kv.2) (value_entries m acc).
Proof.
  induction m as [|[k v] m IH]; intros acc H Hnd Ha; simpl; [done|]. apply Forall_cons in H as [Hv H].
  apply IH; [done|by apply nodup_ainsert'|]. apply Forall_forall. intros [k' x] Hin.
  apply elem_ainsert in Hin as [[-> ->]|Hin]; [done|]. by apply (proj1 (Forall_forall _ _) Ha (k', x) Hin).
Qed.
Lemma proper_value_of j : proper (value_of j).
Proof.
  induction j as [|b|t|s|l IH|m IH] using json_ind'; try done.
  - cbn [value_of]. apply proper_arr. by apply Forall_fmap.
  - rewrite value_of_obj. apply proper_obj. apply value_entries_inv; [done|constructor|constructor].
Qed.
Lemma value_entries_keys m : ∀ acc k, k ∈ keys (value_entries m acc) → k ∈ keys m ∨ k ∈ keys acc.
Proof.
  induction m as [|[k v] m IH]; intros acc k' H; simpl in *; [by right|]. destruct (IH _ _ H) as [Hk|Hk].
  - left. apply elem_of_cons. by right.
  - assert (∀ acc : list (string * json), k' ∈ keys (ainsert k (value_of v) acc) → k' = k ∨ k' ∈ keys acc) as Ha.
    { clear. intros acc. induction acc as [|[k2 v2] acc IH]; simpl; [intros H; left; by apply elem_of_list_singleton in H|].
      case_bool_decide; simpl; rewrite !elem_of_cons; [subst; tauto|]. intros [->|H']; [tauto|]. destruct (IH H'); tauto. }
    destruct (Ha _ Hk) as [->|Hk2]; [left; apply elem_of_cons; by left|by right].
Qed.
Lemma flattened_keys taken m k : k ∈ keys (flattened taken m) → k ∉ taken.
Proof.
  unfold flattened, keys. intros H. apply elem_of_list_fmap in H as ([k' v] & -> & H).
  apply elem_of_list_In, filter_In in H as [_ H]. by apply bool_decide_eq_true in H.
Qed.
Lemma flattened_app taken a b : flattened taken (a ++ b) = flattened taken a ++ flattened taken b.
Proof. unfold flattened. apply List.filter_app. Qed.
Lemma flattened_all taken m : (∀ k, k ∈ keys m → k ∉ taken) → flattened taken m = m.
Proof.
  induction m as [|[k v] m IH]; intros H; [done|]. unfold flattened in *. simpl.
  rewrite bool_decide_true by (apply H, elem_of_cons; by left). f_equal. apply IH. intros k' Hk'. apply H, elem_of_cons. by right.
Qed.

(** ** Kinds and quotas *)
Lemma de_kind_ser {A} (d : json → option A) f k :
  (∀ a, k = KObject a → d (f a) = Some a ∧ ∀ s, f a ≠ JStr s) → de_kind d (ser_kind f k) = Some k.
Proof.
  intros H. destruct k as [s|a]; [done|]. destruct (H a eq_refl) as [Ha Hs]. unfold ser_kind, de_kind.
  rewrite Ha. destruct (f a) eqn:E; try done. by destruct (Hs s).
Qed.
Lemma de_kind_inv {A} (d : json → option A) j a : de_kind d j = Some (KObject a) → d j = Some a ∧ ∀ s, j ≠ JStr s.
Proof.
  intros H. destruct j; cbn [de_kind] in H; [| | |discriminate H| |]; (destruct (d _); [|discriminate H]); injection H as ->; done.
Qed.
Lemma de_quota_ser {A} (d : json → option A) f q :
  (∀ a, a ∈ quota_elems q → d (f a) = Some a) → (∀ l, q = QMany l → d (ser_list f l) = None) →
  de_quota d (ser_quota f q) = Some q.
Proof.
  intros H Hl. destruct q as [a|l]; unfold de_quota, ser_quota.
  - rewrite H; [done|]. by apply elem_of_list_singleton.
  - rewrite (Hl l eq_refl). rewrite de_list_ser; [done|]. apply Forall_forall. intros a Ha. by apply H.
Qed.
Lemma de_quota_inv {A} (d : json → option A) j q a : de_quota d j = Some q → a ∈ quota_elems q → ∃ j', d j' = Some a.
Proof.
  unfold de_quota. destruct (d j) eqn:E.
  - intros [= <-] H. apply elem_of_list_singleton in H as ->. eauto.
  - destruct (de_list d j) eqn:E2; [|done]. intros [= <-] H. apply de_list_inv in E2.
    by apply (proj1 (Forall_forall _ _) E2 a H).
Qed.
Lemma ser_quota_nonnull {A} (f : A → json) q : (∀ a, f a ≠ JNull) → ser_quota f q ≠ JNull.
Proof. intros H. destruct q; [apply H|done]. Qed.
Lemma opt_null {A} (d : json → option A) (f : A → json) k m o :
  lookups k m = [null_or f o] → (∀ a, o = Some a → d (f a) = Some a ∧ f a ≠ JNull) → opt d k m = Some o.
Proof.
  unfold opt. intros -> H. destruct o as [a|]; [|done]. destruct (H a eq_refl) as [Ha Hn]. cbn [null_or]. rewrite Ha.
  by destruct (f a).
Qed.
Lemma dflt_inv {A} (d : json → option A) a0 k m a : dflt d a0 k m = Some a → a = a0 ∨ ∃ j, d j = Some a.
Proof. unfold dflt. destruct (lookups k m) as [|j [|]]; [|eauto|done]. intros [= <-]. by left. Qed.

Lemma de_usize_ser n : fits_unsigned n → de_usize (ser_usize n) = Some n.
Proof.
  unfold fits_unsigned. intros H. unfold ser_usize, de_usize, ser_int. rewrite int_text_inv, DecimalZ.of_to.
  rewrite bool_decide_true by done. assert ((0 <=? Z.of_N n)%Z = true) as -> by (apply Z.leb_le; lia).
  assert ((Z.of_N n <? 2 ^ 64)%Z = true) as -> by (apply Z.ltb_lt; lia). cbn [andb]. by rewrite N2Z.id.
Qed.
Lemma de_usize_inv j n : de_usize j = Some n → fits_unsigned n.
Proof.
  destruct j; try done. cbn [de_usize]. destruct (NilZero.int_of_string text) as [d|]; [|done]. cbv zeta.
  destruct (bool_decide _ && _) eqn:E; [|done]. intros [= <-]. apply andb_prop in E as [_ E].
  apply andb_prop in E as [E1 E2]. apply Z.leb_le in E1. apply Z.ltb_lt in E2. unfold fits_unsigned. lia.
Qed.
Global Arguments de_usize : simpl never.
Global Arguments ser_usize : simpl never.

(** ** Names *)
Lemma de_direction_ser d : de_direction (ser_direction d) = Some d.
Proof. by destruct d. Qed.
Lemma de_purpose_ser p : de_purpose (ser_purpose p) = Some p.
Proof. by destruct p. Qed.
Lemma de_lang_value_ser v : de_lang_value (ser_lang_value v) = Some v.
Proof.
  destruct v as [v l d]. unfold ser_lang_value, de_lang_value. cbn [obj lv_value lv_language lv_direction].
  rq. cbn [de_str]. ro JStr l. ro ser_direction d; [done|]. intros x _. split; [apply de_direction_ser|done].
Qed.
Lemma de_lang_string_ser s : de_lang_string (ser_lang_string s) = Some s.
Proof.
  apply de_kind_ser. intros q _. split; [|by destruct q]. apply de_quota_ser; [|done]. intros v _. apply de_lang_value_ser.
Qed.
Lemma lang_string_nonnull s : ser_lang_string s ≠ JNull.
Proof. by destruct s as [|[|]]. Qed.

(** ** Subjects, status, proofs *)
Lemma de_subject_ser s : readable_subject s → de_subject (ser_subject s) = Some s.
Proof.
  destruct s as [i c]. intros [Hid Hp]. cbn [cs_claims] in *. unfold ser_subject, de_subject. cbn [obj cs_id cs_claims].
  assert (lookups "id" c = []) as Hl.
  { destruct (lookups "id" c) eqn:E; [done|]. exfalso. apply Hid. unfold keys. apply elem_of_list_fmap.
    exists ("id", j). split; [done|]. apply lookups_elem. rewrite E. by left. }
  rewrite (opt_of _ JStr _ _ i); [|rewrite lookups_app, Hl; by lk|by intros].
  rewrite value_entries_de, flattened_app.
  assert (flattened ["id"] (some_entry "id" JStr i) = []) as -> by (by destruct i).
  rewrite flattened_all.
  2:{ intros k Hk Hin. apply elem_of_list_singleton in Hin as ->. done. }
  apply proper_obj in Hp as [Hnd Hp]. rewrite app_nil_l. rewrite (value_entries_proper c []); [done| |done].
  eapply Forall_impl; [exact Hp|]. intros kv. apply value_of_proper.
Qed.
Lemma de_subject_readable j s : de_subject j = Some s → readable_subject s.
Proof.
  destruct j as [| | | | |m]; try done. unfold de_subject. cbn [obj]. destruct (opt de_str "id" m); [|done].
  rewrite value_entries_de. intros [= <-]. split; cbn [cs_claims].
  - intros Hin. apply value_entries_keys in Hin as [Hin|Hin]; [|by apply elem_of_nil in Hin].
    apply flattened_keys in Hin. apply Hin. by apply elem_of_list_singleton.
  - apply proper_obj. apply value_entries_inv; [|constructor|constructor]. apply Forall_forall. intros kv _. apply proper_value_of.
Qed.
Lemma de_status_ser s : readable_status s → de_status (ser_status s) = Some s.
Proof.
  destruct s as [i p n l z]. intros [Hn Hz]. cbn [st_index st_size] in *. unfold ser_status, de_status.
  cbn [obj st_id st_purpose st_index st_list_credential st_size].
  ro JStr i. rq. cbn [de_str]. rq. rewrite de_purpose_ser. rq. rewrite de_usize_ser by done. rq. cbn [de_str].
  ro ser_usize z; [by rewrite bool_decide_true|]. intros x ->. split; [|done]. apply de_usize_ser. by apply Hz.
Qed.
Lemma de_status_readable j s : de_status j = Some s → readable_status s.
Proof.
  destruct j as [| | | | |m]; try done. unfold de_status. cbn [obj].
  destruct (opt de_str "id" m); [|done]. destruct (req de_str "type" m); [|done]. destruct (req de_purpose _ m); [|done].
  destruct (req de_usize _ m) eqn:E; [|done]. destruct (req de_str _ m); [|done].
  destruct (opt de_usize _ m) eqn:E2; [|done]. case_bool_decide; [|done]. intros [= <-]. split; cbn [st_index st_size].
  - apply req_inv in E as (j & _ & E). by apply (de_usize_inv j).
  - intros z ->. apply opt_inv in E2 as (j & _ & E2). by apply (de_usize_inv j).
Qed.
Lemma de_integrity_ser p : de_integrity (ser_integrity p) = Some p.
Proof. destruct p as [c]. unfold ser_integrity, de_integrity. cbn [obj ip_challenge]. by ro JStr c. Qed.
Lemma de_proofs_ser q : q ≠ QMany [] → de_quota de_integrity (ser_quota ser_integrity q) = Some q.
Proof.
  intros H. apply de_quota_ser; [intros; apply de_integrity_ser|]. intros l ->. by destruct l.
Qed.
Lemma de_proofs_readable j q : de_quota de_integrity j = Some q → q ≠ QMany [].
Proof.
  intros H ->. unfold de_quota in H. destruct (de_integrity j) eqn:E; [done|].
  destruct j as [| | | |l|]; try discriminate H. destruct l as [|x l]; [discriminate E|]. unfold de_list in H. simpl in H.
  destruct (de_integrity x); [|discriminate H]. simpl in H. destruct (mapM de_integrity l); discriminate H.
Qed.
Lemma de_context_ser k : readable_context k → de_kind de_value (ser_kind (λ j, j) k) = Some k.
Proof.
  intros H. apply de_kind_ser. intros j ->. destruct H as [Hp Hs]. split; [|done]. unfold de_value. by rewrite value_of_proper.
Qed.
Lemma de_context_readable j k : de_kind de_value j = Some k → readable_context k.
Proof.
  destruct k as [|j']; [done|]. intros H. apply de_kind_inv in H as [H Hs]. injection H as <-. split; [apply proper_value_of|].
  intros s E. destruct j; try done. by apply (Hs s0).
Qed.
Lemma de_contexts_ser l : (∀ k, k ∈ l → readable_context k) →
  de_list (de_kind de_value) (ser_list (ser_kind (λ j, j)) l) = Some l.
Proof. intros H. apply de_list_ser. apply Forall_forall. intros k Hk. by apply de_context_ser, H. Qed.
Lemma de_types_ser q : de_quota de_str (ser_quota JStr q) = Some q.
Proof. by apply de_quota_ser. Qed.
Lemma de_issuer_ser k : de_kind de_issuer_id (ser_kind ser_issuer_id k) = Some k.
Proof. by apply de_kind_ser. Qed.
Lemma opt_proof m o : lookups "proof" m = match o with Some q => [ser_quota ser_integrity q] | None => [] end →
  readable_proof o → opt (de_quota de_integrity) "proof" m = Some o.
Proof.
  intros Hl H. apply (opt_of _ (ser_quota ser_integrity)); [done|]. intros q ->.
  split; [apply de_proofs_ser; by intros ->|by destruct q].
Qed.
Lemma opt_proof_inv m o : opt (de_quota de_integrity) "proof" m = Some o → readable_proof o.
Proof. intros H ->. apply opt_inv in H as (j & _ & H). by apply de_proofs_readable in H. Qed.

Global Arguments ser_subject : simpl never.
Global Arguments ser_status : simpl never.
Global Arguments de_subject : simpl never.
Global Arguments de_status : simpl never.
Global Arguments de_quota : simpl never.
Global Arguments ser_quota : simpl never.
Global Arguments de_kind : simpl never.
Global Arguments ser_kind : simpl never.
Global Arguments de_integrity : simpl never.
Global Arguments ser_integrity : simpl never.
Global Arguments de_lang_string : simpl never.
Global Arguments ser_lang_string : simpl never.

(** ** Credentials *)
Lemma de_date_ser cx t : dates_read cx → de_date cx (ser_date cx t) = Some t.
Proof. intros H. apply H. Qed.
Lemma de_vc_ser cx v : dates_read cx → readable_vc v → de_vc cx (ser_vc cx v) = Some v.
Proof.
  intros Hd (Hc & Hs & Hst & Hp). destruct v as [c i t n d u s vf vu st p]. unfold ser_vc, de_vc.
  cbn [obj vc_context vc_id vc_type vc_name vc_description vc_issuer vc_subject vc_valid_from vc_valid_until vc_status vc_proof] in *.
  df. rewrite de_contexts_ser by done. rewrite (opt_null _ JStr _ _ i); [|by lk|by intros].
  df. rewrite de_types_ser.
  rewrite (opt_of _ ser_lang_string _ _ n); [|by lk|intros; split; [apply de_lang_string_ser|apply lang_string_nonnull]].
  rewrite (opt_of _ ser_lang_string _ _ d); [|by lk|intros; split; [apply de_lang_string_ser|apply lang_string_nonnull]].
  df. rewrite de_issuer_ser. df.
  rewrite de_quota_ser; [|intros a Ha; apply de_subject_ser; by apply Hs|by intros].
  rewrite (opt_null _ (ser_date cx) _ _ vf); [|by lk|intros; split; [by apply de_date_ser|done]].
  rewrite (opt_of _ (ser_date cx) _ _ vu); [|by lk|intros; split; [by apply de_date_ser|done]].
  rewrite (opt_of _ (ser_quota ser_status) _ _ st); [|by lk|].
  - rewrite (opt_proof _ p); [done|by lk|done].
  - intros q ->. split; [|by destruct q]. apply de_quota_ser; [|by intros]. intros a Ha. apply de_status_ser. by apply (Hst q).
Qed.
Lemma de_vc_readable cx j v : de_vc cx j = Some v → readable_vc v.
Proof.
  destruct j as [| | | | |m]; try done. unfold de_vc. cbn [obj]. intros H.
  repeat match type of H with match ?x with Some _ => _ | None => _ end = _ => destruct x eqn:?; [|done] end.
  injection H as <-. unfold readable_vc. cbn [vc_context vc_subject vc_status vc_proof]. split_and!.
  - intros kk Hk. match goal with E0 : dflt (de_list _) _ _ m = _ |- _ => pose proof E0 as E end. apply dflt_inv in E as [->|(j & E)];
      [by apply elem_of_nil in Hk|]. apply de_list_inv in E. destruct (proj1 (Forall_forall _ _) E kk Hk) as (j' & Hj).
    by apply (de_context_readable j').
  - intros ss Hs. match goal with E0 : dflt (de_quota de_subject) _ _ m = _ |- _ => pose proof E0 as E end. apply dflt_inv in E as [->|(j & E)].
    + apply elem_of_list_singleton in Hs as ->. split; [apply not_elem_of_nil|]. split; [constructor|done].
    + destruct (de_quota_inv _ _ _ _ E Hs) as (j' & Hj). by apply (de_subject_readable j').
  - intros qq ss -> Hs. match goal with E0 : opt (de_quota de_status) _ m = _ |- _ => pose proof E0 as E end. apply opt_inv in E as (j & _ & E).
    destruct (de_quota_inv _ _ _ _ E Hs) as (j' & Hj). by apply (de_status_readable j').
  - by match goal with E : opt (de_quota de_integrity) _ m = _ |- _ => apply opt_proof_inv in E end.
Qed.
Lemma de_vc_nonstring cx v s : ser_vc cx v ≠ JStr s.
Proof. done. Qed.
Global Arguments ser_vc : simpl never.
Global Arguments de_vc : simpl never.

Lemma de_vp_ser cx p : dates_read cx → readable_vp p → de_vp cx (ser_vp cx p) = Some p.
Proof.
  intros Hd (Hc & Hl & Hp). destruct p as [c i t l h p]. unfold ser_vp, de_vp.
  cbn [obj vp_context vp_id vp_type vp_credential vp_holder vp_proof] in *.
  df. rewrite de_contexts_ser by done. ro JStr i. df. rewrite de_types_ser.
  rewrite (opt_of _ (ser_list (ser_kind (ser_vc cx))) _ _ l); [|by lk|].
  - ro JStr h. rewrite (opt_proof _ p); [done|by lk|done].
  - intros vs ->. split; [|done]. apply de_list_ser. apply Forall_forall. intros k Hk. apply de_kind_ser. intros v ->.
    split; [|done]. apply de_vc_ser; [done|]. by apply (Hl vs).
Qed.
Lemma de_vp_readable cx j p : de_vp cx j = Some p → readable_vp p.
Proof.
  destruct j as [| | | | |m]; try done. unfold de_vp. cbn [obj]. intros H.
  repeat match type of H with match ?x with Some _ => _ | None => _ end = _ => destruct x eqn:?; [|done] end.
  injection H as <-. unfold readable_vp. cbn [vp_context vp_credential vp_proof]. split_and!.
  - intros kk Hk. match goal with E0 : dflt (de_list _) _ _ m = _ |- _ => pose proof E0 as E end. apply dflt_inv in E as [->|(j & E)];
      [by apply elem_of_nil in Hk|]. apply de_list_inv in E. destruct (proj1 (Forall_forall _ _) E kk Hk) as (j' & Hj).
    by apply (de_context_readable j').
  - intros ll vv -> Hv. match goal with E0 : opt (de_list (de_kind (de_vc cx))) _ m = _ |- _ => pose proof E0 as E end. apply opt_inv in E as (j & _ & E).
    apply de_list_inv in E. destruct (proj1 (Forall_forall _ _) E _ Hv) as (j' & Hj). apply de_kind_inv in Hj as [Hj _].
    by apply (de_vc_readable cx j').
  - by match goal with E : opt (de_quota de_integrity) _ m = _ |- _ => apply opt_proof_inv in E end.
Qed.
Global Arguments ser_vp : simpl never.
Global Arguments de_vp : simpl never.

(** ** What is signed *)
Lemma de_vc_claims_ser cx c : dates_read cx → readable_vc (vcc_vc c) → fits 64 (vcc_iat c) →
  (∀ n, vcc_nbf c = Some n → fits 64 n) → (∀ n, vcc_exp c = Some n → fits 64 n) →
  de_vc_claims cx (ser_vc_claims cx c) = Some c.
Proof.
  destruct c as [s n i a j e v]. intros Hd Hv Ha Hn He. cbn [vcc_iat vcc_nbf vcc_exp vcc_vc] in *.
  unfold ser_vc_claims, de_vc_claims. cbn [obj vcc_sub vcc_nbf vcc_iss vcc_iat vcc_jti vcc_exp vcc_vc].
  rq. cbn [de_str]. rewrite (opt_null _ ser_int _ _ n); [|by lk|].
  2:{ intros z ->. split; [|done]. apply de_int_ser. by apply Hn. }
  rq. cbn [de_str]. rq. rewrite de_int_ser by done. rq. cbn [de_str]. ro ser_int e.
  - rq. by rewrite de_vc_ser.
  - intros z ->. split; [|done]. apply de_int_ser. by apply He.
Qed.
Lemma de_vp_claims_ser cx c : dates_read cx → readable_vp (vpc_vp c) → fits 64 (vpc_nbf c) → fits 64 (vpc_iat c) →
  fits 64 (vpc_exp c) → de_vp_claims cx (ser_vp_claims cx c) = Some c.
Proof.
  destruct c as [i j a n b t e v]. intros Hd Hv Hb Ht He. cbn [vpc_nbf vpc_iat vpc_exp vpc_vp] in *.
  unfold ser_vp_claims, de_vp_claims. cbn [obj vpc_iss vpc_jti vpc_aud vpc_nonce vpc_nbf vpc_iat vpc_exp vpc_vp].
  do 4 (rq; cbn [de_str]). rq. rewrite de_int_ser by done. rq. rewrite de_int_ser by done. rq. rewrite de_int_ser by done.
  rq. by rewrite de_vp_ser.
Qed.
