(** What is written is read back, and only that. *)
From Coq Require Import Lia DecimalString DecimalZ DecimalFacts.
From Verif Require Import Base StringSpec Json MatcherModel JsonParse JsonText CoreModel VcModel Prog IssuerTypes
  IssuerClaims SerdeSpec SerdeModel.
Local Arguments String.append : simpl never.

(** ** Fields *)
Lemma lookups_app {A} k (m m' : list (string * A)) : lookups k (m ++ m') = lookups k m ++ lookups k m'.
Proof. unfold lookups. apply omap_app. Qed.
Lemma lookups_eq {A} k (v : A) m : lookups k ((k, v) :: m) = v :: lookups k m.
Proof. unfold lookups. simpl. by rewrite bool_decide_true by done. Qed.
Lemma lookups_ne {A} k k' (v : A) m : k' ≠ k → lookups k ((k', v) :: m) = lookups k m.
Proof. intros H. unfold lookups. simpl. by rewrite bool_decide_false by done. Qed.
Lemma lookups_some_eq {A} k (f : A → json) o : lookups k (some_entry k f o) = match o with Some a => [f a] | None => [] end.
Proof. destruct o; [|done]. unfold some_entry. by rewrite lookups_eq. Qed.
Lemma lookups_some_ne {A} k k' (f : A → json) o : k' ≠ k → lookups k (some_entry k' f o) = [].
Proof. intros H. destruct o; [|done]. unfold some_entry. by rewrite lookups_ne. Qed.
Lemma lookups_str_eq k s : lookups k (str_entry k s) = if bool_decide (s = "") then [] else [JStr s].
Proof. unfold str_entry. case_bool_decide; [done|]. by rewrite lookups_eq. Qed.
Lemma lookups_str_ne k k' s : k' ≠ k → lookups k (str_entry k' s) = [].
Proof. intros H. unfold str_entry. case_bool_decide; [done|]. by rewrite lookups_ne. Qed.
Lemma lookups_elem {A} k (m : list (string * A)) a : a ∈ lookups k m ↔ (k, a) ∈ m.
Proof.
  unfold lookups. rewrite elem_of_list_omap. split.
  - intros ([k' v] & Hin & H). simpl in H. case_bool_decide; [|done]. by simplify_eq.
  - intros H. exists (k, a). split; [done|]. simpl. by rewrite bool_decide_true.
Qed.

Lemma req_of {A} (d : json → option A) k m j : lookups k m = [j] → req d k m = d j.
Proof. unfold req. by intros ->. Qed.
Lemma opt_of {A} (d : json → option A) (f : A → json) k m o :
  lookups k m = match o with Some a => [f a] | None => [] end →
  (∀ a, o = Some a → d (f a) = Some a ∧ f a ≠ JNull) → opt d k m = Some o.
Proof.
  unfold opt. intros -> H. destruct o as [a|]; [|done]. destruct (H a eq_refl) as [-> Hn].
  by destruct (f a).
Qed.
Lemma dflt_str k m s : lookups k m = (if bool_decide (s = "") then [] else [JStr s]) → dflt de_str "" k m = Some s.
Proof. unfold dflt. intros ->. case_bool_decide; by subst. Qed.
Lemma dflt_of {A} (d : json → option A) a k m j : lookups k m = [j] → dflt d a k m = d j.
Proof. unfold dflt. by intros ->. Qed.
Lemma req_inv {A} (d : json → option A) k m a : req d k m = Some a → ∃ j, (k, j) ∈ m ∧ d j = Some a.
Proof.
  unfold req. destruct (lookups k m) as [|j [|]] eqn:E; [done| |done]. intros H. exists j. split; [|done].
  apply lookups_elem. rewrite E. by apply elem_of_list_singleton.
Qed.
Lemma opt_inv {A} (d : json → option A) k m a : opt d k m = Some (Some a) → ∃ j, (k, j) ∈ m ∧ d j = Some a.
Proof.
  unfold opt. destruct (lookups k m) as [|j [|]] eqn:E; [done| |by destruct j]. intros H. exists j.
  assert ((k, j) ∈ m). { apply lookups_elem. rewrite E. by apply elem_of_list_singleton. }
  split; [done|]. destruct j; try done; by destruct (d _); simplify_eq.
Qed.

(** Computes the [lookups] of a list of named fields. *)
Ltac lk := repeat first
  [ rewrite lookups_app | rewrite lookups_eq | rewrite lookups_ne by discriminate
  | rewrite lookups_some_eq | rewrite lookups_some_ne by discriminate
  | rewrite lookups_str_eq | rewrite lookups_str_ne by discriminate
  | rewrite app_nil_r | rewrite app_nil_l ]; try reflexivity.

Lemma de_list_ser {A} (d : json → option A) (f : A → json) l :
  Forall (λ a, d (f a) = Some a) l → de_list d (ser_list f l) = Some l.
Proof.
  intros H. simpl. induction H as [|a l Ha _ IH]; [done|]. simpl. rewrite Ha. simpl. by rewrite IH.
Qed.
Lemma de_list_inv {A} (d : json → option A) j l : de_list d j = Some l → Forall (λ a, ∃ j', d j' = Some a) l.
Proof.
  destruct j as [| | | |js|]; try done. simpl. revert l. induction js as [|x js IH]; simpl; intros l H.
  - injection H as <-. constructor.
  - destruct (d x) eqn:E; [|done]. simpl in H. destruct (mapM d js) eqn:E'; [|done]. injection H as <-.
    constructor; [by eexists|by apply IH].
Qed.
Lemma de_strs_ser l : de_strs (ser_strs l) = Some l.
Proof. apply de_list_ser. apply Forall_forall. done. Qed.
Lemma ser_strs_nn l : ser_strs l ≠ JNull.
Proof. done. Qed.

(** Maps *)
Lemma ainsert_new {A} k (a : A) l : k ∉ keys l → ainsert k a l = l ++ [(k, a)].
Proof.
  induction l as [|[k' v] l IH]; [done|]. simpl. intros H. apply not_elem_of_cons in H as [Hne H].
  rewrite bool_decide_false by done. by rewrite IH.
Qed.
Lemma keys_app {A} (l l' : list (string * A)) : keys (l ++ l') = keys l ++ keys l'.
Proof. unfold keys. apply map_app. Qed.
Lemma keys_ainsert' {A} k (v : A) l x : x ∈ keys (ainsert k v l) ↔ x = k ∨ x ∈ keys l.
Proof.
  induction l as [|[k' v'] l IH]; simpl.
  - rewrite elem_of_list_singleton. split; [by left|intros [?|H]; [done|by apply elem_of_nil in H]].
  - case_bool_decide as E; simpl; rewrite !elem_of_cons; [subst; naive_solver|]. rewrite IH. naive_solver.
Qed.
Lemma nodup_ainsert' {A} k (v : A) l : NoDup (keys l) → NoDup (keys (ainsert k v l)).
Proof.
  induction l as [|[k' v'] l IH]; simpl; intros H; [apply NoDup_singleton|].
  case_bool_decide as E; simpl; [by subst|]. apply NoDup_cons in H as [Hn H]. apply NoDup_cons. split; [|by apply IH].
  intros Hin. apply keys_ainsert' in Hin as [->|]; done.
Qed.
Lemma elem_ainsert {A} k (v : A) l k' v' : (k', v') ∈ ainsert k v l → (k' = k ∧ v' = v) ∨ (k', v') ∈ l.
Proof.
  induction l as [|[k1 v1] l IH]; simpl; intros H.
  - apply elem_of_list_singleton in H. left. by simplify_eq.
  - case_bool_decide as E; apply elem_of_cons in H as [H|H].
    + left. by simplify_eq.
    + right. apply elem_of_cons. by right.
    + right. apply elem_of_cons. by left.
    + destruct (IH H) as [?|?]; [by left|right; apply elem_of_cons; by right].
Qed.
Lemma ainsert_nonnil {A} k (v : A) l : ainsert k v l ≠ [].
Proof. destruct l as [|[k' v'] l]; simpl; [done|]. by case_bool_decide. Qed.

Lemma de_entries_ser {A} (d : json → option A) (f : A → json) l acc :
  (∀ k a, (k, a) ∈ l → d (f a) = Some a) → NoDup (keys (acc ++ l)) →
  de_entries d (map (λ kv, (kv.1, f kv.2)) l) acc = Some (acc ++ l).
Proof.
  revert acc. induction l as [|[k a] l IH]; intros acc H Hnd; simpl; [by rewrite app_nil_r|].
  rewrite (H k a) by (apply elem_of_cons; by left). rewrite ainsert_new.
  - rewrite IH; [by rewrite <-app_assoc|intros k' a' Hin; apply (H k'); apply elem_of_cons; by right|].
    by rewrite <-app_assoc.
  - rewrite keys_app in Hnd. apply NoDup_app in Hnd as (_ & Hd & _). intros Hin. apply (Hd k Hin). simpl.
    apply elem_of_cons. by left.
Qed.
Lemma de_map_ser {A} (d : json → option A) (f : A → json) l :
  (∀ k a, (k, a) ∈ l → d (f a) = Some a) → NoDup (keys l) → de_map d (ser_map f l) = Some l.
Proof. intros H Hnd. apply (de_entries_ser d f l [] H Hnd). Qed.
Lemma de_entries_inv {A} (d : json → option A) m : ∀ acc l, de_entries d m acc = Some l → NoDup (keys acc) →
  NoDup (keys l) ∧ ∀ k a, (k, a) ∈ l → (k, a) ∈ acc ∨ ∃ j, (k, j) ∈ m ∧ d j = Some a.
Proof.
  induction m as [|[k v] m IH]; simpl; intros acc l H Hnd.
  - simplify_eq. split; [done|]. intros; by left.
  - destruct (d v) as [a|] eqn:E; [|done]. destruct (IH _ _ H (nodup_ainsert' _ _ _ Hnd)) as [H1 H2].
    split; [done|]. intros k' a' Hin. destruct (H2 _ _ Hin) as [Hi|(j & Hj & Hd)].
    + apply elem_ainsert in Hi as [[-> ->]|Hi]; [|by left]. right. exists v. split; [|done]. apply elem_of_cons. by left.
    + right. exists j. split; [|done]. apply elem_of_cons. by right.
Qed.
Lemma de_map_inv {A} (d : json → option A) j l : de_map d j = Some l →
  NoDup (keys l) ∧ ∀ k a, (k, a) ∈ l → ∃ m v, j = JObj m ∧ (k, v) ∈ m ∧ d v = Some a.
Proof.
  destruct j as [| | | | |m]; try done. unfold de_map. cbn [obj]. intros H.
  destruct (de_entries_inv d m [] l H ltac:(constructor)) as [H1 H2]. split; [done|].
  intros k a Hin. destruct (H2 _ _ Hin) as [Hi|(v & Hv & Hd)]; [by apply elem_of_nil in Hi|]. eauto.
Qed.

(** ** Integers *)
Lemma int_text_norm z : Decimal.norm (Z.to_int z) = Z.to_int z.
Proof. by rewrite <-DecimalZ.to_of, DecimalZ.of_to. Qed.
Lemma int_text_inv z : NilZero.int_of_string (int_text z) = Some (Z.to_int z).
Proof.
  unfold int_text. apply NilZero.isi; intros E; pose proof (int_text_norm z) as H; rewrite E in H; discriminate H.
Qed.
Lemma de_int_ser n z : fits n z → de_int n (ser_int z) = Some z.
Proof.
  intros [H1 H2]. unfold ser_int, de_int. rewrite int_text_inv. rewrite DecimalZ.of_to. rewrite bool_decide_true by done.
  unfold int_range. apply Z.leb_le in H1. apply Z.ltb_lt in H2. by rewrite H1, H2.
Qed.
Lemma de_int_inv n j z : de_int n j = Some z → fits n z.
Proof.
  destruct j; try done. simpl. destruct (NilZero.int_of_string text); [|done].
  destruct (bool_decide _ && int_range n _) eqn:E; [|done]. intros [= <-]. apply andb_prop in E as [_ E].
  unfold int_range in E. apply andb_prop in E as [E1 E2]. apply Z.leb_le in E1. apply Z.ltb_lt in E2. done.
Qed.

(** ** Claims *)
Lemma ser_claim_set l : ser_claim (CSet l) = JObj (map (λ kc, (kc.1, ser_claim kc.2)) l).
Proof. simpl. f_equal. induction l as [|[k c] l IH]; [done|]. simpl. by rewrite IH. Qed.
Lemma readable_set l : readable_claim (CSet l) ↔
  l ≠ [] ∧ NoDup (keys l) ∧ Forall (λ kc, kc.1 ∉ reserved ∧ readable_claim kc.2) l.
Proof.
  cbn [readable_claim]. assert (∀ P Q R R' : Prop, (R ↔ R') → (P ∧ Q ∧ R ↔ P ∧ Q ∧ R')) as Hc by tauto. apply Hc. clear.
  induction l as [|[k c] l IH]; [split; [constructor|done]|]. rewrite Forall_cons. simpl. by rewrite IH.
Qed.
(** The loop of [de_claim]. *)
Fixpoint claim_loop (m : list (string * json)) (mandatory : option bool) (set : claimset) : option claim :=
  match m with
  | [] => Some (match set with [] => CEntry mandatory | _ => CSet set end)
  | (k, v) :: r =>
      if bool_decide (k = "mandatory") then
        match de_bool v with Some b => claim_loop r (Some b) set | None => None end
      else if bool_decide (k = "value_type") then if value_type_ok v then claim_loop r mandatory set else None
      else if bool_decide (k = "display") then if display_ok v then claim_loop r mandatory set else None
      else match de_claim v with Some c => claim_loop r mandatory (ainsert k c set) | None => None end
  end.
Lemma de_claim_obj m : de_claim (JObj m) = claim_loop m None [].
Proof.
  cbn [de_claim]. generalize (@None bool) (@nil (string * claim)). induction m as [|[k v] m IH]; intros o set; [done|].
  simpl. repeat case_bool_decide; [destruct (de_bool v); [apply IH|done]|destruct (value_type_ok v); [apply IH|done]
    |destruct (display_ok v); [apply IH|done]|destruct (de_claim v); [apply IH|done]].
Qed.
Lemma claim_loop_set l set o : Forall (λ kc, kc.1 ∉ reserved ∧ de_claim (ser_claim kc.2) = Some kc.2) l →
  NoDup (keys (set ++ l)) → set ++ l ≠ [] →
  claim_loop (map (λ kc, (kc.1, ser_claim kc.2)) l) o set = Some (CSet (set ++ l)).
Proof.
  revert set. induction l as [|[k c] l IH]; intros set H Hnd Hne; simpl.
  - rewrite app_nil_r in *. by destruct set.
  - apply Forall_cons in H as [[Hk Hc] H]. simpl in Hk, Hc.
    unfold reserved in Hk. apply not_elem_of_cons in Hk as [H1 Hk]. apply not_elem_of_cons in Hk as [H2 Hk].
    apply not_elem_of_cons in Hk as [H3 _]. rewrite !bool_decide_false by done. rewrite Hc.
    rewrite ainsert_new.
    + rewrite IH; [by rewrite <-app_assoc|done|by rewrite <-app_assoc|by destruct set].
    + rewrite keys_app in Hnd. apply NoDup_app in Hnd as (_ & Hd & _). intros Hin. apply (Hd k Hin). simpl.
      apply elem_of_cons. by left.
Qed.
Lemma de_claim_ser c : readable_claim c → de_claim (ser_claim c) = Some c.
Proof.
  induction c as [m|l IH] using claim_ind'; intros H.
  - by destruct m as [[]|].
  - apply readable_set in H as (Hne & Hnd & Hall). rewrite ser_claim_set, de_claim_obj.
    apply (claim_loop_set l []); [|done|done]. apply Forall_forall. intros kc Hin.
    destruct (proj1 (Forall_forall _ _) Hall _ Hin) as [Hk Hc]. split; [done|].
    by apply (proj1 (Forall_forall _ _) IH _ Hin).
Qed.
Lemma claim_loop_inv m : ∀ o set c, Forall (λ kv, ∀ c, de_claim kv.2 = Some c → readable_claim c) m →
  claim_loop m o set = Some c → NoDup (keys set) → Forall (λ kc, kc.1 ∉ reserved ∧ readable_claim kc.2) set →
  readable_claim c.
Proof.
  induction m as [|[k v] m IH]; intros o set c Hm H Hnd Hs; simpl in H.
  - injection H as <-. destruct set as [|x set]; [done|]. by apply readable_set.
  - apply Forall_cons in Hm as [Hv Hm]. repeat case_bool_decide.
    + destruct (de_bool v); [|done]. by apply (IH _ _ _ Hm H).
    + destruct (value_type_ok v); [|done]. by apply (IH _ _ _ Hm H).
    + destruct (display_ok v); [|done]. by apply (IH _ _ _ Hm H).
    + destruct (de_claim v) as [c'|] eqn:E; [|done]. apply (IH _ _ _ Hm H); [by apply nodup_ainsert'|].
      apply Forall_forall. intros [k' x] Hin. apply elem_ainsert in Hin as [[-> ->]|Hin].
      * split; [|by apply Hv]. unfold reserved. simpl. rewrite !not_elem_of_cons. split_and!; try done. apply not_elem_of_nil.
      * by apply (proj1 (Forall_forall _ _) Hs _ Hin).
Qed.
Lemma de_claim_readable j : ∀ c, de_claim j = Some c → readable_claim c.
Proof.
  induction j as [|b|t|s|l IH|m IH] using json_ind'; intros c H; try done.
  rewrite de_claim_obj in H. apply (claim_loop_inv _ _ _ _ IH H); constructor.
Qed.
Lemma de_claimset_ser l : readable_claims l → de_claimset (ser_claimset l) = Some l.
Proof. intros [Hnd H]. apply de_map_ser; [|done]. intros k c Hin. apply de_claim_ser. by apply (H k). Qed.
Lemma de_claimset_readable j l : de_claimset j = Some l → readable_claims l.
Proof.
  intros H. destruct (de_map_inv _ _ _ H) as [Hnd Hin]. split; [done|]. intros k c Hc.
  destruct (Hin _ _ Hc) as (m & v & _ & _ & Hv). by apply (de_claim_readable v).
Qed.

Global Arguments de_claimset : simpl never.
Global Arguments ser_claimset : simpl never.
Global Arguments de_definition : simpl never.
Global Arguments ser_definition : simpl never.
Global Arguments de_detail : simpl never.
Global Arguments ser_detail : simpl never.
Global Arguments de_strs : simpl never.
Global Arguments ser_strs : simpl never.
Global Arguments de_int : simpl never.
Global Arguments ser_int : simpl never.
Global Arguments de_list : simpl never.
Global Arguments ser_list : simpl never.
Global Arguments de_map : simpl never.
Global Arguments ser_map : simpl never.

(** ** Definitions, formats, details *)
Lemma de_definition_ser d : readable_definition d → de_definition (ser_definition d) = Some d.
Proof.
  intros H. destruct d as [c t s]. unfold ser_definition, de_definition. cbn [obj cd_context cd_type cd_subject].
  rewrite (opt_of _ ser_strs _ _ c); [|by lk|intros; split; [apply de_strs_ser|done]].
  rewrite (opt_of _ ser_strs _ _ t); [|by lk|intros; split; [apply de_strs_ser|done]].
  rewrite (opt_of _ ser_claimset _ _ s); [done|by lk|].
  intros l ->. split; [|done]. apply de_claimset_ser. by apply H.
Qed.
Lemma de_definition_readable j d : de_definition j = Some d → readable_definition d.
Proof.
  destruct j as [| | | | |m]; try done. unfold de_definition. cbn [obj]. intros H.
  destruct (opt de_strs "@context" m); [|done]. destruct (opt de_strs "type" m); [|done].
  destruct (opt de_claimset "credentialSubject" m) as [s|] eqn:E; [|done]. injection H as <-. intros l. simpl. intros ->.
  apply opt_inv in E as (j & _ & Hj). by apply (de_claimset_readable j).
Qed.
(** [m]: the entries of a format among others. *)
Definition format_keys : list string := ["format"; "credential_definition"; "doctype"; "vct"; "claims"].
Definition agrees (ks : list string) (m m' : list (string * json)) : Prop := ∀ k, k ∈ ks → lookups k m = lookups k m'.
Lemma de_format_agrees m m' : agrees format_keys m m' → de_format m = de_format m'.
Proof.
  intros H. unfold de_format, req, opt, format_keys in *.
  by rewrite !(H "format"), !(H "credential_definition"), !(H "doctype"), !(H "vct"), !(H "claims") by set_solver.
Qed.
Lemma de_format_ser f : readable_format f → de_format (ser_format f) = Some f.
Proof.
  intros H. destruct f as [d|d|d|t c|t c]; unfold de_format, ser_format.
  1-3: erewrite req_of by (by lk); simpl; erewrite req_of by (by lk); by rewrite de_definition_ser.
  1-2: erewrite req_of by (by lk); simpl; erewrite req_of by (by lk); simpl;
    (rewrite (opt_of _ ser_claimset _ _ c); [done|by lk|]);
    intros l ->; (split; [|done]); apply de_claimset_ser; by apply H.
Qed.
Lemma de_format_readable m f : de_format m = Some f → readable_format f.
Proof.
  intros Hf. unfold de_format in Hf. destruct (req de_str "format" m); [|done]. repeat case_bool_decide; try done.
  1-3: (destruct (req de_definition _ m) as [d|] eqn:E; [|done]); injection Hf as <-;
    apply req_inv in E as (j & _ & E); by apply (de_definition_readable j).
  1-2: (destruct (req de_str _ m); [|done]); (destruct (opt de_claimset _ m) as [c|] eqn:E; [|done]); injection Hf as <-;
    intros l; simpl; intros ->; apply opt_inv in E as (j & _ & E); by apply (de_claimset_readable j).
Qed.

(** Entries that do not concern a reader. *)
Definition foreign (ks : list string) (a : list (string * json)) : Prop := Forall (λ kv, kv.1 ∉ ks) a.
Lemma foreign_lookups ks a k : foreign ks a → k ∈ ks → lookups k a = [].
Proof.
  intros H Hk. induction H as [|[k' v] a Hk' _ IH]; [done|]. rewrite lookups_ne; [done|]. simpl in Hk'. by intros ->.
Qed.
Lemma first_of_app {A} ks (a b : list (string * A)) :
  first_of ks (a ++ b) = match first_of ks a with Some x => Some x | None => first_of ks b end.
Proof. induction a as [|[k v] a IH]; [done|]. simpl. by case_bool_decide. Qed.
Lemma foreign_first ks ks' a : foreign ks a → ks' ⊆ ks → first_of ks' a = None.
Proof.
  intros H Hs. induction H as [|[k' v] a Hk' _ IH]; [done|]. simpl. rewrite bool_decide_false; [done|].
  intros Hin. apply Hk'. by apply Hs.
Qed.
Lemma foreign_app ks a b : foreign ks a → foreign ks b → foreign ks (a ++ b).
Proof. intros. by apply Forall_app. Qed.
Lemma foreign_some {A} ks k (f : A → json) o : k ∉ ks → foreign ks (some_entry k f o).
Proof. intros H. destruct o; repeat constructor; done. Qed.
Lemma foreign_str ks k s : k ∉ ks → foreign ks (str_entry k s).
Proof. intros H. unfold str_entry. case_bool_decide; repeat constructor; done. Qed.
Lemma foreign_cons ks k v m : k ∉ ks → foreign ks m → foreign ks ((k, v) :: m).
Proof. intros. by constructor. Qed.
Ltac notin := apply (bool_decide_unpack _); vm_compute; exact I.
Ltac foreign := repeat first
  [ apply foreign_app | apply foreign_some; [notin] | apply foreign_str; [notin] | apply foreign_cons; [notin|] | constructor ].
Lemma lookups_mid ks a m b k : foreign ks a → foreign ks b → k ∈ ks → lookups k (a ++ m ++ b) = lookups k m.
Proof.
  intros Ha Hb Hk. rewrite !lookups_app. rewrite (foreign_lookups ks a), (foreign_lookups ks b) by done.
  by rewrite app_nil_r.
Qed.
Lemma first_mid ks ks' a m b : foreign ks a → foreign ks b → ks' ⊆ ks → first_of ks' (a ++ m ++ b) = first_of ks' m.
Proof.
  intros Ha Hb Hk. rewrite !first_of_app. rewrite (foreign_first ks ks' a) by done.
  rewrite (foreign_first ks ks' b) by done. by destruct (first_of ks' m).
Qed.
Lemma format_mid ks a m b : foreign ks a → foreign ks b → format_keys ⊆ ks → de_format (a ++ m ++ b) = de_format m.
Proof. intros Ha Hb Hk. apply de_format_agrees. intros k Hin. apply (lookups_mid ks); [done|done|by apply Hk]. Qed.

Definition authorization_keys : list string := "credential_configuration_id" :: format_keys.
Ltac sub := apply (bool_decide_unpack _); vm_compute; exact I.
Lemma authorization_mid a m b : foreign authorization_keys a → foreign authorization_keys b →
  de_authorization (a ++ m ++ b) = de_authorization m.
Proof.
  intros Ha Hb. unfold de_authorization, de_profile_claims, req.
  rewrite (lookups_mid authorization_keys) by (done || notin).
  rewrite (first_mid authorization_keys) by (done || (intros k Hk; unfold authorization_keys, format_keys; set_solver)).
  rewrite (format_mid authorization_keys) by (done || (intros k Hk; unfold authorization_keys; set_solver)). done.
Qed.
Lemma de_authorization_ser c : readable_authorization c → de_authorization (ser_authorization c) = Some c.
Proof.
  intros H. destruct c as [id p|f].
  - unfold de_authorization. destruct p as [[d|l|l]|]; simpl in H.
    + erewrite req_of by (by lk). simpl. unfold de_profile_claims. simpl. by rewrite de_definition_ser.
    + erewrite req_of by (by lk). simpl. unfold de_profile_claims. simpl. by rewrite de_claimset_ser.
    + done.
    + by erewrite req_of by (by lk).
  - unfold de_authorization. assert (req de_str "credential_configuration_id" (ser_authorization (ByFormat f)) = None) as ->.
    { unfold req. destruct f; simpl ser_authorization; by lk. }
    simpl ser_authorization. by rewrite de_format_ser.
Qed.
Lemma de_authorization_readable m c : de_authorization m = Some c → readable_authorization c.
Proof.
  intros H. unfold de_authorization in H. destruct (req de_str _ m) as [id|].
  - injection H as <-. simpl. unfold de_profile_claims. destruct (first_of _ m) as [[k v]|]; [|done].
    case_bool_decide.
    + destruct (de_definition v) eqn:E; [|done]. simpl. by apply (de_definition_readable v).
    + destruct (de_claimset v) eqn:E; [|done]. simpl. by apply (de_claimset_readable v).
  - destruct (de_format m) eqn:E; [|done]. injection H as <-. by apply (de_format_readable m).
Qed.
Lemma lookups_authorization k c : k ∉ authorization_keys → lookups k (ser_authorization c) = [].
Proof.
  intros H. apply (foreign_lookups [k]); [|by apply elem_of_list_singleton].
  assert (∀ k', k' ∈ authorization_keys → k' ∉ [k]) as Hk.
  { intros k' Hk' Hin. apply elem_of_list_singleton in Hin as ->. done. }
  destruct c as [id [[]|]|[]]; simpl;
    repeat first [apply foreign_app | apply foreign_some; [apply Hk; notin] | apply foreign_cons; [apply Hk; notin|] | constructor].
Qed.
(** Among entries with other names. *)
Definition detail_keys : list string := ["type"; "locations"] ++ authorization_keys.
Lemma de_detail_entries_ser d b : readable_detail d → foreign detail_keys b →
  de_detail_entries (ser_detail_entries d ++ b) = Some d.
Proof.
  intros H Hb. destruct d as [c l]. unfold ser_detail_entries, de_detail_entries. cbn [ad_credential ad_locations].
  rewrite <-!app_assoc.
  assert (foreign authorization_keys b) as Hb'.
  { eapply Forall_impl; [exact Hb|]. intros kv Hn Hin. apply Hn. unfold detail_keys. set_solver. }
  rewrite (req_of _ _ _ (JStr "openid_credential")).
  2:{ rewrite !lookups_app. rewrite lookups_authorization by notin. rewrite (foreign_lookups _ b _ Hb) by notin. by lk. }
  rewrite (opt_of _ ser_strs _ _ l).
  2:{ rewrite !lookups_app. rewrite lookups_authorization by notin. rewrite (foreign_lookups _ b _ Hb) by notin. by lk. }
  2:{ intros; split; [apply de_strs_ser|done]. }
  rewrite authorization_mid; [|foreign|apply foreign_app; [foreign|done]]. by rewrite de_authorization_ser.
Qed.
Lemma de_detail_ser d : readable_detail d → de_detail (ser_detail d) = Some d.
Proof.
  intros H. unfold ser_detail, de_detail. cbn [obj]. rewrite <-(app_nil_r (ser_detail_entries d)).
  apply de_detail_entries_ser; [done|constructor].
Qed.
Lemma de_detail_entries_readable m d : de_detail_entries m = Some d → readable_detail d.
Proof.
  unfold de_detail_entries. destruct (req _ "type" m); [|done]. destruct (opt de_strs _ m); [|done].
  destruct (de_authorization m) eqn:E; [|done]. intros [= <-]. by apply (de_authorization_readable m).
Qed.
Lemma de_detail_readable j d : de_detail j = Some d → readable_detail d.
Proof. destruct j; try done. apply de_detail_entries_readable. Qed.
Lemma de_details_ser l : (∀ d, d ∈ l → readable_detail d) → de_list de_detail (ser_list ser_detail l) = Some l.
Proof. intros H. apply de_list_ser. apply Forall_forall. intros d Hd. apply de_detail_ser. by apply H. Qed.
Lemma de_details_readable j l d : de_list de_detail j = Some l → d ∈ l → readable_detail d.
Proof.
  intros H Hd. apply de_list_inv in H. destruct (proj1 (Forall_forall _ _) H _ Hd) as (j' & Hj). by apply (de_detail_readable j').
Qed.
