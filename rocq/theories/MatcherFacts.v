(** Proofs about matching. *)
From Verif Require Import Base Json MatcherModel MatcherSpec.

Lemma json_eqb_str c j : json_eqb (JStr c) j = true ↔ j = JStr c.
Proof. destruct j; simpl; try done. rewrite bool_decide_eq_true. naive_solver. Qed.

Lemma filter_matched_spec eng f node :
  match filter_matched eng f node with
  | Ok b => (b = true ↔ passes eng f node) ∧ ¬ unsupported f node
  | Err _ => ¬ passes eng f node ∧ ¬ unsupported f node
  | Panic _ => unsupported f node
  end.
Proof.
  destruct f as [c|p|f]; simpl.
  - destruct node; simpl; try (split; [|by intros (? & [=])]).
    + done.
    + done.
    + by rewrite bool_decide_eq_true.
    + by rewrite bool_decide_eq_true.
    + rewrite existsb_exists. setoid_rewrite json_eqb_str.
      split; [intros (x & Hx & ->); by apply elem_of_list_In|].
      intros H. exists (JStr c). split; [by apply elem_of_list_In|done].
    + eauto.
  - unfold match_pattern. destruct (en_regex eng p (json_text node)) as [b|]; simpl.
    + split; [|tauto]. split; [by intros ->|congruence].
    + split; [congruence|tauto].
  - unfold match_format. case_bool_decide as Hd; [|case_bool_decide as Hd'; [|done]]; subst.
    + destruct node as [| | |s| |]; (split; [|tauto]); split; try done; try (by intros (s' & [=] & _)).
      * intros H. exists s. auto.
      * intros (s' & [= <-] & [[_ H]|[[=] _]]). done.
    + destruct node as [| | |s| |]; (split; [|tauto]); split; try done; try (by intros (s' & [=] & _)).
      * intros H. exists s. auto.
      * intros (s' & [= <-] & [[[=] _]|[_ H]]). done.
Qed.

Lemma selects_here eng flt opt p rest v node ns :
  en_query eng p v = Some (node :: ns) → ∀ node', selects eng (Field (p :: rest) flt opt) v node' ↔ node' = node.
Proof.
  intros Hq node'. split.
  - intros (ps & p' & qs & ns' & Heq & Hall & Hq'). simpl in Heq. destruct ps as [|p0 ps].
    + simpl in Heq. injection Heq as <- <-. congruence.
    + injection Heq as <- _. rewrite (Hall p) in Hq; [done|by left].
  - intros ->. exists [], p, rest, ns. split; [done|]. split; [by intros q Hin; apply elem_of_nil in Hin|done].
Qed.
Lemma selects_next eng flt opt p rest v :
  en_query eng p v = Some [] → ∀ node, selects eng (Field (p :: rest) flt opt) v node ↔ selects eng (Field rest flt opt) v node.
Proof.
  intros Hq node. split.
  - intros (ps & p' & qs & ns' & Heq & Hall & Hq'). simpl in Heq. destruct ps as [|p0 ps].
    + simpl in Heq. injection Heq as <- <-. congruence.
    + injection Heq as <- Heq. exists ps, p', qs, ns'. split; [done|]. split; [|done].
      intros q Hin. apply Hall. by right.
  - intros (ps & p' & qs & ns' & Heq & Hall & Hq'). exists (p :: ps), p', qs, ns'. simpl in *.
    split; [by rewrite Heq|]. split; [|done]. intros q Hin. apply elem_of_cons in Hin as [->|Hin]; [done|by apply Hall].
Qed.
Lemma selects_never eng flt opt p rest v :
  en_query eng p v = None → ∀ node, ¬ selects eng (Field (p :: rest) flt opt) v node.
Proof.
  intros Hq node (ps & p' & qs & ns' & Heq & Hall & Hq'). simpl in Heq. destruct ps as [|p0 ps].
  - simpl in Heq. injection Heq as <- <-. congruence.
  - injection Heq as <- Heq. rewrite (Hall p) in Hq; [done|by left].
Qed.
Lemma selects_none eng flt opt v node : ¬ selects eng (Field [] flt opt) v node.
Proof. intros (ps & p' & qs & ns' & Heq & _). simpl in Heq. by destruct ps. Qed.

Lemma field_matched_spec eng f v :
  match field_matched eng f v with
  | Ok b => (b = true ↔ matches eng f v) ∧ ¬ stuck eng f v
  | Err _ => ¬ matches eng f v ∧ ¬ stuck eng f v
  | Panic _ => stuck eng f v
  end.
Proof.
  destruct f as [paths flt opt]. unfold field_matched. simpl.
  induction paths as [|p paths IH]; simpl.
  - split; [split; [done|]|]; intros H.
    + destruct H as (node & H & _). by apply selects_none in H.
    + destruct H as (node & f & H & _). by apply selects_none in H.
  - destruct (en_query eng p v) as [[|node ns]|] eqn:Hq.
    + assert (∀ X : Prop, (matches eng (Field (p :: paths) flt opt) v ↔ matches eng (Field paths flt opt) v)) as Hm.
      { intros _. unfold matches. simpl. by setoid_rewrite (selects_next eng flt opt p paths v Hq). }
      assert (stuck eng (Field (p :: paths) flt opt) v ↔ stuck eng (Field paths flt opt) v) as Hs.
      { unfold stuck. simpl. by setoid_rewrite (selects_next eng flt opt p paths v Hq). }
      specialize (Hm True). destruct (paths_matched eng flt paths v); rewrite ?Hm, Hs; done.
    + assert (∀ node', selects eng (Field (p :: paths) flt opt) v node' ↔ node' = node) as Hsel
        by by eapply selects_here.
      destruct flt as [f|].
      * pose proof (filter_matched_spec eng (fl_value f) node) as Hf.
        assert (matches eng (Field (p :: paths) (Some f) opt) v ↔ passes eng (fl_value f) node) as Hm.
        { unfold matches. setoid_rewrite Hsel. simpl. naive_solver. }
        assert (stuck eng (Field (p :: paths) (Some f) opt) v ↔ unsupported (fl_value f) node) as Hs.
        { unfold stuck. setoid_rewrite Hsel. simpl. naive_solver. }
        destruct (filter_matched eng (fl_value f) node); rewrite ?Hm, Hs; done.
      * split; [split; [intros _|done]|].
        -- exists node. rewrite Hsel. done.
        -- intros (node' & f & _ & H & _). done.
    + split; intros H.
      * destruct H as (node & H & _). by apply (selects_never eng flt opt p paths v Hq) in H.
      * destruct H as (node & f & H & _). by apply (selects_never eng flt opt p paths v Hq) in H.
Qed.

Lemma fields_satisfied_spec eng l v :
  (∀ b, fields_satisfied eng l v = Ok b →
     b = true ↔ ∀ f, f ∈ l → matches eng f v ∨ fd_optional f = Some true) ∧
  (∀ e, fields_satisfied eng l v ≠ Err e) ∧
  (∀ w, fields_satisfied eng l v = Panic w → ∃ f, f ∈ l ∧ stuck eng f v) ∧
  (fields_satisfied eng l v = Ok true → ∀ f, f ∈ l → ¬ stuck eng f v).
Proof.
  induction l as [|f l (IH1 & IH2 & IH3 & IH4)]; simpl.
  { split_and!; try done.
    - intros b [= <-]. split; [|done]. intros _ f Hf. by apply elem_of_nil in Hf.
    - intros _ f Hf. by apply elem_of_nil in Hf. }
  pose proof (field_matched_spec eng f v) as Hf.
  assert (∀ o, o = fd_optional f → default false o = true ↔ o = Some true) as Hopt
    by (intros [[]|] _; simpl; naive_solver).
  specialize (Hopt _ eq_refl).
  assert (∀ b, (b = true ↔ matches eng f v) → ¬ stuck eng f v →
    let o := if negb b && negb (default false (fd_optional f)) then Ok false else fields_satisfied eng l v in
    (∀ b, o = Ok b → b = true ↔ ∀ f', f' ∈ f :: l → matches eng f' v ∨ fd_optional f' = Some true) ∧
    (∀ e, o ≠ Err e) ∧ (∀ w, o = Panic w → ∃ f', f' ∈ f :: l ∧ stuck eng f' v) ∧
    (o = Ok true → ∀ f', f' ∈ f :: l → ¬ stuck eng f' v)) as Hcase.
  { intros b Hb Hns o. subst o. destruct (negb b && negb (default false (fd_optional f))) eqn:Hc.
    - apply andb_true_iff in Hc as [Hb' Ho%negb_true_iff]. apply negb_true_iff in Hb'. subst b.
      split_and!; try done. intros b [= <-]. split; [done|]. intros H.
      destruct (H f (elem_of_list_here _ _)) as [Hm|Hm].
      + by apply Hb in Hm.
      + apply Hopt in Hm. congruence.
    - assert (matches eng f v ∨ fd_optional f = Some true) as Hor.
      { apply andb_false_iff in Hc as [Hc|Hc]; apply negb_false_iff in Hc.
        - left. by apply Hb.
        - right. by apply Hopt. }
      split_and!.
      + intros b' Hb'. rewrite (IH1 b' Hb'). split.
        * intros H f' Hin. apply elem_of_cons in Hin as [->|Hin]; [done|by apply H].
        * intros H f' Hin. apply H. by right.
      + done.
      + intros w Hw. destruct (IH3 w Hw) as (f' & Hin & Hs). exists f'. split; [by right|done].
      + intros Hok f' Hin. apply elem_of_cons in Hin as [->|Hin]; [done|by apply IH4]. }
  destruct (field_matched eng f v) as [b|e|w].
  - destruct Hf as [Hb Hns]. exact (Hcase b Hb Hns).
  - destruct Hf as [Hb Hns]. apply (Hcase false); [|done]. split; done.
  - split_and!; try done. intros w' _. exists f. split; [by left|done].
Qed.

Lemma satisfied_spec eng c v b :
  satisfied eng c (Some v) = Ok b → b = true ↔ meets eng c v.
Proof.
  unfold satisfied, meets. destruct (cn_fields c) as [fs|].
  - intros H. rewrite (proj1 (fields_satisfied_spec eng fs v) b H). naive_solver.
  - intros [= <-]. naive_solver.
Qed.
Lemma satisfied_stuck eng c v w :
  satisfied eng c (Some v) = Panic w → ∃ fs f, cn_fields c = Some fs ∧ f ∈ fs ∧ stuck eng f v.
Proof.
  unfold satisfied. destruct (cn_fields c) as [fs|]; [|done]. intros H.
  destruct (fields_satisfied_spec eng fs v) as (_ & _ & H3 & _). destruct (H3 w H) as (f & ? & ?). eauto.
Qed.
Lemma satisfied_total eng c v :
  (∀ fs f, cn_fields c = Some fs → f ∈ fs → ¬ stuck eng f v) → ∃ b, satisfied eng c (Some v) = Ok b.
Proof.
  intros H. destruct (satisfied eng c (Some v)) as [b|e|w] eqn:Hs; [eauto| |].
  - exfalso. unfold satisfied in Hs. destruct (cn_fields c) as [fs|]; [|done].
    destruct (fields_satisfied_spec eng fs v) as (_ & H2 & _). by apply H2 in Hs.
  - apply satisfied_stuck in Hs as (fs & f & Hfs & Hf & Hst). by apply (H fs f) in Hst.
Qed.
Lemma satisfied_true eng c v :
  satisfied eng c (Some v) = Ok true ↔
  meets eng c v ∧ ∀ fs f, cn_fields c = Some fs → f ∈ fs → ¬ stuck eng f v.
Proof.
  split.
  - intros H. split; [by apply (satisfied_spec eng c v true)|]. unfold satisfied in H.
    intros fs f Hfs Hf. rewrite Hfs in H. destruct (fields_satisfied_spec eng fs v) as (_ & _ & _ & H4). by apply H4.
  - intros [Hm Hn]. destruct (satisfied_total eng c v Hn) as [b Hb]. rewrite Hb. f_equal.
    by apply (satisfied_spec eng c v b).
Qed.

(** ** Const filters *)

Lemma str_app_length s1 s2 : String.length (s1 +:+ s2) = String.length s1 + String.length s2.
Proof. induction s1 as [|a s1 IH]; [done|]. simpl. f_equal. apply IH. Qed.
Lemma json_escape_length c : 1 ≤ String.length (json_escape c).
Proof. by destruct c as [[] [] [] [] [] [] [] []]; vm_compute; repeat constructor. Qed.
Lemma json_escapes_length s : String.length s ≤ String.length (json_escapes s).
Proof.
  induction s as [|c s IH]; simpl; [lia|]. rewrite str_app_length. pose proof (json_escape_length c). lia.
Qed.
Lemma json_quote_longer s : String.length s < String.length (json_quote s).
Proof. unfold json_quote. simpl. rewrite str_app_length. pose proof (json_escapes_length s). simpl. lia. Qed.

Lemma const_string_never c : match_const c (JStr c) = Ok false.
Proof.
  simpl. f_equal. apply bool_decide_eq_false. intros H. pose proof (json_quote_longer c). rewrite <-H in *. lia.
Qed.
Lemma const_array c l b : match_const c (JArr l) = Ok b → b = true ↔ equal_to_const c (JArr l).
Proof.
  intros [= <-]. rewrite existsb_exists. setoid_rewrite json_eqb_str. unfold equal_to_const. split.
  - intros (x & Hx & ->). right. exists l. split; [done|by apply elem_of_list_In].
  - intros [[=]|(l' & [= <-] & H)]. exists (JStr c). split; [by apply elem_of_list_In|done].
Qed.
Lemma const_null c : match_const c JNull = Ok true.
Proof. done. Qed.
