(** The sample store of subjects: what holds however its calls are interleaved. *)
From Verif Require Import Base Json Prog DatasetModel.

(** A credential whose [pending] may have been cleared. *)
Definition same (a b : dcred) : Prop :=
  dc_configuration b = dc_configuration a ∧ dc_claims b = dc_claims a ∧ (dc_pending b = true → dc_pending a = true).
Definition similar (m m' : gmap string dcred) : Prop :=
  ∀ id, match m !! id, m' !! id with Some a, Some b => same a b | None, None => True | _, _ => False end.
Definition similars (t t' : dtable) : Prop :=
  ∀ s, match t !! s, t' !! s with Some a, Some b => similar a b | None, None => True | _, _ => False end.
Lemma similar_refl m : similar m m.
Proof. intros id. destruct (m !! id); done. Qed.
Lemma similars_refl t : similars t t.
Proof. intros s. destruct (t !! s); [apply similar_refl|done]. Qed.

Lemma of_configuration_spec conf m :
  NoDup (of_configuration conf m) ∧ ∀ id, id ∈ of_configuration conf m ↔ ∃ cr, m !! id = Some cr ∧ dc_configuration cr = conf.
Proof.
  unfold of_configuration. split.
  - pose proof (NoDup_fst_map_to_list m) as H. induction (map_to_list m) as [|[k c] l IH]; simpl in *; [constructor|].
    apply NoDup_cons in H as [Hk H]. case_bool_decide; [|by apply IH]. constructor; [|by apply IH].
    rewrite elem_of_list_omap. intros ([k' c'] & Hin & E). simpl in E. case_bool_decide; simplify_eq.
    apply Hk. by apply (elem_of_list_fmap_1 fst) in Hin.
  - intros id. rewrite elem_of_list_omap. split.
    + intros ([k c] & Hin & E). simpl in E. case_bool_decide; simplify_eq. apply elem_of_map_to_list in Hin. eauto.
    + intros (c & Hm & <-). exists (id, c). split; [by apply elem_of_map_to_list|]. simpl. by rewrite bool_decide_true.
Qed.

Section store.
Context (t0 : dtable).
(** What is known of a call. *)
Definition known (q : dcall) (x : dstate) : Prop :=
  match q, x with
  | DAuthorize s conf, Done (Ok (Identifiers l)) =>
      l ≠ [] ∧ NoDup l ∧ ∀ id, id ∈ l ↔ ∃ m cr, t0 !! s = Some m ∧ m !! id = Some cr ∧ dc_configuration cr = conf
  | DDataset s id, Done (Ok (Claims cl p)) =>
      ∃ m cr, t0 !! s = Some m ∧ m !! id = Some cr ∧ cl = dc_claims cr ∧ (p = true → dc_pending cr = true)
  | DDataset s id, Copied m => ∃ m0, t0 !! s = Some m0 ∧ similar m0 m
  | DAuthorize _ _, Done (Ok (Claims _ _)) | DDataset _ _, Done (Ok (Identifiers _)) => False
  | _, _ => True
  end.
Definition unknown (q : dcall) : Prop := t0 !! call_subject q = None.
Record inv (c : dconfig) : Prop := Inv {
  inv_table : similars t0 (ds_table (d_store c));
  inv_calls : ∀ i q x, d_calls c !! i = Some (q, x) → known q x;
  inv_unknown : ∀ i q r, d_calls c !! i = Some (q, Done r) → unknown q → ds_poisoned (d_store c) = true ∧ ∃ w, r = Panic w;
  inv_poisoned : ds_poisoned (d_store c) = true → ∃ i q x, d_calls c !! i = Some (q, x) ∧ unknown q;
}.

Lemma similar_of_configuration conf m m' id : similar m m' →
  id ∈ of_configuration conf m' ↔ ∃ cr, m !! id = Some cr ∧ dc_configuration cr = conf.
Proof.
  intros H. destruct (of_configuration_spec conf m') as [_ ->]. specialize (H id).
  destruct (m !! id) as [a|], (m' !! id) as [b|]; try done.
  destruct H as (Hc & _ & _). split; intros (x & [= <-] & E); eexists; (split; [done|congruence]).
Qed.

Lemma step_known q x st st' x' : similars t0 (ds_table st) → known q x → dstep q x st = (st', x') →
  similars t0 (ds_table st') ∧ known q x' ∧
  (ds_poisoned st = true → ds_poisoned st' = true) ∧
  (ds_poisoned st' = true → ds_poisoned st = true ∨ unknown q) ∧
  (∀ r, x' = Done r → unknown q → (∀ r, x ≠ Done r) → ds_poisoned st' = true ∧ ∃ w, r = Panic w) ∧
  (∀ r, x' = Done r → ds_poisoned st = true → (∀ r, x ≠ Done r) → ∃ w, r = Panic w).
Proof.
  intros Ht Hk. destruct q as [s conf|s id]; simpl.
  - assert (∀ y, (match locked_copy s st with
      | (st, Ok m) => (st, Done (match of_configuration conf m with [] => Err "no matching dataset for subject/credential" | l => Ok (Identifiers l) end))
      | (st, Err e) => (st, Done (Err e)) | (st, Panic w) => (st, Done (Panic w)) end) = (st', x') → (∀ r, y ≠ Done r) →
      similars t0 (ds_table st') ∧ known (DAuthorize s conf) x' ∧ (ds_poisoned st = true → ds_poisoned st' = true) ∧
      (ds_poisoned st' = true → ds_poisoned st = true ∨ unknown (DAuthorize s conf)) ∧
      (∀ r, x' = Done r → unknown (DAuthorize s conf) → (∀ r, y ≠ Done r) → ds_poisoned st' = true ∧ ∃ w, r = Panic w) ∧
      (∀ r, x' = Done r → ds_poisoned st = true → (∀ r, y ≠ Done r) → ∃ w, r = Panic w)) as Hmain.
    { intros y E _. unfold locked_copy in E. destruct (ds_poisoned st) eqn:Hp.
      { injection E as <- <-. repeat split; auto; intros; simplify_eq; eauto. }
      pose proof (Ht s) as Hs. destruct (ds_table st !! s) as [m|] eqn:Hm.
      - injection E as <- <-. split; [done|]. destruct (t0 !! s) as [m0|] eqn:Hm0; [|done].
        assert (known (DAuthorize s conf) (Done (match of_configuration conf m with [] => Err "no matching dataset for subject/credential" | l => Ok (Identifiers l) end))) as Hkn.
        { destruct (of_configuration conf m) as [|a l] eqn:El; simpl; [done|]. split; [done|]. rewrite <-El.
          split; [apply of_configuration_spec|]. intros id. rewrite (similar_of_configuration conf m0 m id Hs). rewrite Hm0. naive_solver. }
        split; [exact Hkn|]. split; [congruence|]. split; [congruence|]. unfold unknown. simpl. split; [|congruence].
        intros r _ Hu. congruence.
      - injection E as <- <-. simpl. destruct (t0 !! s) as [m0|] eqn:Hm0; [done|]. unfold unknown. simpl.
        repeat split; auto; intros; simplify_eq; eauto. }
    destruct x as [|copy|r]; [intros E; by apply (Hmain Start E)|intros E; by apply (Hmain (Copied copy) E)|]. intros [= <- <-]. repeat split; auto; intros; exfalso; naive_solver.
  - destruct x as [|m|r].
    + unfold locked_copy. destruct (ds_poisoned st) eqn:Hp.
      { intros [= <- <-]. repeat split; auto; intros; simplify_eq; eauto. }
      pose proof (Ht s) as Hs. unfold unknown. simpl. destruct (ds_table st !! s) as [m|] eqn:Hm.
      * destruct (t0 !! s) as [m0|] eqn:Hm0; [|done]. destruct (m !! id) as [cr|] eqn:Hid; intros [= <- <-].
        -- split; [done|]. split; [by exists m0|]. repeat split; intros; congruence.
        -- split; [done|]. split; [done|]. repeat split; intros; congruence.
      * destruct (t0 !! s) as [m0|] eqn:Hm0; [done|]. intros [= <- <-]. simpl. repeat split; auto; intros; simplify_eq; eauto.
    + destruct Hk as (m0 & Hm0 & Hsim). unfold unknown. simpl. destruct (m !! id) as [cr|] eqn:Hid.
      2:{ intros [= <- <-]. repeat split; auto; intros; simplify_eq; eauto. }
      destruct (ds_poisoned st) eqn:Hp.
      { intros [= <- <-]. repeat split; auto; intros; simplify_eq; eauto. }
      intros [= <- <-]. simpl. pose proof (Hsim id) as Hcr. rewrite Hid in Hcr. destruct (m0 !! id) as [cr0|] eqn:Hid0; [|done].
      destruct Hcr as (Hc1 & Hc2 & Hc3). split; [|split].
      * intros s'. destruct (decide (s = s')) as [<-|Hne].
        -- rewrite lookup_insert, Hm0. intros id'. destruct (decide (id = id')) as [<-|Hne].
           ++ rewrite lookup_insert, Hid0. by repeat split.
           ++ rewrite lookup_insert_ne by done. apply Hsim.
        -- rewrite lookup_insert_ne by done. apply Ht.
      * exists m0, cr0. repeat split; try done. 
      * repeat split; intros; congruence.
    + intros [= <- <-]. repeat split; auto; intros; exfalso; naive_solver.
Qed.

Lemma reach_inv c : dreach t0 c → inv c.
Proof.
  intros H. apply (rtc_ind_r (R:=dtrans) (λ c, inv c) (DConfig (DStore t0 false) [])); [| |exact H]; clear.
  - split; simpl; [apply similars_refl|done|done|done].
  - intros c c' _ Hs [Ht Hc Hu Hp]. destruct Hs as [st l q|st l i q x st' x' Hi Hd]; simpl in *.
    + split; simpl; [done|..].
      * intros j q' x' Hj. apply lookup_app_Some in Hj as [Hj|[_ Hj]]; [by eapply Hc|].
        apply list_lookup_singleton_Some in Hj as [_ [= <- <-]]. by destruct q.
      * intros j q' r Hj. apply lookup_app_Some in Hj as [Hj|[_ Hj]]; [by eapply Hu|].
        by apply list_lookup_singleton_Some in Hj as [_ ?].
      * intros Hp'. destruct (Hp Hp') as (j & q' & x' & Hj & ?). exists j, q', x'. split; [|done]. by apply lookup_app_l_Some.
    + destruct (step_known q x st st' x' Ht (Hc i q x Hi) Hd) as (Ht' & Hk' & Hm & Hpo & Hun & _).
      split; simpl; [done|..].
      * intros j q' y Hj. destruct (decide (i = j)) as [<-|Hne].
        -- rewrite list_lookup_insert in Hj by (by eapply lookup_lt_Some). by simplify_eq.
        -- rewrite list_lookup_insert_ne in Hj by done. by eapply Hc.
      * intros j q' r Hj Hq. destruct (decide (i = j)) as [<-|Hne].
        -- rewrite list_lookup_insert in Hj by (by eapply lookup_lt_Some). simplify_eq.
           destruct x as [| |r']; [by apply Hun..|].
           assert (st' = st ∧ r' = r) as [-> ->] by (destruct q'; simpl in Hd; by simplify_eq). by eapply Hu.
        -- rewrite list_lookup_insert_ne in Hj by done. destruct (Hu _ _ _ Hj Hq). auto.
      * intros Hp'. destruct (Hpo Hp') as [Hp1|Hq].
        -- destruct (Hp Hp1) as (j & q' & y & Hj & Hq). destruct (decide (i = j)) as [<-|Hne].
           ++ exists i, q', x'. rewrite Hi in Hj. simplify_eq. rewrite list_lookup_insert by (by eapply lookup_lt_Some). done.
           ++ exists j, q', y. by rewrite list_lookup_insert_ne by done.
        -- exists i, q, x'. rewrite list_lookup_insert by (by eapply lookup_lt_Some). done.
Qed.
End store.

Lemma step_poisoned q x st st' x' : ds_poisoned st = true → dstep q x st = (st', x') →
  ds_poisoned st' = true ∧ ∀ r, x' = Done r → x = Done r ∨ ∃ w, r = Panic w.
Proof.
  intros Hp. destruct q as [s conf|s id], x as [|m|r]; simpl; unfold locked_copy; rewrite ?Hp;
    try (intros [= <- <-]; split; [done|]; intros r' [= <-]; eauto).
  destruct (m !! id); intros [= <- <-]; (split; [done|]); intros r' [= <-]; eauto.
Qed.
Lemma poisoned_stays c c' : rtc dtrans c c' → ds_poisoned (d_store c) = true →
  ds_poisoned (d_store c') = true ∧
  ∀ i q r, d_calls c' !! i = Some (q, Done r) → d_calls c !! i = Some (q, Done r) ∨ ∃ w, r = Panic w.
Proof.
  intros H Hp. apply (rtc_ind_r (R:=dtrans) (λ c', ds_poisoned (d_store c') = true ∧
    ∀ i q r, d_calls c' !! i = Some (q, Done r) → d_calls c !! i = Some (q, Done r) ∨ ∃ w, r = Panic w) c); [|clear H c'|exact H].
  - split; [done|]. auto.
  - intros c1 c2 _ Hs [Hp1 Hc]. destruct Hs as [st l q|st l i q x st' x' Hi Hd]; simpl in *.
    + split; [done|]. intros j q' r Hj. apply lookup_app_Some in Hj as [Hj|[_ Hj]]; [by apply Hc|].
      by apply list_lookup_singleton_Some in Hj as [_ ?].
    + destruct (step_poisoned q x st st' x' Hp1 Hd) as [Hp2 Hr]. split; [done|]. intros j q' r Hj.
      destruct (decide (i = j)) as [<-|Hne].
      * rewrite list_lookup_insert in Hj by (by eapply lookup_lt_Some). simplify_eq.
        destruct (Hr r eq_refl) as [->|?]; [|auto]. by apply Hc.
      * rewrite list_lookup_insert_ne in Hj by done. by apply Hc.
Qed.

(** ** One call after the other *)
Lemma drun_poisoned q t : ∃ w, drun q (DStore t true) = (DStore t true, Panic w).
Proof. destruct q; simpl; eexists; reflexivity. Qed.
Lemma druns_poisoned l t : (druns l (DStore t true)).1 = DStore t true ∧ ∀ r, r ∈ (druns l (DStore t true)).2 → ∃ w, r = Panic w.
Proof.
  induction l as [|q l [IH1 IH2]]; simpl; [split; [done|]; set_solver|].
  destruct (drun_poisoned q t) as [w ->]. destruct (druns l (DStore t true)) as [st rs]. simpl in *. split; [done|].
  intros r [->|Hr]%elem_of_cons; eauto.
Qed.
Definition held (t : dtable) (s id : string) : option dcred := match t !! s with Some m => m !! id | None => None end.
Lemma drun_held q t st r : drun q (DStore t false) = (st, r) → ds_poisoned st = false →
  ∀ s id, held (ds_table st) s id =
    match held t s id with
    | Some c => Some (if bool_decide (q = DDataset s id) then DCred (dc_configuration c) (dc_claims c) false else c)
    | None => None
    end.
Proof.
  destruct q as [s' conf|s' id']; unfold drun, dstep, locked_copy; simpl; destruct (t !! s') as [m|] eqn:Hm; intros H Hp s id.
  - injection H as <- <-. simpl. by destruct (held t s id).
  - injection H as <- <-. done.
  - destruct (m !! id') as [cr|] eqn:Hid.
    + simpl in H. rewrite Hid in H. injection H as <- <-. unfold held. simpl. destruct (decide (s' = s)) as [<-|Hs].
      * rewrite lookup_insert, Hm. destruct (decide (id' = id)) as [<-|Hi].
        -- rewrite lookup_insert, Hid. by rewrite bool_decide_true.
        -- rewrite lookup_insert_ne by done. destruct (m !! id); [|done]. rewrite bool_decide_false by congruence. done.
      * rewrite lookup_insert_ne by done. destruct (t !! s) as [m'|]; [|done]. destruct (m' !! id); [|done].
        rewrite bool_decide_false by congruence. done.
    + injection H as <- <-. simpl. unfold held. destruct (t !! s) as [m'|] eqn:Hs; [|done]. destruct (m' !! id) eqn:Hi; [|done].
      case_bool_decide; [|done]. simplify_eq.
  - injection H as <- <-. done.
Qed.
Lemma sequential s id l l' t cl p :
  (druns (l ++ DDataset s id :: l') (DStore t false)).2 !! length l = Some (Ok (Claims cl p)) →
  ∃ m cr, t !! s = Some m ∧ m !! id = Some cr ∧ cl = dc_claims cr ∧ (p = true ↔ dc_pending cr = true ∧ DDataset s id ∉ l).
Proof.
  revert t. induction l as [|q l IH]; intros t; simpl.
  - destruct (drun (DDataset s id) (DStore t false)) as [st r] eqn:E. destruct (druns l' st) as [st' rs]. simpl. intros [= ->].
    unfold drun, dstep, locked_copy in E. simpl in E. destruct (t !! s) as [m|]; [|done].
    destruct (m !! id) as [cr|] eqn:Hid; [|done]. simpl in E. rewrite Hid in E. injection E as <- <- <-.
    exists m, cr. repeat split; try done; set_solver.
  - destruct (drun q (DStore t false)) as [[t' b] r] eqn:E. destruct (druns (l ++ DDataset s id :: l') (DStore t' b)) as [st' rs] eqn:E'.
    simpl. intros Hr. destruct b.
    { destruct (druns_poisoned (l ++ DDataset s id :: l') t') as [_ Hall]. rewrite E' in Hall. simpl in Hall.
      apply elem_of_list_lookup_2 in Hr. by destruct (Hall _ Hr). }
    specialize (IH t'). rewrite E' in IH. destruct (IH Hr) as (m' & cr' & Hm' & Hid' & -> & Hp).
    pose proof (drun_held q t _ r E eq_refl s id) as Hh. unfold held in Hh. simpl in Hh. rewrite Hm', Hid' in Hh.
    destruct (t !! s) as [m|]; [|done]. destruct (m !! id) as [cr|] eqn:Hid; [|done]. injection Hh as ->.
    exists m, cr. rewrite not_elem_of_cons. case_bool_decide as Hq; simpl in *; repeat split; try done; intros; naive_solver.
Qed.
