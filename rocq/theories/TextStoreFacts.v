(** A store of text behaves like a store of values when what is put can be read. *)
From Verif Require Import Base Prog ProgFacts Sched TextStore.

Section store.
Context {S : sig} {Q R : Type} (handler : Q → prog S R).
Context (enc : sV S → string) (dec : string → option (sV S)).
Notation treach := (text_reach handler enc dec).
Notation vreach := (reachable handler ∅).
Definition puts_read (c : config S Q R) : Prop :=
  ∀ n en k v x b, c_log c !! n = Some en → e_ev en = EPut k v x b → dec (enc v) = Some v.

Lemma store_after_snoc (log : list (entry S)) en : store_after ∅ (log ++ [en]) = apply (store_after ∅ log) en.
Proof. unfold store_after. by rewrite foldl_app. Qed.
Lemma stored_put (log : list (entry S)) k v : store_after ∅ log !! k = Some v →
  ∃ n en x b, log !! n = Some en ∧ e_ev en = EPut k v x b.
Proof.
  induction log as [|en log IH] using rev_ind; [intros H; cbn in H; by rewrite lookup_empty in H|]. rewrite store_after_snoc. unfold apply.
  assert ((∃ n en x b, log !! n = Some en ∧ e_ev en = EPut k v x b) →
    ∃ n en' x b, (log ++ [en]) !! n = Some en' ∧ e_ev en' = EPut k v x b) as Hup.
  { intros (n & e & x & b & H1 & H2). exists n, e, x, b. split; [by apply lookup_app_l_Some|done]. }
  destruct (e_ev en) as [k' r|k' v' x b|k' b|e] eqn:E; [auto| | |auto].
  - destruct (e_eff en); [|auto]. destruct (decide (k' = k)) as [->|Hk].
    + rewrite lookup_insert. intros [= ->]. exists (length log), en, x, b. split; [by apply list_lookup_middle|done].
    + rewrite lookup_insert_ne by done. auto.
  - destruct (e_eff en); [|auto]. intros H. apply lookup_delete_Some in H as [_ H]. auto.
Qed.
Lemma text_value c k : puts_read c → text_get dec k (enc <$> store_after ∅ (c_log c)) = store_after ∅ (c_log c) !! k.
Proof.
  intros Hp. unfold text_get. rewrite lookup_fmap. destruct (store_after ∅ (c_log c) !! k) as [v|] eqn:E; [|done]. simpl.
  destruct (stored_put _ _ _ E) as (n & en & x & b & H1 & H2). by rewrite (Hp n en k v x b H1 H2).
Qed.
Lemma reliable_snoc log (pool pool' : list (Q * prog S R)) en : reliable (Config log pool) →
  e_eff en = true → match e_ev en with
    | EGet k r => r = store_after ∅ log !! k | EPut _ _ _ b | EPurge _ b => b = true | EExt _ => True end →
  reliable (Config (log ++ [en]) pool').
Proof.
  intros Hr He Hm n en' H. simpl in H |- *. apply lookup_app_Some in H as [H|[Hn H]].
  - specialize (Hr n en' H). simpl in Hr. rewrite take_app_le; [done|]. apply lookup_lt_Some in H. lia.
  - apply list_lookup_singleton_Some in H as [Hz <-]. replace n with (length log) by lia. by rewrite take_app.
Qed.
Lemma reliable_prefix log l (pool pool' : list (Q * prog S R)) : reliable (Config (log ++ l) pool) → reliable (Config log pool').
Proof.
  intros Hr n en H. simpl in H |- *. specialize (Hr n en). simpl in Hr. rewrite (lookup_app_l_Some _ _ _ _ H) in Hr.
  rewrite take_app_le in Hr; [by apply Hr|]. apply lookup_lt_Some in H. lia.
Qed.

Context (good : config S Q R → Prop).
Context (good_arrive : ∀ log pool q, good (Config log (pool ++ [(q, handler q)])) → good (Config log pool)).
Context (good_step : ∀ log pool i q p p' en, pool !! i = Some (q, p) → good (Config (log ++ [en]) (<[i := (q, p')]> pool)) →
  good (Config log pool)).
Context (good_reads : ∀ c, vreach c → good c → puts_read c).

Lemma text_is_value c fs : good c → treach c fs → vreach c ∧ reliable c ∧ fs = enc <$> store_after ∅ (c_log c).
Proof.
  intros Hg Ht. induction Ht as [|log pool q fs Ht IH|log pool i q c k r fs fs' Ht IH Hi Hc].
  - split; [constructor|]. split; [intros n en H; by destruct n|]. simpl. by rewrite fmap_empty.
  - destruct (IH (good_arrive _ _ _ Hg)) as (H1 & H2 & H3). split; [by constructor|done].
  - pose proof (good_step _ _ _ _ _ _ _ Hi Hg) as Hg'. destruct (IH Hg') as (H1 & H2 & ->).
    pose proof (good_reads _ H1 Hg') as Hp. simpl in *.
    assert (match mkev c r with EGet k r => r = store_after ∅ log !! k | EPut _ _ _ b | EPurge _ b => b = true | EExt _ => True end) as Hm.
    { destruct c; simpl in Hc |- *; [|by destruct Hc|by destruct Hc|done]. destruct Hc as [-> _]. by apply (text_value (Config log pool)). }
    split.
    { eapply reach_step; [done..|]. unfold allowed. simpl. destruct c; simpl in *; auto. }
    split; [by eapply reliable_snoc|]. rewrite store_after_snoc. unfold apply. simpl.
    destruct c; simpl in Hc |- *; [by destruct Hc| | |done].
    + destruct Hc as [_ ->]. by rewrite fmap_insert.
    + destruct Hc as [_ ->]. by rewrite fmap_delete.
Qed.
Lemma value_is_text c : good c → vreach c → reliable c → treach c (enc <$> store_after ∅ (c_log c)).
Proof.
  intros Hg Hv. induction Hv as [|log pool q Hv IH|log pool i q c k r eff Hv IH Hi Ha]; intros Hr.
  - simpl. rewrite fmap_empty. constructor.
  - constructor. apply IH; [by eapply good_arrive|]. exact Hr.
  - pose proof (good_step _ _ _ _ _ _ _ Hi Hg) as Hg'. pose proof (IH Hg' (reliable_prefix _ _ _ _ Hr)) as Ht. simpl in Ht |- *.
    pose proof (good_reads _ Hv Hg') as Hp.
    destruct (Hr (length log) (Entry i (mkev c r) eff)) as [He Hm]; [simpl; by apply list_lookup_middle|]. simpl in He, Hm. subst eff. rewrite take_app in Hm.
    eapply text_step; [exact Ht|exact Hi|]. rewrite store_after_snoc. unfold apply. simpl.
    destruct c; simpl in *; [|by rewrite fmap_insert|by rewrite fmap_delete|done].
    split; [|done]. rewrite Hm. symmetry. by apply (text_value (Config log pool)).
Qed.
End store.

(** Without anything about what is read, as long as nothing is looked up. *)
Lemma value_is_text_unread {S : sig} {Q R : Type} (handler : Q → prog S R) enc dec (c : config S Q R) :
  (∀ n en k r, c_log c !! n = Some en → e_ev en ≠ EGet k r) → reachable handler ∅ c → reliable c →
  text_reach handler enc dec c (enc <$> store_after ∅ (c_log c)).
Proof.
  intros Hg Hv. induction Hv as [|log pool q Hv IH|log pool i q c k r eff Hv IH Hi Ha]; intros Hr.
  - simpl. rewrite fmap_empty. constructor.
  - constructor. by apply IH.
  - assert (∀ n en k r, log !! n = Some en → e_ev en ≠ EGet k r) as Hg'.
    { intros n en k' r' H. apply (Hg n en k' r'). simpl. by apply lookup_app_l_Some. }
    pose proof (IH Hg' (reliable_prefix _ _ _ _ Hr)) as Ht. simpl in Ht |- *.
    pose proof (Hg (length log) (Entry i (mkev c r) eff)) as Hn. simpl in Hn.
    destruct (Hr (length log) (Entry i (mkev c r) eff)) as [He Hm]; [simpl; by apply list_lookup_middle|]. simpl in He, Hm. subst eff. rewrite take_app in Hm.
    eapply text_step; [exact Ht|exact Hi|]. rewrite store_after_snoc. unfold apply. simpl.
    destruct c; simpl in *; [|by rewrite fmap_insert|by rewrite fmap_delete|done].
    exfalso. eapply Hn; [by apply list_lookup_middle|reflexivity].
Qed.

(** Computed executions have such a store. *)
Section any.
Context {S : sig} {Q R : Type} (handler : Q → prog S R) (orc : list (entry S) → nat → ∀ x : sX S, sXR S x).
Lemma step1_reliable i (c c' : config S Q R) : reliable c → step1 ∅ orc i c = Some c' → reliable c'.
Proof.
  destruct c as [log pool]. unfold step1. simpl. destruct (pool !! i) as [[q [a|cl k]]|]; [done| |done]. intros Hr [= <-].
  eapply reliable_snoc; [exact Hr|done|]. by destruct cl.
Qed.
Lemma exec_reliable l (c c' : config S Q R) : reliable c → exec handler ∅ orc l c = Some c' → reliable c'.
Proof.
  assert (∀ n i (c c' : config S Q R), reliable c → steps ∅ orc i n c = Some c' → reliable c') as Hs.
  { induction n as [|n IH]; intros i d d' Hd; simpl; [by intros [= <-]|].
    destruct (step1 ∅ orc i d) as [d1|] eqn:E; [|done]. apply IH. by eapply step1_reliable. }
  assert (∀ f i (c c' : config S Q R), reliable c → finish ∅ orc i f c = Some c' → reliable c') as Hf.
  { induction f as [|f IH]; intros i d d' Hd; simpl.
    - destruct (c_pool d !! i) as [[q [a|cl k]]|]; try done. by intros [= <-].
    - destruct (c_pool d !! i) as [[q [a|cl k]]|]; [by intros [= <-]| |].
      + destruct (step1 ∅ orc i d) as [d1|] eqn:E; [|done]. apply IH. by eapply step1_reliable.
      + destruct (step1 ∅ orc i d) as [d1|] eqn:E; [|done]. apply IH. by eapply step1_reliable. }
  revert c. induction l as [|a l IH]; intros c Hc; simpl; [by intros [= <-]|].
  destruct (do_act handler ∅ orc a c) as [c1|] eqn:E; [|done]. apply IH. destruct a; simpl in E; [injection E as <-; exact Hc|by eapply Hs|by eapply Hf].
Qed.
Lemma reliable_init (c : config S Q R) : c_log c = [] → reliable c.
Proof. intros E n en H. rewrite E in H. by destruct n. Qed.
End any.
Lemma last_put {S : sig} {Q R : Type} (c : config S Q R) n en k v x b : reliable c → c_log c !! n = Some en → e_ev en = EPut k v x b →
  length (c_log c) = Datatypes.S n → store_after ∅ (c_log c) !! k = Some v.
Proof.
  intros Hb H1 H2 Hl. destruct (Hb n en H1) as [He _]. rewrite <-(take_drop_middle _ _ _ H1). rewrite drop_ge by lia.
  rewrite store_after_snoc. unfold apply. rewrite H2, He. apply lookup_insert.
Qed.
Lemma no_gets {S : sig} (log : list (entry S)) :
  forallb (λ en, match e_ev en with EGet _ _ => false | _ => true end) log = true → ∀ n en k r, log !! n = Some en → e_ev en ≠ EGet k r.
Proof.
  intros Hf n en k r Hn Hg. rewrite forallb_forall in Hf. apply elem_of_list_lookup_2, elem_of_list_In, Hf in Hn. by rewrite Hg in Hn.
Qed.
Lemma ran_reliable {S : sig} {Q R : Type} (handler : Q → prog S R) orc l :
  reliable (default (Config [] []) (exec handler ∅ orc l (Config [] []))).
Proof.
  destruct (exec _ _ _ _ _) as [c|] eqn:E; [|by apply reliable_init]. eapply exec_reliable; [|exact E]. by apply reliable_init.
Qed.
Lemma get_unread {S : sig} (enc : sV S → string) dec (st : gmap string (sV S)) k v : st !! k = Some v → dec (enc v) = None →
  text_get (S:=S) dec k (enc <$> st) = None.
Proof. intros H E. unfold text_get. rewrite lookup_fmap, H. exact E. Qed.
