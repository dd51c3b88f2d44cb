(** Lemmas about programs over provider calls and their executions. *)
From Verif Require Import Base Prog.

Section paths.
Context {S : sig}.

Lemma path_app {A} (p q : prog S A) es1 es2 :
  path p (es1 ++ es2) q ↔ ∃ p', path p es1 p' ∧ path p' es2 q.
Proof.
  revert p. induction es1 as [|e es1 IH]; intros p; simpl.
  - split; [eauto|]. intros (p' & -> & H). done.
  - destruct p as [a|c k]; [split; [done|by intros (?&[]&_)]|].
    split.
    + intros (r & -> & H). apply IH in H as (p' & H1 & H2). eauto 8.
    + intros (p' & (r & -> & H1) & H2). exists r. split; [done|]. apply IH. eauto.
Qed.

Lemma path_ret {A} (a : A) es (q : prog S A) : path (Ret a) es q ↔ es = [] ∧ q = Ret a.
Proof. destruct es; simpl; naive_solver. Qed.

Lemma runs_ret {A} (a b : A) (es : list (event S)) : runs (Ret a) es b ↔ es = [] ∧ a = b.
Proof. unfold runs. rewrite path_ret. naive_solver. Qed.

Lemma path_bind {E A B} (m : prog S (outcome E A)) (f : A → prog S (outcome E B)) es q :
  path (bind m f) es q ↔
  (∃ m', path m es m' ∧ q = bind m' f) ∨
  (∃ es1 es2 a, es = es1 ++ es2 ∧ runs m es1 (Ok a) ∧ path (f a) es2 q).
Proof.
  unfold runs. revert m. induction es as [|e es IH]; intros m.
  - split.
    + intros H. left. exists m. done.
    + intros [(m' & <- & ->)|(es1 & es2 & a & Heq & H1 & H2)]; [done|].
      destruct es1; [|done]. destruct es2; [|done]. simpl in H1. subst m. done.
  - destruct m as [[a|err|w]|c k]; simpl.
    + split.
      * intros H. right. exists [], (e :: es), a. done.
      * intros [(m' & [] & _)|(es1 & es2 & a' & Heq & H1 & H2)].
        destruct es1; [|destruct H1]. simpl in Heq. subst es2. by injection H1 as ->.
    + split; [done|]. intros [(m' & [] & _)|(es1 & es2 & a' & Heq & H1 & H2)].
      destruct es1; [|destruct H1]. by injection H1.
    + split; [done|]. intros [(m' & [] & _)|(es1 & es2 & a' & Heq & H1 & H2)].
      destruct es1; [|destruct H1]. by injection H1.
    + split.
      * intros (r & -> & H). apply IH in H as [(m' & H & ->)|(es1 & es2 & a & -> & H1 & H2)].
        -- left. exists m'. split; [exists r; done|done].
        -- right. exists (mkev c r :: es1), es2, a. split; [done|]. split; [exists r; done|done].
      * intros [(m' & (r & -> & H) & ->)|(es1 & es2 & a & Heq & H1 & H2)].
        -- exists r. split; [done|]. apply IH. left. eauto.
        -- destruct es1 as [|e' es1]; [done|]. simpl in *. injection Heq as -> ->.
           destruct H1 as (r & -> & H1). exists r. split; [done|]. apply IH. right. eauto 8.
Qed.

Lemma runs_bind {E A B} (m : prog S (outcome E A)) (f : A → prog S (outcome E B)) es o :
  runs (bind m f) es o ↔
  (∃ es1 es2 a, es = es1 ++ es2 ∧ runs m es1 (Ok a) ∧ runs (f a) es2 o) ∨
  (∃ e, runs m es (Err e) ∧ o = Err e) ∨ (∃ w, runs m es (Panic w) ∧ o = Panic w).
Proof.
  unfold runs at 1. rewrite path_bind. split.
  - intros [(m' & H & Heq)|H]; [|by left].
    destruct m' as [[a|e|w]|c k]; simpl in Heq; [|injection Heq as ->; eauto..|done].
    left. exists es, [], a. split; [by rewrite app_nil_r|]. split; [done|]. by symmetry.
  - intros [H|[(e & H & ->)|(w & H & ->)]]; [by right|left|left].
    + exists (Ret (Err e)). done.
    + exists (Ret (Panic w)). done.
Qed.

Lemma runs_bind_ok {E A B} (m : prog S (outcome E A)) (f : A → prog S (outcome E B)) es b :
  runs (bind m f) es (Ok b) ↔
  ∃ es1 es2 a, es = es1 ++ es2 ∧ runs m es1 (Ok a) ∧ runs (f a) es2 (Ok b).
Proof. rewrite runs_bind. naive_solver. Qed.

Lemma runs_ok {E A} (a b : A) (es : list (event S)) :
  runs (@ok S E A a) es (Ok b) ↔ es = [] ∧ a = b.
Proof. unfold ok. rewrite runs_ret. naive_solver. Qed.
Lemma runs_fail {E A} (e : E) (es : list (event S)) (b : A) : runs (fail e) es (Ok b) ↔ False.
Proof. unfold fail. rewrite runs_ret. naive_solver. Qed.
Lemma runs_panic {E A} w (es : list (event S)) (b : A) : runs (@panic S E A w) es (Ok b) ↔ False.
Proof. unfold panic. rewrite runs_ret. naive_solver. Qed.
Lemma runs_ensure {E} (c : bool) (e : E) (es : list (event S)) u :
  runs (ensure c e) es (Ok u) ↔ es = [] ∧ c = true.
Proof. destruct c, u; simpl; rewrite ?runs_ok, ?runs_fail; naive_solver. Qed.
Lemma runs_of_opt {E A} (o : option A) (e : E) (es : list (event S)) a :
  runs (of_opt o e) es (Ok a) ↔ es = [] ∧ o = Some a.
Proof. destruct o; simpl; rewrite ?runs_ok, ?runs_fail; naive_solver. Qed.
Lemma runs_lift {E A} (o : outcome E A) (es : list (event S)) a :
  runs (lift o) es (Ok a) ↔ es = [] ∧ o = Ok a.
Proof. unfold lift. apply runs_ret. Qed.

Lemma runs_ext {E} (x : sX S) (es : list (event S)) r :
  runs (@ext S E x) es (Ok r) ↔ es = [EExt (smk S x r)].
Proof.
  unfold runs, ext. destruct es as [|e es]; simpl; [split; [done|done]|].
  split.
  - intros (r' & -> & H). destruct es; simpl in H; [|done]. by injection H as ->.
  - intros H. injection H as -> ->. exists r. done.
Qed.
Lemma runs_get {E} k (es : list (event S)) r :
  runs (@get S E k) es (Ok r) ↔ es = [EGet k r].
Proof.
  unfold runs, get. destruct es as [|e es]; simpl; [split; [done|done]|].
  split.
  - intros (r' & -> & H). destruct es; simpl in H; [|done]. by injection H as ->.
  - intros H. injection H as -> ->. exists r. done.
Qed.
Lemma runs_put {E} k v exp (e : E) (es : list (event S)) u :
  runs (put k v exp e) es (Ok u) ↔ es = [EPut k v exp true].
Proof.
  unfold runs, put. destruct es as [|e' es]; simpl; [split; [done|done]|].
  split.
  - intros (r' & -> & H). destruct r'; unfold ok, fail in H; destruct es; simpl in H; done.
  - intros H. injection H as -> ->. exists true. destruct u. done.
Qed.
Lemma runs_purge {E} k (e : E) (es : list (event S)) u :
  runs (purge k e) es (Ok u) ↔ es = [EPurge k true].
Proof.
  unfold runs, purge. destruct es as [|e' es]; simpl; [split; [done|done]|].
  split.
  - intros (r' & -> & H). destruct r'; unfold ok, fail in H; destruct es; simpl in H; done.
  - intros H. injection H as -> ->. exists true. destruct u. done.
Qed.

(** ** Weakest preconditions over histories

    [wp Φ Q p h]: started after the calls [h], every further call [e] of [p] made after
    calls [h'] satisfies [Φ h' e], and if [p] completes with [a] after calls [h'] then
    [Q h' a]. *)
Fixpoint wp {A} (Φ : list (event S) → event S → Prop) (Q : list (event S) → A → Prop)
    (p : prog S A) (h : list (event S)) : Prop :=
  match p with
  | Ret a => Q h a
  | Call c k => ∀ r, Φ h (mkev c r) ∧ wp Φ Q (k r) (h ++ [mkev c r])
  end.

Lemma wp_path {A} Φ Q (p q : prog S A) h es :
  wp Φ Q p h → path p es q → wp Φ Q q (h ++ es).
Proof.
  revert p h. induction es as [|e es IH]; intros p h Hwp Hp; simpl in Hp.
  - subst q. by rewrite app_nil_r.
  - destruct p as [a|c k]; [done|]. destruct Hp as (r & -> & Hp).
    destruct (Hwp r) as [_ Hwp']. specialize (IH _ _ Hwp' Hp). by rewrite <-app_assoc in IH.
Qed.
Lemma wp_event {A} Φ Q (p q : prog S A) h es1 e es2 :
  wp Φ Q p h → path p (es1 ++ e :: es2) q → Φ (h ++ es1) e.
Proof.
  intros Hwp Hp. apply path_app in Hp as (p' & H1 & H2).
  apply (wp_path _ _ _ _ _ _ Hwp) in H1. destruct p' as [a|c k]; [done|].
  destruct H2 as (r & -> & _). apply H1.
Qed.
Lemma wp_runs {A} Φ Q (p : prog S A) h es a : wp Φ Q p h → runs p es a → Q (h ++ es) a.
Proof. intros Hwp H. apply (wp_path _ _ _ _ _ _ Hwp H). Qed.

Lemma wp_mono {A} (Φ Φ' : list (event S) → event S → Prop) (Q Q' : list (event S) → A → Prop) p h :
  (∀ h e, Φ h e → Φ' h e) → (∀ h a, Q h a → Q' h a) → wp Φ Q p h → wp Φ' Q' p h.
Proof.
  intros HΦ HQ. revert h. induction p as [a|c k IH]; intros h; simpl; [auto|].
  intros H r. destruct (H r). eauto.
Qed.

Definition bindQ {E A B} Φ (Q : list (event S) → outcome E B → Prop)
    (f : A → prog S (outcome E B)) : list (event S) → outcome E A → Prop :=
  λ h o, match o with
         | Ok a => wp Φ Q (f a) h
         | Err e => Q h (Err e)
         | Panic w => Q h (Panic w)
         end.

Lemma wp_bind {E A B} Φ Q (m : prog S (outcome E A)) (f : A → prog S (outcome E B)) h :
  wp Φ Q (bind m f) h ↔ wp Φ (bindQ Φ Q f) m h.
Proof.
  revert h. induction m as [[a|e|w]|c k IH]; intros h; simpl; try done.
  split; intros H r; destruct (H r) as [H1 H2]; (split; [done|]); by apply IH.
Qed.
End paths.

(** ** Executions *)
Section exec.
Context {S : sig} {Q R : Type} (handler : Q → prog S R) (st0 : store S).

Lemma calls_of_app i (l1 l2 : list (entry S)) : calls_of i (l1 ++ l2) = calls_of i l1 ++ calls_of i l2.
Proof. unfold calls_of. by rewrite omap_app. Qed.

Lemma calls_of_elem i (log : list (entry S)) e :
  e ∈ calls_of i log ↔ ∃ en, en ∈ log ∧ e_who en = i ∧ e_ev en = e.
Proof.
  unfold calls_of. rewrite elem_of_list_omap. split.
  - intros (en & H1 & H2). case_bool_decide; [|done]. injection H2 as <-. eauto.
  - intros (en & H1 & H2 & H3). exists en. split; [done|]. rewrite bool_decide_true by done.
    by rewrite H3.
Qed.

Lemma reachable_bound c en : reachable handler st0 c → en ∈ c_log c → e_who en < length (c_pool c).
Proof.
  induction 1 as [|log pool q H IH|log pool i q cl k r eff H IH Hi Ha]; simpl in *.
  - by intros ?%elem_of_nil.
  - intros Hin. specialize (IH Hin). rewrite app_length. simpl. lia.
  - rewrite insert_length. intros [Hin|Hin]%elem_of_app; [auto|].
    apply elem_of_list_singleton in Hin as ->. simpl. by apply lookup_lt_Some in Hi.
Qed.

(** Each request follows a path of its own program. *)
Lemma reachable_path c i q p :
  reachable handler st0 c → c_pool c !! i = Some (q, p) →
  path (handler q) (calls_of i (c_log c)) p.
Proof.
  intros Hr. revert i q p. induction Hr as [|log pool q0 H IH|log pool j q0 cl k r eff H IH Hj Ha];
    simpl; intros i q p Hi.
  - done.
  - rewrite lookup_app in Hi. destruct (pool !! i) as [[q' p']|] eqn:E.
    + injection Hi as -> ->. by apply IH.
    + assert (calls_of i log = []) as ->.
      { destruct (calls_of i log) as [|e l] eqn:E'; [done|].
        assert (e ∈ calls_of i log) as He by (rewrite E'; left).
        apply calls_of_elem in He as (en & H1 & H2 & _).
        apply (reachable_bound (Config log pool)) in H1; [|done]. simpl in H1.
        apply lookup_ge_None in E. lia. }
      apply lookup_ge_None in E.
      destruct (i - length pool) eqn:En; simpl in Hi; [|done]. by injection Hi as -> ->.
  - rewrite calls_of_app. unfold calls_of at 2. simpl. case_bool_decide as Hij.
    + subst j. rewrite list_lookup_insert in Hi by (by apply lookup_lt_Some in Hj).
      injection Hi as <- <-. apply path_app. eexists. split; [by apply IH|].
      simpl. exists r. done.
    + rewrite app_nil_r. rewrite list_lookup_insert_ne in Hi by done. by apply IH.
Qed.

Lemma reachable_pool c i en :
  reachable handler st0 c → en ∈ c_log c → e_who en = i →
  ∃ q p, c_pool c !! i = Some (q, p) ∧ path (handler q) (calls_of i (c_log c)) p.
Proof.
  intros Hr Hin Hw. apply (reachable_bound _ _ Hr) in Hin as Hlt. rewrite Hw in Hlt.
  apply lookup_lt_is_Some in Hlt as [[q p] Hp]. exists q, p. split; [done|].
  by apply reachable_path.
Qed.

(** The store answers correctly at every point of the log. *)
Lemma reachable_allowed c l1 en l2 :
  reachable handler st0 c → c_log c = l1 ++ en :: l2 → allowed (store_after st0 l1) en.
Proof.
  intros Hr. revert l1 en l2.
  induction Hr as [|log pool q0 H IH|log pool j q0 cl k r eff H IH Hj Ha]; simpl; intros l1 en l2 Hl.
  - by destruct l1.
  - eauto.
  - destruct l2 as [|en' l2 _] using rev_ind.
    + apply app_inj_tail in Hl as [<- <-]. done.
    + rewrite app_comm_cons, app_assoc in Hl. apply app_inj_tail in Hl as [-> _]. eauto.
Qed.
End exec.

Section stores.
Context {S : sig}.
Implicit Types (st : store S) (log : list (entry S)).

Lemma store_after_app st l1 l2 : store_after st (l1 ++ l2) = store_after (store_after st l1) l2.
Proof. unfold store_after. by rewrite foldl_app. Qed.

(** An entry that (re)writes key [k]. *)
Definition puts_key (k : string) (en : entry S) : bool :=
  match e_ev en with EPut k' _ _ _ => bool_decide (k' = k) && e_eff en | _ => false end.
(** An entry that removes key [k]. *)
Definition purges_key (k : string) (en : entry S) : bool :=
  match e_ev en with EPurge k' _ => bool_decide (k' = k) && e_eff en | _ => false end.

Lemma apply_other st en k : puts_key k en = false → purges_key k en = false →
  apply st en !! k = st !! k.
Proof.
  unfold puts_key, purges_key, apply. destruct en as [w [k' r|k' v x o|k' o|e] eff]; simpl; try done.
  - intros H _. destruct eff; [|done]. rewrite andb_true_r in H. apply bool_decide_eq_false in H.
    by rewrite lookup_insert_ne.
  - intros _ H. destruct eff; [|done]. rewrite andb_true_r in H. apply bool_decide_eq_false in H.
    by rewrite lookup_delete_ne.
Qed.

Lemma apply_some st en k v : apply st en !! k = Some v →
  (∃ w x o, en = Entry w (EPut k v x o) true) ∨ (st !! k = Some v ∧ puts_key k en = false).
Proof.
  unfold apply, puts_key. destruct en as [w [k' r|k' v' x o|k' o|e] eff]; simpl; eauto.
  - destruct eff; [|rewrite andb_false_r; eauto]. destruct (decide (k' = k)) as [->|Hn].
    + rewrite lookup_insert. intros [= ->]. left. eauto.
    + rewrite lookup_insert_ne by done. rewrite bool_decide_false by done. eauto.
  - destruct eff; [|eauto]. intros H. apply lookup_delete_Some in H as [_ H]. eauto.
Qed.

(** A stored value was put there, or was there from the start and never rewritten. *)
Lemma store_after_some st log k v : store_after st log !! k = Some v →
  (∃ l1 w x o l2, log = l1 ++ Entry w (EPut k v x o) true :: l2 ∧
      Forall (λ en, puts_key k en = false) l2) ∨
  (st !! k = Some v ∧ Forall (λ en, puts_key k en = false) log).
Proof.
  induction log as [|en log IH] using rev_ind; intros H; simpl in H.
  - right. auto.
  - rewrite store_after_app in H. simpl in H. apply apply_some in H as [(w & x & o & ->)|[H Hp]].
    + left. exists log, w, x, o, []. auto.
    + destruct (IH H) as [(l1 & w & x & o & l2 & -> & Hf)|[H1 H2]].
      * left. exists l1, w, x, o, (l2 ++ [en]). split; [by rewrite <-app_assoc|].
        apply Forall_app. auto.
      * right. split; [done|]. apply Forall_app. auto.
Qed.

(** Once removed, a key stays absent until it is written again. *)
Lemma store_after_purged st log k :
  Forall (λ en, puts_key k en = false) log → st !! k = None → store_after st log !! k = None.
Proof.
  revert st. induction log as [|en log IH]; intros st Hf Hn; [done|].
  apply Forall_cons in Hf as [H1 H2]. simpl. apply IH; [done|].
  destruct (apply st en !! k) as [v|] eqn:E; [|done].
  apply apply_some in E as [(w & x & o & ->)|[E _]]; [|congruence].
  unfold puts_key in H1. simpl in H1. by rewrite bool_decide_true in H1.
Qed.

Lemma apply_purge st w k o : apply st (Entry w (EPurge k o) true) !! k = None.
Proof. unfold apply. simpl. by rewrite lookup_delete. Qed.

(** How often key [k] is written in [log]. *)
Definition times_saved (k : string) (log : list (entry S)) : nat :=
  length (List.filter (puts_key k) log).

Lemma times_saved_app k l1 l2 : times_saved k (l1 ++ l2) = times_saved k l1 + times_saved k l2.
Proof. unfold times_saved. by rewrite List.filter_app, app_length. Qed.
Lemma times_saved_0 k log : times_saved k log = 0 ↔ Forall (λ en, puts_key k en = false) log.
Proof.
  unfold times_saved. induction log as [|en log IH]; simpl.
  - split; auto.
  - rewrite Forall_cons. destruct (puts_key k en); simpl; naive_solver.
Qed.
End stores.

(** ** More about [wp] *)
Section wp_more.
Context {S : sig}.

Lemma wp_prefix {A} Φ (Q : list (event S) → A → Prop) p h :
  wp Φ (λ h' a, h `prefix_of` h' → Q h' a) p h → wp Φ Q p h.
Proof.
  intros H.
  assert (∀ h0, h `prefix_of` h0 → wp Φ (λ h' a, h `prefix_of` h' → Q h' a) p h0 →
    wp Φ Q p h0) as Hgen; [|by apply Hgen].
  clear H. induction p as [a|c k IH]; intros h0 Hp H; simpl in *; [auto|].
  intros r. destruct (H r) as [H1 H2]. split; [done|]. apply IH; [|done].
  by apply prefix_app_r.
Qed.

Lemma wp_and {A} (Φ Φ' : list (event S) → event S → Prop) (Q Q' : list (event S) → A → Prop) p h :
  wp Φ Q p h → wp Φ' Q' p h → wp (λ h e, Φ h e ∧ Φ' h e) (λ h a, Q h a ∧ Q' h a) p h.
Proof.
  revert h. induction p as [a|c k IH]; intros h; simpl; [auto|].
  intros H H' r. destruct (H r), (H' r). auto.
Qed.

(** Calls and results can be read off all paths. *)
Lemma wp_intro {A} (Φ : list (event S) → event S → Prop) (Q : list (event S) → A → Prop) p h :
  (∀ es1 e es2 q, path p (es1 ++ e :: es2) q → Φ (h ++ es1) e) →
  (∀ es a, runs p es a → Q (h ++ es) a) → wp Φ Q p h.
Proof.
  revert h. induction p as [a|c k IH]; intros h H1 H2; simpl.
  - specialize (H2 [] a). rewrite app_nil_r in H2. by apply H2.
  - intros r. split.
    + specialize (H1 [] (mkev c r) [] (k r)). rewrite app_nil_r in H1. apply H1. simpl. eauto.
    + apply IH.
      * intros es1 e es2 q Hp. specialize (H1 (mkev c r :: es1) e es2 q).
        rewrite <-app_assoc. apply H1. simpl. eauto.
      * intros es a Hr. rewrite <-app_assoc. apply (H2 (mkev c r :: es) a). exists r. done.
Qed.
End wp_more.

(** Decompose hypotheses about completed runs. *)
Ltac runs_step :=
  match goal with
  | H : runs (bind _ _) _ (Ok _) |- _ =>
      let es1 := fresh "es" in let es2 := fresh "es" in let a := fresh "a" in
      let H1 := fresh "H" in
      apply runs_bind_ok in H as (es1 & es2 & a & -> & H1 & H)
  | H : runs (ok _) _ (Ok _) |- _ => apply runs_ok in H as [-> H]
  | H : runs (fail _) _ (Ok _) |- _ => apply runs_fail in H; destruct H
  | H : runs (panic _) _ (Ok _) |- _ => apply runs_panic in H; destruct H
  | H : runs (ensure _ _) _ (Ok _) |- _ => apply runs_ensure in H as [-> H]
  | H : runs (of_opt _ _) _ (Ok _) |- _ => apply runs_of_opt in H as [-> H]
  | H : runs (lift _) _ (Ok _) |- _ => apply runs_lift in H as [-> H]
  | H : runs (ext _) _ (Ok _) |- _ => apply runs_ext in H as ->
  | H : runs (get _) _ (Ok _) |- _ => apply runs_get in H as ->
  | H : runs (put _ _ _ _) _ (Ok _) |- _ => apply runs_put in H as ->
  | H : runs (purge _ _) _ (Ok _) |- _ => apply runs_purge in H as ->
  end.
