(** C145, C146: the sample issuer's store of subjects. *)
From Verif Require Import Base Json Prog DatasetModel DatasetFacts.

(** Call [i] was [q], and gave [r]. *)
Definition served (c : dconfig) (i : nat) (q : dcall) (r : outcome string dreply) : Prop := d_calls c !! i = Some (q, Done r).

(** However calls are interleaved: a subject is authorized for exactly the datasets of the configuration that they have,
    each once. *)
Theorem C145_identifiers t c i s conf l : dreach t c → served c i (DAuthorize s conf) (Ok (Identifiers l)) →
  l ≠ [] ∧ NoDup l ∧ ∀ id, id ∈ l ↔ ∃ m cr, t !! s = Some m ∧ m !! id = Some cr ∧ dc_configuration cr = conf.
Proof. intros Hr Hs. exact (inv_calls t c (reach_inv t c Hr) i _ _ Hs). Qed.
Print Assumptions C145_identifiers.
(** The claims given are those of the dataset, and only what was pending at first is ever called pending. *)
Theorem C145_claims t c i s id claims pending : dreach t c → served c i (DDataset s id) (Ok (Claims claims pending)) →
  ∃ m cr, t !! s = Some m ∧ m !! id = Some cr ∧ claims = dc_claims cr ∧ (pending = true → dc_pending cr = true).
Proof. intros Hr Hs. exact (inv_calls t c (reach_inv t c Hr) i _ _ Hs). Qed.
Print Assumptions C145_claims.
(** As long as all calls are for subjects in the store, it goes on working. *)
Theorem C145_works t c : dreach t c → (∀ i q x, d_calls c !! i = Some (q, x) → is_Some (t !! call_subject q)) →
  ds_poisoned (d_store c) = false.
Proof.
  intros Hr Hk. destruct (ds_poisoned (d_store c)) eqn:Hp; [|done].
  destruct (inv_poisoned t c (reach_inv t c Hr) Hp) as (i & q & x & Hi & Hu). destruct (Hk i q x Hi) as [m Hm].
  unfold unknown in Hu. congruence.
Qed.
Print Assumptions C145_works.
(** The claim that a call for somebody unknown is refused and does no harm fails: it panics, and so does every call that
    is served after it, for anybody, forever. *)
Theorem C145_unknown_refuted t c c' i q r : dreach t c → served c i q r → t !! call_subject q = None → rtc dtrans c c' →
  (∃ w, r = Panic w) ∧ ∀ j q' r', served c' j q' r' → served c j q' r' ∨ ∃ w, r' = Panic w.
Proof.
  intros Hr Hs Hu Hc. destruct (inv_unknown t c (reach_inv t c Hr) i q r Hs Hu) as [Hp Hw]. split; [done|].
  by destruct (poisoned_stays c c' Hc Hp) as [_ H].
Qed.
Print Assumptions C145_unknown_refuted.

Module Example.
  Definition sample : dtable :=
    {[ "normal_user" := {[ "ABC" := DCred "EmployeeID_JWT" [("email", JStr "normal.user@example.com")] false ]};
       "pending_user" := {[ "ABC" := DCred "EmployeeID_JWT" [("email", JStr "pending.user@example.com")] true;
                            "DEF" := DCred "Developer_JWT" [("proficiency", JStr "3")] true ]} ]}.
  Fixpoint dexec (l : list (dcall + nat)) (c : dconfig) : option dconfig :=
    match l with
    | [] => Some c
    | inl q :: l => dexec l (DConfig (d_store c) (d_calls c ++ [(q, Start)]))
    | inr i :: l =>
        match d_calls c !! i with
        | Some (q, x) => let (st, x') := dstep q x (d_store c) in dexec l (DConfig st (<[i := (q, x')]> (d_calls c)))
        | None => None
        end
    end.
  Lemma dexec_trans l c c' : dexec l c = Some c' → rtc dtrans c c'.
  Proof.
    revert c. induction l as [|[q|i] l IH]; intros [st calls]; simpl.
    - intros [= <-]. reflexivity.
    - intros H. eapply rtc_l; [|by apply IH]. constructor.
    - destruct (calls !! i) as [[q x]|] eqn:Hi; [|done]. destruct (dstep q x st) as [st' x'] eqn:Hd. intros H.
      eapply rtc_l; [|by apply IH]. by eapply d_step.
  Qed.
  Lemma dexec_app l l' c : dexec (l ++ l') c = match dexec l c with Some c => dexec l' c | None => None end.
  Proof.
    revert c. induction l as [|[q|i] l IH]; intros c; simpl; [done|apply IH|].
    destruct (d_calls c !! i) as [[q x]|]; [|done]. destruct (dstep q x (d_store c)). apply IH.
  Qed.
  Definition first : option dconfig :=
    dexec [inl (DAuthorize "pending_user" "EmployeeID_JWT"); inr 0; inl (DAuthorize "nobody" "EmployeeID_JWT"); inr 1]
      (DConfig (DStore sample false) []).
  Definition second (c : dconfig) : option dconfig := dexec [inl (DAuthorize "pending_user" "EmployeeID_JWT"); inr 2] c.
  (** Two calls that overlap, for different datasets of one subject; then the first again. *)
  Definition start : list (dcall + nat) := [inl (DDataset "pending_user" "ABC"); inl (DDataset "pending_user" "DEF"); inr 1; inr 0; inr 0].
  Definition rest : list (dcall + nat) := [inr 1; inl (DDataset "pending_user" "ABC"); inr 2; inr 2].
  Definition begun : option dconfig := dexec start (DConfig (DStore sample false) []).
  Definition overlapping : option dconfig := dexec (start ++ rest) (DConfig (DStore sample false) []).
  Definition goes_through (o : option dconfig) : bool := match o with Some _ => true | None => false end.
  Definition end_of (o : option dconfig) : dconfig := default (DConfig (DStore ∅ false) []) o.
  Lemma ends o : goes_through o = true → o = Some (end_of o).
  Proof. by destruct o. Qed.
End Example.
Example C145_example : ∃ c c', Example.first = Some c ∧ dreach Example.sample c ∧ Example.second c = Some c' ∧ rtc dtrans c c' ∧
  served c 0 (DAuthorize "pending_user" "EmployeeID_JWT") (Ok (Identifiers ["ABC"])) ∧
  served c 1 (DAuthorize "nobody" "EmployeeID_JWT") (Panic "called `Option::unwrap()` on a `None` value") ∧
  served c' 2 (DAuthorize "pending_user" "EmployeeID_JWT") (Panic "should lock").
Proof.
  exists (Example.end_of Example.first), (Example.end_of (Example.second (Example.end_of Example.first))).
  assert (Example.first = Some (Example.end_of Example.first)) as H by (apply Example.ends; vm_compute; reflexivity).
  assert (Example.second (Example.end_of Example.first) = Some (Example.end_of (Example.second (Example.end_of Example.first)))) as H'
    by (apply Example.ends; vm_compute; reflexivity).
  split; [exact H|]. split; [exact (Example.dexec_trans _ _ _ H)|]. split; [exact H'|]. split; [exact (Example.dexec_trans _ _ _ H')|].
  split; [vm_compute; reflexivity|]. split; vm_compute; reflexivity.
Qed.

(** ** C146: what is pending is called pending once *)

(** When calls do not overlap: a dataset is called pending exactly when it was so at first and is asked for the first time. *)
Theorem C146_sequential t s id l l' claims pending :
  (druns (l ++ DDataset s id :: l') (DStore t false)).2 !! length l = Some (Ok (Claims claims pending)) →
  ∃ m cr, t !! s = Some m ∧ m !! id = Some cr ∧ claims = dc_claims cr ∧
    (pending = true ↔ dc_pending cr = true ∧ DDataset s id ∉ l).
Proof. exact (sequential s id l l' t claims pending). Qed.
Print Assumptions C146_sequential.
(** When they overlap, not so: a call for another dataset of the subject puts back what the first call had cleared, and the
    dataset is called pending once more after it was given out. *)
Theorem C146_refuted : ∃ t c s id claims, dreach t c ∧
  served c 0 (DDataset s id) (Ok (Claims claims true)) ∧ served c 2 (DDataset s id) (Ok (Claims claims true)) ∧
  (∃ c0, dreach t c0 ∧ rtc dtrans c0 c ∧ served c0 0 (DDataset s id) (Ok (Claims claims true)) ∧ d_calls c0 !! 2 = None).
Proof.
  exists Example.sample, (Example.end_of Example.overlapping), "pending_user", "ABC", [("email", JStr "pending.user@example.com")].
  assert (Example.overlapping = Some (Example.end_of Example.overlapping)) as H by (apply Example.ends; vm_compute; reflexivity).
  assert (Example.begun = Some (Example.end_of Example.begun)) as H0 by (apply Example.ends; vm_compute; reflexivity).
  assert (Example.dexec Example.rest (Example.end_of Example.begun) = Some (Example.end_of Example.overlapping)) as H1
    by (rewrite <-H; unfold Example.overlapping; rewrite Example.dexec_app; fold Example.begun; rewrite H0; reflexivity).
  split; [exact (Example.dexec_trans _ _ _ H)|]. split; [vm_compute; reflexivity|]. split; [vm_compute; reflexivity|].
  exists (Example.end_of Example.begun). split; [exact (Example.dexec_trans _ _ _ H0)|]. split; [exact (Example.dexec_trans _ _ _ H1)|].
  split; vm_compute; reflexivity.
Qed.
Print Assumptions C146_refuted.
Example C146_example :
  (druns [DDataset "pending_user" "DEF"; DDataset "pending_user" "ABC"; DDataset "normal_user" "ABC"; DDataset "pending_user" "ABC"]
     (DStore Example.sample false)).2 =
  [Ok (Claims [("proficiency", JStr "3")] true); Ok (Claims [("email", JStr "pending.user@example.com")] true);
   Ok (Claims [("email", JStr "normal.user@example.com")] false); Ok (Claims [("email", JStr "pending.user@example.com")] false)].
Proof. vm_compute. reflexivity. Qed.
