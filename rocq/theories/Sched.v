(** Concrete executions, computed: used to exhibit executions that meet the hypotheses of
    theorems about all executions. *)
From Verif Require Import Base Prog ProgFacts.

Section sched.
Context {S : sig} {Q R : Type} (handler : Q → prog S R) (st0 : store S).
(** Answers to calls other than the store, given the log so far and the calling request.
    The store is reliable. *)
Context (orc : list (entry S) → nat → ∀ x : sX S, sXR S x).

Definition step1 (i : nat) (c : config S Q R) : option (config S Q R) :=
  match c_pool c !! i with
  | Some (q, Call cl k) =>
      let r : answer cl :=
        match cl return answer cl with
        | CGet key => store_after st0 (c_log c) !! key
        | CPut _ _ _ => true
        | CPurge _ => true
        | CExt x => orc (c_log c) i x
        end in
      Some (Config (c_log c ++ [Entry i (mkev cl r) true]) (<[i := (q, k r)]> (c_pool c)))
  | _ => None
  end.

Inductive act : Type :=
| Arrive (q : Q)             (* a new request *)
| Steps (i n : nat)          (* request [i] makes [n] calls *)
| Finish (i fuel : nat).     (* request [i] runs to its end *)

Fixpoint steps (i n : nat) (c : config S Q R) : option (config S Q R) :=
  match n with
  | O => Some c
  | Datatypes.S n => match step1 i c with Some c' => steps i n c' | None => None end
  end.
Fixpoint finish (i fuel : nat) (c : config S Q R) : option (config S Q R) :=
  match c_pool c !! i with
  | Some (_, Ret _) => Some c
  | _ => match fuel with
         | O => None
         | Datatypes.S f => match step1 i c with Some c' => finish i f c' | None => None end
         end
  end.
Definition do_act (a : act) (c : config S Q R) : option (config S Q R) :=
  match a with
  | Arrive q => Some (Config (c_log c) (c_pool c ++ [(q, handler q)]))
  | Steps i n => steps i n c
  | Finish i f => finish i f c
  end.
Fixpoint exec (l : list act) (c : config S Q R) : option (config S Q R) :=
  match l with
  | [] => Some c
  | a :: r => match do_act a c with Some c' => exec r c' | None => None end
  end.

Lemma step1_reachable i c c' :
  reachable handler st0 c → step1 i c = Some c' → reachable handler st0 c'.
Proof.
  intros Hr. unfold step1. destruct c as [log pool]. simpl.
  destruct (pool !! i) as [[q [a|cl k]]|] eqn:Hi; [done| |done].
  intros [= <-]. eapply reach_step; [done|done|]. unfold allowed. destruct cl; simpl; auto.
Qed.
Lemma exec_reachable l c c' :
  reachable handler st0 c → exec l c = Some c' → reachable handler st0 c'.
Proof.
  assert (∀ n i c c', reachable handler st0 c → steps i n c = Some c' → reachable handler st0 c') as Hs.
  { induction n as [|n IH]; intros i d d' Hd; simpl; [by intros [= <-]|].
    destruct (step1 i d) as [d1|] eqn:E; [|done]. apply IH. by eapply step1_reachable. }
  assert (∀ f i c c', reachable handler st0 c → finish i f c = Some c' → reachable handler st0 c') as Hf.
  { induction f as [|f IH]; intros i d d' Hd; simpl.
    - destruct (c_pool d !! i) as [[q [a|cl k]]|]; try done. by intros [= <-].
    - destruct (c_pool d !! i) as [[q [a|cl k]]|]; [by intros [= <-]| |];
        (destruct (step1 i d) as [d1|] eqn:E; [|done]; apply IH; by eapply step1_reachable). }
  revert c. induction l as [|a l IH]; intros c Hc; simpl; [by intros [= <-]|].
  destruct (do_act a c) as [d|] eqn:E; [|done]. apply IH.
  destruct a as [q|i n|i f]; simpl in E; [|by eapply Hs|by eapply Hf].
  injection E as <-. destruct c. by apply reach_arrive.
Qed.
End sched.
Global Arguments Arrive {Q} q.
Global Arguments Steps {Q} i n.
Global Arguments Finish {Q} i fuel.

(** Running a program alone gives one of its runs. *)
Lemma run_runs {S A} fuel (st : store S) orc es (p : prog S A) a st' es' :
  run fuel st orc es p = Some (a, st', es') → ∃ es2, es' = es ++ es2 ∧ runs p es2 a.
Proof.
  revert st es p. induction fuel as [|f IH]; intros st es p.
  - destruct p; simpl; [|done]. intros [= -> -> ->]. exists []. rewrite app_nil_r. done.
  - destruct p as [b|cl k]; simpl.
    + intros [= -> -> ->]. exists []. rewrite app_nil_r. done.
    + destruct cl as [key|key v x|key|x]; intros H; apply IH in H as (es2 & -> & H);
        rewrite <-app_assoc; eexists; (split; [reflexivity|]); unfold runs; simpl; eauto.
Qed.
