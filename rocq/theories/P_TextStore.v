(** C150: the example stores keep text, and serve as well as the stores of values that the other theorems are about. *)
From Verif Require Import Base StringSpec Json JsonParse CoreModel VcModel Prog ProgFacts ExecFacts Sched IssuerTypes IssuerModel VerifierModel
  SerdeSpec SerdeModel SerdeTrips WireSpec SerdeProps SerdeStore SerdeRequest DifSerde DifSpec TextStore TextStoreFacts IssuerExample SerdeExample.
From Verif Require DifExec P_Serde P_Dif VerifierExample.

Notation itext cx := (text_reach (S:=ISig) ihandler (write (ser_state cx)) (read (de_state cx))).
Notation vtext lb cx := (text_reach (S:=VSig) (vhandler lb) (write (ser_vstate cx)) (read (de_vstate cx))).

(** Requests that were read from text, with claims nested less than 120 deep. *)
Definition shallow_requests (c : iconfig) : Prop :=
  ∀ i q p, c_pool c !! i = Some (q, p) → was_read q ∧ ∀ l, l ∈ request_claims q → claims_depth l ≤ 119.

(** With such requests the executions of the issuer over a store of text are its executions over a store of values that never
    fails; in particular all that is proved of [ireach] holds of them. *)
Theorem C150_issuer cx (c : iconfig) : dates_read cx → shallow_requests c →
  (∃ fs, itext cx c fs) ↔ ireach c ∧ reliable c.
Proof.
  intros Hd Hs.
  assert (∀ log pool q, shallow_requests (Config log (pool ++ [(q, ihandler q)])) → shallow_requests (Config log pool)) as H1.
  { intros log pool q H i q' p Hi. apply (H i q' p). simpl. by apply lookup_app_l_Some. }
  assert (∀ log pool i q p p' en, pool !! i = Some (q, p) → shallow_requests (Config (log ++ [en]) (<[i := (q, p')]> pool)) →
    shallow_requests (Config log pool)) as H2.
  { intros log pool i q p p' en Hi H j q' p0 Hj. simpl in Hj. destruct (decide (j = i)) as [->|Hn].
    - rewrite Hi in Hj. injection Hj as <- <-. apply (H i q p'). simpl. apply list_lookup_insert. by eapply lookup_lt_Some.
    - apply (H j q' p0). simpl. by rewrite list_lookup_insert_ne. }
  assert (∀ c, ireach c → shallow_requests c → puts_read (S:=ISig) (write (ser_state cx)) (read (de_state cx)) c) as H3.
  { intros c' Hr Hs' n en k v x b Hn He. exact (P_Serde.C101_saved_text_reads_back_partial cx c' Hd Hr Hs' n en k v x b Hn He). }
  split.
  - intros [fs Ht]. destruct (text_is_value _ _ _ shallow_requests H1 H2 H3 c fs Hs Ht) as (Ha & Hb & _). done.
  - intros [Hr Hb]. eexists. by apply (value_is_text _ _ _ shallow_requests H1 H2 H3).
Qed.
Print Assumptions C150_issuer.
(** The same of the verifier. *)
Theorem C150_verifier lb cx (c : config VSig vrequest (outcome error vreply)) : dates_read cx → well_supplied c →
  (∃ fs, vtext lb cx c fs) ↔ reachable (vhandler lb) ∅ c ∧ reliable c.
Proof.
  intros Hd Hs.
  assert (∀ log pool q, @well_supplied (outcome error vreply) (Config log (pool ++ [(q, vhandler lb q)])) → @well_supplied (outcome error vreply) (Config log pool)) as H1.
  { intros log pool q [H H']. split; [|exact H']. intros j r p d Hj. apply (H j r p d). simpl. by apply lookup_app_l_Some. }
  assert (∀ log pool i q p p' en, pool !! i = Some (q, p) → @well_supplied (outcome error vreply) (Config (log ++ [en]) (<[i := (q, p')]> pool)) →
    @well_supplied (outcome error vreply) (Config log pool)) as H2.
  { intros log pool i q p p' en Hi [H H']. split.
    - intros j r p0 d Hj. simpl in Hj. destruct (decide (j = i)) as [->|Hn].
      + rewrite Hi in Hj. injection Hj as -> <-. apply (H i r p' d). simpl. apply list_lookup_insert. by eapply lookup_lt_Some.
      + apply (H j r p0 d). simpl. by rewrite list_lookup_insert_ne.
    - intros j id m Hj. apply (H' j id m). simpl. unfold calls_of in *. rewrite omap_app. apply elem_of_app. by left. }
  assert (∀ c, reachable (vhandler lb) ∅ c → @well_supplied (outcome error vreply) c → puts_read (S:=VSig) (write (ser_vstate cx)) (read (de_vstate cx)) c) as H3.
  { intros c' Hr Hs' n en k v x b Hn He. apply (DifExec.saved_text lb cx c' (e_who en) k v x b Hr Hs' Hd).
    destruct (pos_calls_of (e_who en) _ _ _ Hn eq_refl) as (es2 & ->). rewrite He. apply elem_of_app. right. apply elem_of_list_here. }
  split.
  - intros [fs Ht]. destruct (text_is_value _ _ _ well_supplied H1 H2 H3 c fs Hs Ht) as (Ha & Hb & _). done.
  - intros [Hr Hb]. eexists. by apply (value_is_text _ _ _ well_supplied H1 H2 H3).
Qed.
Print Assumptions C150_verifier.
(** With deeper claims the issuer's store loses what it has taken: the pushed request was answered with its address, and what
    is found there is not read. *)
Theorem C150_lost_refuted cx : ∃ c fs i r resp k v, itext cx c fs ∧ read de_request (write ser_request r) = Some r ∧
  answered c i (QPar r) (Ok (RPar resp)) ∧ store_after ∅ (c_log c) !! k = Some v ∧ text_get (S:=ISig) (read (de_state cx)) k fs = None.
Proof.
  destruct deep_answered as (i & resp & Ha). destruct deep_saved as (en & k & v & x & H1 & H2 & e & H3).
  pose proof (ran_reliable ihandler (ex_orc w0) (serially [QPar (deep_request 119)]) : reliable (deep_run 119)) as Hb.
  assert (length (c_log (deep_run 119)) = 7) as Hl by (vm_compute; reflexivity).
  assert (forallb (λ en : entry ISig, match e_ev en with EGet _ _ => false | _ => true end) (c_log (deep_run 119)) = true) as Hf by (vm_compute; reflexivity).
  pose proof (deep_reach 119) as Hr. pose proof (deep_unread cx v e H3) as Hu. revert Ha H1 Hb Hl Hf Hr. generalize (deep_run 119). intros c Ha H1 Hb Hl Hf Hr.
  pose proof (last_put c 6 en k v x true Hb H1 H2 Hl) as Hs.
  exists c, (write (ser_state cx) <$> store_after ∅ (c_log c)), i, (deep_request 119), resp, k, v. split.
  { exact (value_is_text_unread (S:=ISig) ihandler (write (ser_state cx)) (read (de_state cx)) c (no_gets _ Hf) Hr Hb). }
  split; [exact deep_read|]. split; [exact Ha|]. split; [exact Hs|]. by apply (get_unread (S:=ISig) _ _ _ _ v).
Qed.
Print Assumptions C150_lost_refuted.

(** The sample executions of both have such stores. *)
Lemma shallow_118 : shallow_requests (deep_run 118).
Proof.
  unfold shallow_requests. destruct shallow_pool as (p0 & ->).
  intros i q p. destruct i as [|i]; [|done]. intros [= <- <-]. split.
  - exists (ser_request (deep_request 118)). apply de_request_ser, deep_readable.
  - intros l Hl. apply deep_claims in Hl. lia.
Qed.
Example C150_example : dates_read ex_cx ∧ shallow_requests (deep_run 118) ∧ (∃ fs, itext ex_cx (deep_run 118) fs) ∧
  (∃ resp, answered (deep_run 118) 0 (QPar (deep_request 118)) (Ok (RPar resp))) ∧
  well_supplied P_Dif.ex_dif_run ∧ (∃ fs, vtext VerifierExample.ex_libs ex_cx P_Dif.ex_dif_run fs) ∧
  (∃ i v eff, c_log P_Dif.ex_dif_run !! 6 = Some (Entry i (@EGet VSig "uri1" (Some v)) eff)).
Proof.
  pose proof shallow_118 as Hs.
  split; [exact ex_dates|]. split; [exact Hs|]. split.
  { apply (C150_issuer ex_cx); [exact ex_dates|exact Hs|]. split; [apply deep_reach|].
    exact (ran_reliable ihandler (ex_orc w0) (serially [QPar (deep_request 118)])). }
  split; [eexists; vm_compute; reflexivity|]. split; [exact P_Dif.ex_dif_supplied|]. split.
  { apply (C150_verifier _ ex_cx); [exact ex_dates|exact P_Dif.ex_dif_supplied|]. split; [exact (proj1 P_Dif.C122_example)|].
    unfold P_Dif.ex_dif_run, VerifierExample.vafter. apply ran_reliable. }
  eexists _, _, _. vm_compute. reflexivity.
Qed.
