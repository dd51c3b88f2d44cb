(** Lemmas about interleaved executions: where stored values come from, and when a
    stored value can be consumed twice. *)
From Verif Require Import Base Prog ProgFacts ExecSpec.

Section exec.
Context {S : sig} {Q R : Type} (handler : Q → prog S R).
Implicit Types (log : list (entry S)) (c : config S Q R).

Lemma calls_of_snoc i log en :
  calls_of i (log ++ [en]) = calls_of i log ++ (if bool_decide (e_who en = i) then [e_ev en] else []).
Proof. rewrite calls_of_app. f_equal. unfold calls_of. simpl. by case_bool_decide. Qed.

(** A call of request [i] sits at a position of the log. *)
Lemma calls_of_pos i log es1 e es2 :
  calls_of i log = es1 ++ e :: es2 →
  ∃ n en, log !! n = Some en ∧ e_who en = i ∧ e_ev en = e ∧ calls_of i (take n log) = es1.
Proof.
  revert es1 es2. induction log as [|en log IH] using rev_ind; intros es1 es2 H.
  - by destruct es1.
  - rewrite calls_of_snoc in H. case_bool_decide as Hw.
    + destruct es2 as [|e' es2 _] using rev_ind.
      * apply app_inj_tail in H as [<- <-]. exists (length log), en.
        rewrite list_lookup_middle by done. rewrite take_app. done.
      * rewrite app_comm_cons, app_assoc in H. apply app_inj_tail in H as [H _].
        apply IH in H as (n & en' & Hn & ? & ? & ?). exists n, en'.
        apply lookup_lt_Some in Hn as Hlt. rewrite lookup_app_l by done.
        rewrite take_app_le by lia. done.
    + rewrite app_nil_r in H. apply IH in H as (n & en' & Hn & ? & ? & ?). exists n, en'.
      apply lookup_lt_Some in Hn as Hlt. rewrite lookup_app_l by done.
      rewrite take_app_le by lia. done.
Qed.

Lemma calls_of_elem_pos i log e :
  e ∈ calls_of i log → ∃ n en, log !! n = Some en ∧ e_who en = i ∧ e_ev en = e.
Proof.
  intros (es1 & es2 & H)%elem_of_list_split. apply calls_of_pos in H as (n & en & ? & ? & ? & _).
  eauto.
Qed.

Lemma pos_calls_of i log n en :
  log !! n = Some en → e_who en = i →
  ∃ es2, calls_of i log = calls_of i (take n log) ++ e_ev en :: es2.
Proof.
  intros Hn Hw. apply elem_of_list_split_length in Hn as (l1 & l2 & -> & ->).
  rewrite take_app, calls_of_app. unfold calls_of at 2. simpl. rewrite bool_decide_true by done.
  eauto.
Qed.

(** An earlier call of the same request is earlier in the log. *)
Lemma calls_of_take_elem i log n e :
  e ∈ calls_of i (take n log) → ∃ m en, m < n ∧ log !! m = Some en ∧ e_who en = i ∧ e_ev en = e.
Proof.
  intros H. apply calls_of_elem_pos in H as (m & en & Hm & ? & ?).
  apply lookup_take_Some in Hm as [Hm Hlt]. eauto 8.
Qed.

(** Every logged call was made by a request following its program. *)
Lemma pos_path st0 c n en :
  reachable handler st0 c → c_log c !! n = Some en →
  ∃ q p es2, c_pool c !! e_who en = Some (q, p) ∧
    path (handler q) (calls_of (e_who en) (take n (c_log c)) ++ e_ev en :: es2) p.
Proof.
  intros Hr Hn. destruct (reachable_pool handler st0 c (e_who en) en Hr) as (q & p & Hp & Hpath).
  { by eapply elem_of_list_lookup_2. }
  { done. }
  destruct (pos_calls_of (e_who en) _ _ _ Hn eq_refl) as (es2 & Heq). rewrite Heq in Hpath.
  eauto 8.
Qed.

Lemma pos_allowed st0 c n en :
  reachable handler st0 c → c_log c !! n = Some en →
  allowed (store_after st0 (take n (c_log c))) en.
Proof.
  intros Hr Hn. eapply reachable_allowed; [done|]. symmetry. by apply take_drop_middle.
Qed.

(** A value that was read had been saved, and not removed or overwritten in between. *)
Lemma get_source st0 c n en k v :
  reachable handler st0 c → c_log c !! n = Some en → e_ev en = EGet k (Some v) →
  st0 !! k = None →
  ∃ m en' x o, m < n ∧ c_log c !! m = Some en' ∧ e_ev en' = EPut k v x o ∧ e_eff en' = true ∧
    ∀ a ea, m < a < n → c_log c !! a = Some ea → puts_key k ea = false ∧ purges_key k ea = false.
Proof.
  intros Hr Hn He H0. pose proof (pos_allowed _ _ _ _ Hr Hn) as Ha. unfold allowed in Ha.
  rewrite He in Ha. destruct Ha as [Ha|Ha]; [done|]. symmetry in Ha.
  assert (Hn' : n < length (c_log c)) by by eapply lookup_lt_Some.
  generalize (c_log c) Ha Hn'. clear - H0. intros log Ha Hn. revert Ha Hn.
  induction n as [|n IH]; intros Ha Hn.
  { simpl in Ha. congruence. }
  destruct (lookup_lt_is_Some_2 log n) as [en Hen]; [lia|].
  rewrite (take_S_r _ _ _ Hen), store_after_app in Ha. simpl in Ha.
  destruct (apply_some _ _ _ _ Ha) as [(w & x & o & ->)|[Ha' Hp]].
  - exists n, (Entry w (EPut k v x o) true), x, o. split; [lia|]. split; [done|].
    split; [done|]. split; [done|]. intros a ea Hlt. lia.
  - assert (purges_key k en = false) as Hpu.
    { destruct (purges_key k en) eqn:E; [|done]. unfold purges_key in E.
      destruct en as [w [| |k' o|] eff]; simpl in *; try done.
      apply andb_true_iff in E as [E1 E2]. apply bool_decide_eq_true in E1. subst.
      by rewrite apply_purge in Ha. }
    destruct (IH Ha' ltac:(lia)) as (m & en' & x & o & Hm & H1 & H2 & H3 & H4).
    exists m, en', x, o. split; [lia|]. split; [done|]. split; [done|]. split; [done|].
    intros a ea Hlt Hl. destruct (decide (a = n)) as [->|Hne].
    + simplify_eq. done.
    + apply (H4 a ea); [lia|done].
Qed.

(** Once a value of class [C] saved under [k] has been read and removed by a request that
    finishes before another request starts, that other request cannot read a value of the
    class under [k], provided values of the class are only saved under keys generated by
    the saving request and at most once by each request. *)
Lemma single_use c (C : sV S → Prop) (G : string → event S → Prop) i j k vi vj es1 es2 es3 :
  reachable handler ∅ c →
  (∀ q p h k v x o h', path (handler q) (h ++ EPut k v x o :: h') p → C v →
     (∃ e, e ∈ h ∧ G k e) ∧ (∀ k' v' x' o', EPut k' v' x' o' ∈ h → ¬ C v')) →
  (∀ a b ea eb k, c_log c !! a = Some ea → c_log c !! b = Some eb →
     G k (e_ev ea) → G k (e_ev eb) → a = b) →
  calls_of i (c_log c) = es1 ++ EGet k (Some vi) :: es2 ++ EPurge k true :: es3 → C vi →
  EGet k (Some vj) ∈ calls_of j (c_log c) → C vj →
  ¬ before (c_log c) i j.
Proof.
  intros Hr Hput Huniq Hi Ci Hj Cj Hbefore.
  (* where [i] reads and removes, and where [j] reads *)
  destruct (calls_of_pos _ _ _ _ _ Hi) as (gi & egi & Hgi & Hgiw & Hgie & Hgic).
  rewrite app_comm_cons, app_assoc in Hi.
  destruct (calls_of_pos _ _ _ _ _ Hi) as (pi & epi & Hpi & Hpiw & Hpie & Hpic).
  apply calls_of_elem_pos in Hj as (gj & egj & Hgj & Hgjw & Hgje).
  assert (gi < pi) as Hgp.
  { destruct (decide (gi < pi)) as [|Hge]; [done|]. exfalso.
    assert (length (calls_of i (take pi (c_log c))) ≤ length (calls_of i (take gi (c_log c)))) as Hle.
    { rewrite <-(firstn_skipn pi (take gi (c_log c))), take_take, Nat.min_l by lia.
      rewrite calls_of_app, app_length. lia. }
    rewrite Hgic, Hpic, app_length in Hle. simpl in Hle. lia. }
  assert (pi < gj) as Hpg by exact (Hbefore _ _ _ _ Hpi Hgj Hpiw Hgjw).
  (* the values were saved *)
  destruct (get_source ∅ c gi egi k vi Hr Hgi Hgie (lookup_empty k))
    as (m1 & em1 & x1 & o1 & Hm1 & Hlm1 & Hem1 & _ & _).
  destruct (get_source ∅ c gj egj k vj Hr Hgj Hgje (lookup_empty k))
    as (m2 & em2 & x2 & o2 & Hm2 & Hlm2 & Hem2 & _ & Hno).
  assert (pi < m2) as Hpm.
  { destruct (decide (pi < m2)) as [|Hge]; [done|]. exfalso.
    assert (m2 ≠ pi). { intros ->. rewrite Hpi in Hlm2. simplify_eq. congruence. }
    destruct (Hno pi epi ltac:(lia) Hpi) as [_ Hpu].
    pose proof (pos_allowed _ _ _ _ Hr Hpi) as Ha. unfold allowed in Ha. rewrite Hpie in Ha.
    unfold purges_key in Hpu. rewrite Hpie, bool_decide_true, Ha in Hpu by done. done. }
  (* by the same request *)
  destruct (pos_path _ _ _ _ Hr Hlm1) as (q1 & p1 & t1 & Hq1 & Hp1). rewrite Hem1 in Hp1.
  destruct (pos_path _ _ _ _ Hr Hlm2) as (q2 & p2 & t2 & Hq2 & Hp2). rewrite Hem2 in Hp2.
  destruct (Hput _ _ _ _ _ _ _ _ Hp1 Ci) as [(g1 & Hg1 & HG1) _].
  destruct (Hput _ _ _ _ _ _ _ _ Hp2 Cj) as [(g2 & Hg2 & HG2) Hnone].
  apply calls_of_take_elem in Hg1 as (a1 & ea1 & ? & Ha1 & Hw1 & <-).
  apply calls_of_take_elem in Hg2 as (a2 & ea2 & ? & Ha2 & Hw2 & <-).
  assert (a1 = a2) as -> by exact (Huniq _ _ _ _ _ Ha1 Ha2 HG1 HG2). simplify_eq.
  (* which saves such a value once *)
  apply (Hnone k vi x1 o1); [|done]. apply calls_of_elem. exists em1.
  split; [|split; [congruence|done]]. apply elem_of_list_lookup. exists m1.
  rewrite lookup_take by lia. done.
Qed.
End exec.
