(** When wallet calls are made one at a time, an issuance that was removed stays removed. *)
From Verif Require Import Base Json CoreModel VcModel Prog ProgFacts ExecSpec ExecFacts Sha256 IssuerTypes
  MatcherModel VerifierModel HolderModel HolderSpec HolderFacts HolderExec HolderRuns.

Section serial.
Context (c : hconfig) (Hr : hreach c).
Notation log := (c_log c).
Notation past n i := (calls_of i (take n log)).

(** A save either creates the record, under a new identifier, or replaces one read before. *)
Lemma put_kind n j k v x b eff : log !! n = Some (Entry j (HPut k v x b) eff) →
  HX (EUuid k) ∈ past n j ∨ ∃ v', HGet k (Some v') ∈ past n j.
Proof.
  intros Hn. destruct (say_pos _ Hr _ _ _ _ Hn) as (q & Hq & Hs).
  assert (∀ id i, HGet id (Some (HSIssuance i)) ∈ past n j → hi_id i = id) as Hid.
  { intros id i Hg. by apply (provenance_get _ Hr) in Hg as [? _]. }
  assert (∀ id p, HGet id (Some (HSPresentation p)) ∈ past n j → hp_id p = id) as Hpid.
  { intros id p Hg. by apply (pprovenance_get _ Hr) in Hg as [? _]. }
  destruct v as [v|v]; destruct Hs as [_ Hs].
  - unfold issuance_put in Hs. destruct q as [cl sb o|id' a|id' p|id'|r|r|id' tx cfg|id'|id'|u|id'|id']; try done.
    + left. by destruct Hs as (? & ? & ? & _).
    + right. destruct Hs as (i & d & E1 & _ & _ & _ & -> & _). rewrite (Hid _ _ E1). eauto.
    + right. destruct Hs as (i & E1 & _ & -> & _). rewrite (Hid _ _ E1). eauto.
    + right. destruct Hs as (i & g & d & tok & E1 & _ & _ & -> & _). rewrite (Hid _ _ E1). eauto.
    + destruct Hs as (i & vf & g & d & tok & E1 & _ & -> & _). unfold started in E1. destruct (hz_initiator r).
      * left. by destruct E1 as (id & md & srv & E1 & _ & _ & ->).
      * right. destruct E1 as [E1 _]. rewrite (Hid _ _ E1). eauto.
    + right. destruct Hs as (i & E1 & _ & -> & _). rewrite (Hid _ _ E1). eauto.
    + right. destruct Hs as (i & E1 & _ & -> & _). rewrite (Hid _ _ E1). eauto.
  - unfold presentation_put in Hs. destruct q as [| | | | | | | | |url|id'|]; try done.
    + left. by destruct Hs as (? & ? & ? & ? & _).
    + right. destruct Hs as (p & E1 & _ & -> & _). rewrite (Hpid _ _ E1). eauto.
Qed.
Lemma origin_get n j k v : HGet k (Some v) ∈ past n j →
  ∃ n1 i1 p1 v1 x b, p1 < n1 < n ∧ log !! n1 = Some (Entry i1 (HPut k v1 x b) true) ∧ made c p1 i1 (HX (EUuid k)).
Proof.
  revert j v. induction n as [n IH] using lt_wf_ind. intros j v Hg.
  apply (past_get _ Hr) in Hg as (m & j' & x & b & Hlt & Hm).
  destruct (put_kind _ _ _ _ _ _ _ Hm) as [Hu|[v' Hg]].
  - apply past_made in Hu as (p1 & ? & Hu). exists m, j', p1, v, x, b. split; [lia|done].
  - destruct (IH m Hlt _ _ Hg) as (n1 & i1 & p1 & v1 & x1 & b1 & ? & ? & ?). exists n1, i1, p1, v1, x1, b1.
    split; [lia|done].
Qed.
Lemma write_once n m i e e' eff eff' :
  log !! n = Some (Entry i e eff) → log !! m = Some (Entry i e' eff') → n < m →
  store_call e = true → store_call e' = true → False.
Proof.
  intros Hn Hm Hlt E1 E2. destruct (pos_path _ _ _ _ _ Hr Hm) as (q & p & es2 & _ & Hp). simpl in Hp.
  apply write_last in Hp; [|done]. rewrite (proj1 (Forall_forall _ _) Hp e) in E1; [done|].
  apply calls_of_elem. exists (Entry i e eff). split; [|done].
  apply elem_of_list_lookup. exists n. by rewrite lookup_take.
Qed.
Lemma uuid_pos a b i j s : hfresh log → made c a i (HX (EUuid s)) → made c b j (HX (EUuid s)) → a = b ∧ i = j.
Proof.
  intros Hf [ea Ha] [eb Hb]. assert (a = b) as <-; [|split; [done|congruence]].
  unfold hfresh in Hf. clear Hr.
  assert (∀ l : list (entry HSig), NoDup (omap uuid_of l) → ∀ a b ea eb,
    l !! a = Some ea → l !! b = Some eb → uuid_of ea = Some s → uuid_of eb = Some s → a = b) as H.
  { induction l as [|y l IH]; intros Hnd a' b' ea' eb' E1 E2 E3 E4; [done|]. cbn in Hnd.
    assert (∀ z e, l !! z = Some e → uuid_of e = Some s → uuid_of y = Some s → False) as Hno.
    { intros z e Hz He Hy. rewrite Hy in Hnd. apply NoDup_cons in Hnd as [Hnd _]. apply Hnd.
      apply elem_of_list_omap. exists e. split; [by eapply elem_of_list_lookup_2|done]. }
    destruct a' as [|a'], b' as [|b']; simpl in *; [done| | |].
    - injection E1 as ->. exfalso. by eapply Hno.
    - injection E2 as ->. exfalso. by eapply Hno.
    - f_equal. eapply IH; try done. destruct (uuid_of y); [by apply NoDup_cons in Hnd as [_ ?]|done]. }
  by eapply (H log).
Qed.
Lemma purge_read n i k b eff : log !! n = Some (Entry i (HPurge k b) eff) → ∃ v, HGet k (Some v) ∈ past n i.
Proof.
  intros Hn. destruct (say_pos _ Hr _ _ _ _ Hn) as (q & Hq & i0 & id & Hg & Hk).
  exists (HSIssuance i0). apply (provenance_get _ Hr) in Hg as Hid. destruct Hid as [Hid _].
  destruct Hk as [[_ ->]|[_ ->]]; [done|]. by rewrite Hid.
Qed.
Lemma stays_removed n i k b : hfresh log → one_at_a_time log →
  log !! n = Some (Entry i (HPurge k b) true) →
  ∀ m j v, made c m j (HGet k (Some v)) → m < n.
Proof.
  intros Hf Hone Hn.
  assert (∀ g j v, made c g j (HGet k (Some v)) → n < g →
    ∃ m j x b, n < m < g ∧ log !! m = Some (Entry j (HPut k v x b) true)) as Hsrc.
  { intros g j v [eff Hg] Hlt.
    destruct (get_source _ _ _ _ _ _ _ Hr Hg eq_refl (lookup_empty k)) as (m & [j' e eff'] & x & b' & Hm & Hlm & Hem & Hf' & Hno).
    simpl in *. subst. exists m, j', x, b'. split; [|done]. split; [|done].
    destruct (decide (n < m)); [done|]. destruct (decide (n = m)); [subst; congruence|].
    destruct (Hno n _ ltac:(lia) Hn) as [_ Hp]. unfold purges_key in Hp. simpl in Hp.
    rewrite bool_decide_true in Hp by done. done. }
  assert (∀ m j v x b, log !! m = Some (Entry j (HPut k v x b) true) → n < m → False) as Hno.
  { induction m as [m IH] using lt_wf_ind. intros j v x b' Hm Hlt.
    assert (i ≠ j) as Hij. { intros ->. by eapply (write_once n m). }
    destruct (put_kind _ _ _ _ _ _ _ Hm) as [Hu|[v' Hg]].
    - apply past_made in Hu as (p & Hpm & Hu).
      destruct (purge_read _ _ _ _ _ Hn) as [v0 Hg0].
      destruct (origin_get _ _ _ _ Hg0) as (n1 & i1 & p1 & v1 & x1 & b1 & Hlt1 & Hn1 & Hu1).
      destruct (uuid_pos _ _ _ _ _ Hf Hu Hu1) as [-> ->]. eapply (write_once n1 m); [done|done|lia|done|done].
    - apply past_made in Hg as (g & Hgm & Hg). destruct Hg as [eff Hg].
      destruct (Hone i j Hij) as [Hb|Hb].
      + pose proof (Hb _ _ _ _ Hn Hg eq_refl eq_refl) as Hng.
        destruct (Hsrc g j v' ltac:(by exists eff) Hng) as (m' & j' & x' & b'' & Hm' & Hl'). eapply (IH m'); [lia|done|lia].
      + pose proof (Hb _ _ _ _ Hm Hn eq_refl eq_refl). lia. }
  intros m j v Hg. destruct (decide (m < n)); [done|]. destruct (decide (m = n)) as [->|Hne].
  { destruct Hg as [eff Hg]. congruence. }
  destruct (Hsrc m j v Hg ltac:(lia)) as (m' & j' & x & b' & ? & Hm'). exfalso. eapply (Hno m'); [done|lia].
Qed.

(** How far a record has come. *)
Definition rank (v : hstate) : nat :=
  match v with
  | HSIssuance i => match hi_status i with SReady => 1 | SPendingPin => 2 | SAccepted => 3 | STokenReceived => 4 | _ => 0 end
  | HSPresentation p => match hp_status p with PRequested => 1 | PAuthorized => 2 | _ => 0 end
  end.
Definition step_rank (s : wstep) : nat :=
  match s with StAccept => 1 | StPin => 2 | StToken => 3 | StConsent => 1 end.
Lemma put_rank n j k v x b eff q : log !! n = Some (Entry j (HPut k v x b) eff) → asked c j q →
  (HX (EUuid k) ∈ past n j ∧ step_on q = None) ∨
  ∃ v', HGet k (Some v') ∈ past n j ∧ rank v' ≤ rank v ∧
    ∀ id s, step_on q = Some (id, s) → k = id ∧ rank v' = step_rank s ∧ rank v' < rank v.
Proof.
  intros Hn Hq'. destruct (say_pos _ Hr _ _ _ _ Hn) as (q0 & Hq & Hs).
  pose proof (asked_inj _ _ _ _ Hq Hq') as ->. clear Hq Hq'.
  assert (∀ id i, HGet id (Some (HSIssuance i)) ∈ past n j → hi_id i = id) as Hid.
  { intros id i Hg. by apply (provenance_get _ Hr) in Hg as [? _]. }
  assert (∀ id p, HGet id (Some (HSPresentation p)) ∈ past n j → hp_id p = id) as Hpid.
  { intros id p Hg. by apply (pprovenance_get _ Hr) in Hg as [? _]. }
  destruct v as [v|v]; destruct Hs as [_ Hs].
  - unfold issuance_put in Hs. destruct q as [cl sb o|id' a|id' p|id'|r|r|id' tx cfg|id'|id'|u|id'|id']; try done.
    + left. by destruct Hs as (? & ? & ? & _).
    + right. destruct Hs as (i & d & E1 & E2 & _ & _ & -> & ->). rewrite (Hid _ _ E1). eexists. split; [done|].
      simpl. rewrite E2. destruct (needs_pin _); simpl; (split; [lia|]); intros id s [= <- <-]; simpl; (split; [done|lia]).
    + right. destruct Hs as (i & E1 & E2 & -> & ->). rewrite (Hid _ _ E1). eexists. split; [done|].
      simpl. rewrite E2. split; [lia|]. intros id s [= <- <-]; simpl; (split; [done|lia]).
    + right. destruct Hs as (i & g & d & tok & E1 & E2 & _ & -> & ->). rewrite (Hid _ _ E1). eexists. split; [done|].
      simpl. rewrite E2. split; [lia|]. intros id s [= <- <-]; simpl; (split; [done|lia]).
    + destruct Hs as (i & vf & g & d & tok & E1 & _ & -> & ->). unfold started in E1. simpl. destruct (hz_initiator r) eqn:Hi.
      * left. by destruct E1 as (id & md & srv & E1 & _ & _ & ->).
      * right. destruct E1 as [E1 [E2 _]]. rewrite (Hid _ _ E1). eexists. split; [done|].
        simpl. rewrite E2. split; [lia|]. intros id s [= <- <-]; simpl; (split; [done|lia]).
    + right. destruct Hs as (i & E1 & E2 & -> & l & d & t & -> & _). rewrite (Hid _ _ E1). eexists. split; [done|]. simpl. rewrite E2. done.
    + right. destruct Hs as (i & E1 & E2 & -> & l & d & t & -> & _). rewrite (Hid _ _ E1). eexists. split; [done|]. simpl. rewrite E2. done.
  - unfold presentation_put in Hs. destruct q as [| | | | | | | | |url|id'|]; try done.
    + left. by destruct Hs as (? & ? & ? & ? & _).
    + right. destruct Hs as (p & E1 & E2 & -> & ->). rewrite (Hpid _ _ E1). eexists. split; [done|].
      simpl. rewrite E2. split; [lia|]. intros id s [= <- <-]; simpl; (split; [done|lia]).
Qed.
(** What is read after a save is at least as far on. *)
Lemma rank_grows n i k v x b : hfresh log → one_at_a_time log → log !! n = Some (Entry i (HPut k v x b) true) →
  ∀ g j v', i ≠ j → n < g → made c g j (HGet k (Some v')) → rank v ≤ rank v'.
Proof.
  intros Hf Hone Hn g. induction g as [g IH] using lt_wf_ind. intros j v' Hij Hlt [eff Hg].
  destruct (get_source _ _ _ _ _ _ _ Hr Hg eq_refl (lookup_empty k)) as (m & [j' e eff'] & x' & b' & Hm & Hlm & Hem & Hf' & Hno).
  simpl in *. subst.
  destruct (decide (m = n)) as [->|Hmn]; [assert (v = v') as -> by congruence; done|].
  assert (n < m) as Hnm.
  { destruct (decide (n < m)); [done|]. destruct (Hno n _ ltac:(lia) Hn) as [Hp _]. unfold puts_key in Hp. simpl in Hp.
    rewrite bool_decide_true in Hp by done. done. }
  assert (i ≠ j') as Hij'. { intros <-. by eapply (write_once n m). }
  destruct (say_pos _ Hr _ _ _ _ Hlm) as (q & Hq & _).
  destruct (put_rank _ _ _ _ _ _ _ _ Hlm Hq) as [[Hu _]|(v0 & Hg0 & Hle & _)].
  - exfalso. apply past_made in Hu as (p & Hpm & Hu).
    assert (∃ p' i1, made c p' i1 (HX (EUuid k)) ∧ ∃ n1 e1 eff1, n1 ≤ n ∧ log !! n1 = Some (Entry i1 e1 eff1) ∧ store_call e1 = true) as (p' & i1 & Hu1 & n1 & e1 & eff1 & Hn1 & Hl1 & Hs1).
    { destruct (put_kind _ _ _ _ _ _ _ Hn) as [Hu'|[v1 Hg1]].
      - apply past_made in Hu' as (p' & _ & Hu'). exists p', i. split; [done|]. eexists n, _, _. split; [done|]. split; [exact Hn|done].
      - destruct (origin_get _ _ _ _ Hg1) as (n1 & i1 & p1 & v2 & x1 & b1 & Hlt1 & Hn1 & Hu1).
        exists p1, i1. split; [done|]. eexists n1, _, _. split; [lia|]. split; [exact Hn1|done]. }
    destruct (uuid_pos _ _ _ _ _ Hf Hu Hu1) as [-> ->]. eapply (write_once n1 m); [done|done|lia|done|done].
  - etrans; [|exact Hle]. apply past_made in Hg0 as (g0 & Hg0m & Hg0). eapply (IH g0); [lia|exact Hij'| |done].
    destruct Hg0 as [eff0 Hg0]. destruct (Hone i j' Hij') as [Hb|Hb].
    + exact (Hb _ _ _ _ Hn Hg0 eq_refl eq_refl).
    + pose proof (Hb _ _ _ _ Hlm Hn eq_refl eq_refl). lia.
Qed.
Lemma step_once n m i j qi qj id s : hfresh log → one_at_a_time log → asked c i qi → asked c j qj →
  step_on qi = Some (id, s) → step_on qj = Some (id, s) → saved c n i id → saved c m j id → i = j.
Proof.
  intros Hf Hone. assert (∀ n m i j qi qj, asked c i qi → asked c j qj →
    step_on qi = Some (id, s) → step_on qj = Some (id, s) → saved c n i id → saved c m j id → n < m → i ≠ j → False) as H.
  { clear n m i j qi qj. intros n m i j qi qj Hqi Hqj Hsi Hsj (v & x & b & Hn) (v' & x' & b' & Hm) Hlt Hij.
    destruct (put_rank _ _ _ _ _ _ _ _ Hn Hqi) as [[_ ?]|(vi & _ & _ & Hvi)]; [congruence|].
    destruct (put_rank _ _ _ _ _ _ _ _ Hm Hqj) as [[_ ?]|(vj & Hgj & _ & Hvj)]; [congruence|].
    destruct (Hvi _ _ Hsi) as (_ & E1 & E2). destruct (Hvj _ _ Hsj) as (_ & E3 & E4).
    apply past_made in Hgj as (g & Hgm & Hg).
    assert (n < g) as Hng.
    { destruct Hg as [eff0 Hg0]. destruct (Hone i j Hij) as [Hb|Hb].
      - exact (Hb _ _ _ _ Hn Hg0 eq_refl eq_refl).
      - pose proof (Hb _ _ _ _ Hm Hn eq_refl eq_refl). lia. }
    pose proof (rank_grows _ _ _ _ _ _ Hf Hone Hn _ _ _ Hij Hng Hg). lia. }
  intros Hqi Hqj Hsi Hsj Hi Hj. destruct (decide (i = j)) as [->|Hij]; [done|].
  destruct (decide (n < m)); [exfalso; by eapply (H n m i j)|]. destruct (decide (n = m)) as [->|].
  - destruct Hi as (? & ? & ? & E1). destruct Hj as (? & ? & ? & E2). congruence.
  - exfalso. eapply (H m n j i); try done. lia.
Qed.
End serial.
