(** Facts about the checks of requested claims. *)
From Verif Require Import Base Json CoreModel VcModel Prog ExecSpec IssuerTypes ClaimsModel
  Sha256 IssuerModel IssuerSpec IssuerFacts IssuerToken AuthorizeSpec.

Fixpoint claim_ind' (P : claim → Prop) (He : ∀ m, P (CEntry m))
    (Hs : ∀ l, Forall (λ p : string * claim, P p.2) l → P (CSet l)) (c : claim) : P c :=
  match c with
  | CEntry m => He m
  | CSet l => Hs l ((fix go l := match l return Forall (λ p : string * claim, P p.2) l with
                                 | [] => Forall_nil_2 _
                                 | p :: r => Forall_cons_2 _ p r (claim_ind' P He Hs p.2) (go r)
                                 end) l)
  end.

Lemma claim_required_set l req :
  claim_required (CSet l) req =
    match default (CSet []) req with
    | CSet rq => claims_required rq l
    | CEntry _ => false
    end.
Proof.
  simpl. destruct (default (CSet []) req) as [m|rq]; [done|]. unfold claims_required.
  induction l as [|[k c] l IH]; simpl; [done|]. by rewrite IH.
Qed.

Lemma claim_at_cons cs k p c :
  claim_at cs (k :: p) c ↔
    (p = [] ∧ (k, c) ∈ cs) ∨ (∃ l, (k, CSet l) ∈ cs ∧ claim_at l p c).
Proof.
  split.
  - inversion 1; subst; eauto.
  - intros [[-> H]|(l & H1 & H2)]; [by constructor|by econstructor].
Qed.
Lemma claim_at_nil cs c : ¬ claim_at cs [] c.
Proof. inversion 1. Qed.

(** The claims below one claim. *)
Definition complete_below (sup : claim) (req : option claim) : Prop :=
  match sup with
  | CEntry m => m = Some true → is_Some req
  | CSet l => (∀ m, req ≠ Some (CEntry m)) ∧
      claims_complete l (match req with Some (CSet rq) => rq | _ => [] end)
  end.

Lemma claim_lookup_nil p : claim_lookup [] p = None.
Proof. by destruct p as [|k [|]]. Qed.

Lemma claims_complete_forall sup req :
  claims_complete sup req ↔ ∀ k c, (k, c) ∈ sup → complete_below c (assoc k req).
Proof.
  split.
  - intros [Hm Hs] k c Hin. destruct c as [m|l]; simpl.
    + intros ->. apply (Hm [k]). by constructor.
    + split; [intros m; apply (Hs [k] l m); by constructor|]. split.
      * intros p Hp. specialize (Hm (k :: p) ltac:(by econstructor)).
        destruct p as [|k' p]; [by apply claim_at_nil in Hp|]. simpl in Hm.
        destruct (assoc k req) as [[]|]; try done; by destruct Hm.
      * intros p l' m Hp. specialize (Hs (k :: p) l' m ltac:(by econstructor)).
        destruct p as [|k' p]; [by apply claim_at_nil in Hp|]. simpl in Hs.
        destruct (assoc k req) as [[]|]; try done; by rewrite claim_lookup_nil.
  - intros H. split.
    + intros [|k p] Hp; [by apply claim_at_nil in Hp|].
      apply claim_at_cons in Hp as [[-> Hin]|(l & Hin & Hp)].
      * by apply (H k _ Hin).
      * destruct (H k _ Hin) as [Hne [Hm _]]. specialize (Hm p Hp).
        destruct p as [|k' p]; [by apply claim_at_nil in Hp|]. simpl.
        destruct (assoc k req) as [[m|rq]|]; [by destruct (Hne m)|done|].
        rewrite claim_lookup_nil in Hm. by destruct Hm.
    + intros [|k p] l m Hp; [by apply claim_at_nil in Hp|].
      apply claim_at_cons in Hp as [[-> Hin]|(l' & Hin & Hp)].
      * by apply (H k _ Hin).
      * destruct (H k _ Hin) as [Hne [_ Hs]]. specialize (Hs p l m Hp).
        destruct p as [|k' p]; [by apply claim_at_nil in Hp|]. simpl.
        by destruct (assoc k req) as [[m'|rq]|].
Qed.

Lemma claim_required_spec sup req : claim_required sup req = true ↔ complete_below sup req.
Proof.
  revert req. induction sup as [m|l IH] using claim_ind'; intros req.
  - simpl. destruct req as [c|]; simpl.
    + rewrite andb_false_r. split; [by eexists|done].
    + rewrite andb_true_r. destruct m as [[]|]; simpl; split; try done.
      intros H. by destruct (H eq_refl).
  - rewrite claim_required_set. simpl.
    assert (∀ rq, claims_required rq l = true ↔ claims_complete l rq) as Hl.
    { intros rq. unfold claims_required. rewrite forallb_elem, claims_complete_forall.
      rewrite Forall_forall in IH. split.
      - intros H k c Hin. apply (IH (k, c) Hin), (H (k, c) Hin).
      - intros H [k c] Hin. apply (IH (k, c) Hin), (H k c Hin). }
    destruct req as [[m|rq]|]; simpl.
    + split; [done|]. intros [Hne _]. by destruct (Hne m).
    + rewrite Hl. split; [|by intros [_ ?]]. done.
    + rewrite Hl. split; [|by intros [_ ?]]. done.
Qed.

Lemma claims_required_spec sup req : claims_required req sup = true ↔ claims_complete sup req.
Proof.
  unfold claims_required. rewrite forallb_elem, claims_complete_forall. split.
  - intros H k c Hin. by apply claim_required_spec, (H (k, c) Hin).
  - intros H [k c] Hin. by apply claim_required_spec, (H k c Hin).
Qed.

Lemma verify_claims_spec cfg cs :
  verify_claims cfg cs = true ↔
  ∀ sup, format_claims (cc_format cfg) = Some sup → claims_complete sup cs.
Proof.
  unfold verify_claims. destruct (format_claims (cc_format cfg)) as [sup|].
  - rewrite claims_required_spec. split; [by intros H ? [= <-]|]. intros H. by apply H.
  - done.
Qed.

(** ** Requested credentials *)

Lemma find_configuration_spec f l id :
  find_configuration f l = Some id ↔ ∃ l1 cfg l2, l = l1 ++ (id, cfg) :: l2 ∧
      same_format (cc_format cfg) f ∧ ∀ p, p ∈ l1 → ¬ same_format (cc_format p.2) f.
Proof.
  induction l as [|[i c] l IH]; simpl.
  - split; [done|]. intros ([] & ? & ? & ? & _); done.
  - destruct (format_eqb (cc_format c) f) eqn:E.
    + apply format_eqb_spec in E. split.
      * intros [= <-]. exists [], c, l. split_and!; try done. by intros ? ?%elem_of_nil.
      * intros (l1 & cfg & l2 & Heq & Hf & Hn). destruct l1 as [|p l1]; simplify_eq/=; [done|].
        by destruct (Hn (i, c) ltac:(left)).
    + assert (¬ same_format (cc_format c) f). { by rewrite <-format_eqb_spec, E. }
      rewrite IH. split.
      * intros (l1 & cfg & l2 & -> & Hf & Hn). exists ((i, c) :: l1), cfg, l2. split_and!; try done.
        intros p [->|Hp]%elem_of_cons; auto.
      * intros (l1 & cfg & l2 & Heq & Hf & Hn). destruct l1 as [|p l1]; simplify_eq/=; [done|].
        exists l1, cfg, l2. split_and!; try done. intros p Hp. apply Hn. by right.
Qed.

Lemma requested_credential_spec iss d id claims :
  requested_credential iss (ad_credential d) = Some (id, claims) ↔
  configured iss d id ∧ claims = narrowed d.
Proof.
  unfold requested_credential, configured, narrowed. destruct (ad_credential d) as [id' p|f].
  - split.
    + intros [= <- <-]. split; [done|]. by destruct p as [[]|].
    + intros [-> ->]. by destruct p as [[]|].
  - unfold configuration_id_for. rewrite <-find_configuration_spec.
    destruct (find_configuration f (is_configurations iss)) as [i|]; simpl; (split; [|by intros [[= ->] ->]; destruct f]); [|done].
    intros [= <- <-]. split; [done|]. by destruct f.
Qed.
Lemma requested_credential_none iss d :
  requested_credential iss (ad_credential d) = None → ∀ id, ¬ configured iss d id.
Proof.
  intros H id Hc. assert (requested_credential iss (ad_credential d) = Some (id, narrowed d)) as H'.
  { by apply requested_credential_spec. } by rewrite H in H'.
Qed.
Lemma configured_inj iss d id id' : configured iss d id → configured iss d id' → id = id'.
Proof.
  intros H1 H2. assert (requested_credential iss (ad_credential d) = Some (id, narrowed d)) as H.
  { by apply requested_credential_spec. }
  assert (requested_credential iss (ad_credential d) = Some (id', narrowed d)) as H'.
  { by apply requested_credential_spec. } congruence.
Qed.

Lemma details_checked_spec iss d id :
  details_checked iss d id ↔ configured iss d id ∧
    ∀ cs, narrowed d = Some cs → ∃ cfg, assoc id (is_configurations iss) = Some cfg ∧
      ∀ sup, format_claims (cc_format cfg) = Some sup → claims_complete sup cs.
Proof.
  unfold details_checked. split.
  - intros (claims & [H ->]%requested_credential_spec & Hc). split; [done|]. intros cs Hcs.
    destruct (Hc cs Hcs) as (cfg & Ha & Hv). exists cfg. split; [done|]. by apply verify_claims_spec.
  - intros [H Hc]. exists (narrowed d). split; [by apply requested_credential_spec|]. intros cs Hcs.
    destruct (Hc cs Hcs) as (cfg & Ha & Hv). exists cfg. split; [done|]. by apply verify_claims_spec.
Qed.

(** The table of the details. *)
Lemma details_table (ids : list string) (l : list authorization_detail) acc :
  let m := foldl (λ m p, ainsert p.1 p.2 m) acc (zip ids l) in
  (NoDup (keys acc) → NoDup (keys m)) ∧
  (length ids = length l → ∀ id, id ∈ keys m ↔ id ∈ keys acc ∨ id ∈ ids) ∧
  (∀ id d, (id, d) ∈ m → (id, d) ∈ acc ∨ (id, d) ∈ zip ids l).
Proof.
  revert l acc. induction ids as [|i ids IH]; intros l acc; simpl.
  { split; [done|]. split; [set_solver|]. auto. }
  destruct l as [|d l]; simpl. { split; [done|]. split; [done|]. auto. }
  destruct (IH l (ainsert i d acc)) as (H1 & H2 & H3). split; [|split].
  - intros Hn. by apply H1, nodup_ainsert.
  - intros [= Hl] id. rewrite (H2 Hl), keys_ainsert, elem_of_cons. tauto.
  - intros id d' Hin. apply H3 in Hin as [Hin|Hin]; [|right; by right].
    assert (∀ m : list (string * authorization_detail), (id, d') ∈ ainsert i d m → (id, d') ∈ m ∨ (id, d') = (i, d)) as Hm.
    { clear. induction m as [|[k a] m IHm]; simpl.
      - rewrite elem_of_list_singleton. auto.
      - case_bool_decide; rewrite !elem_of_cons; intros [?|?]; subst; auto. destruct IHm; auto. }
    destruct (Hm _ Hin) as [| ->]; [by left|]. right. left.
Qed.

Lemma scope_configurations_elem item dets l id it :
  (id, it) ∈ scope_configurations item dets l ↔
  it = item ∧ ∃ cfg, (id, cfg) ∈ l ∧ id ∉ keys dets ∧ cc_scope cfg = Some item.
Proof.
  induction l as [|[i c] l IH]; simpl.
  - split; [by intros ?%elem_of_nil|]. intros (_ & ? & ?%elem_of_nil & _). done.
  - destruct (has_key i dets) eqn:E.
    + apply has_key_keys in E. rewrite IH. split; intros (-> & cfg & Hin & ?).
      * split; [done|]. exists cfg. split; [by right|done].
      * split; [done|]. apply elem_of_cons in Hin as [[= -> ->]|Hin]; [naive_solver|eauto].
    + assert (i ∉ keys dets). { by rewrite <-has_key_keys, E. } case_bool_decide as Hs.
      * rewrite elem_of_cons, IH. split.
        -- intros [[= -> ->]|(-> & cfg & Hin & ?)]; (split; [done|]); [exists c|exists cfg];
             (split; [set_solver|done]).
        -- intros (-> & cfg & [[= -> ->]|Hin]%elem_of_cons & ?); [by left|right; eauto].
      * rewrite IH. split; intros (-> & cfg & Hin & ? & ?).
        -- split; [done|]. exists cfg. split; [by right|done].
        -- split; [done|]. apply elem_of_cons in Hin as [[= -> ->]|Hin]; [done|eauto].
Qed.
Lemma scope_configurations_nodup item dets l :
  NoDup (keys l) → NoDup (keys (scope_configurations item dets l)).
Proof.
  induction l as [|[i c] l IH]; simpl; [done|]. rewrite NoDup_cons. intros [Hi Hn].
  destruct (has_key i dets); [auto|]. case_bool_decide; [|auto]. simpl. apply NoDup_cons.
  split; [|auto]. intros Hin. apply Hi. unfold keys in *. apply elem_of_list_fmap in Hin as ([k v] & -> & Hin).
  apply scope_configurations_elem in Hin as (_ & cfg & Hin & _). apply elem_of_list_fmap. by exists (k, cfg).
Qed.
