(** Paths of the verifier's endpoints. *)
From Verif Require Import Base Json CoreModel VcModel Prog ProgFacts IssuerTypes MatcherModel MatcherSpec
  MatcherFacts VerifierModel VerifierSpec.

Global Arguments bind : simpl never.
Global Arguments runs : simpl never.
Global Arguments wp : simpl never.
Global Arguments ok : simpl never.
Global Arguments fail : simpl never.
Global Arguments panic : simpl never.
Global Arguments ensure : simpl never.
Global Arguments of_opt : simpl never.

Section prim.
Context {S : sig}.
Lemma any_ok {E A} (a : A) (es : list (event S)) (o : outcome E A) : runs (ok a) es o → es = [] ∧ o = Ok a.
Proof. unfold ok. rewrite runs_ret. naive_solver. Qed.
Lemma any_fail {E A} (e : E) (es : list (event S)) (o : outcome E A) : runs (fail e) es o → es = [] ∧ o = Err e.
Proof. unfold fail. rewrite runs_ret. naive_solver. Qed.
Lemma any_panic {E A} w (es : list (event S)) (o : outcome E A) : runs (panic w) es o → es = [] ∧ o = Panic w.
Proof. unfold panic. rewrite runs_ret. naive_solver. Qed.
Lemma any_ensure {E} b (e : E) (es : list (event S)) o :
  runs (ensure b e) es o → es = [] ∧ (b = true ∧ o = Ok tt ∨ b = false ∧ o = Err e).
Proof. unfold ensure. destruct b; [intros H%any_ok|intros H%any_fail]; naive_solver. Qed.
Lemma any_of_opt {E A} (x : option A) (e : E) (es : list (event S)) o :
  runs (of_opt x e) es o → es = [] ∧ ((∃ a, x = Some a ∧ o = Ok a) ∨ x = None ∧ o = Err e).
Proof. unfold of_opt. destruct x; [intros H%any_ok|intros H%any_fail]; naive_solver. Qed.
End prim.

Lemma any_ycall x es o : runs (ycall x) es o → ∃ r, es = [Y (vmk x r)] ∧ o = Ok r.
Proof.
  unfold ycall, ext, runs. destruct es as [|e es]; [done|]. intros (r & -> & H).
  exists r. destruct es; simpl in H; [|done]. split; [done|]. by injection H.
Qed.
Lemma any_vget k es o : runs (vget k) es o → ∃ r, es = [VGet k r] ∧ o = Ok r.
Proof.
  unfold vget, get, runs. destruct es as [|e es]; [done|]. intros (r & -> & H).
  exists r. destruct es; simpl in H; [|done]. split; [done|]. by injection H.
Qed.
Lemma any_vput k v x e es o :
  runs (vput k v x e) es o → ∃ b : bool, es = [VPut k v x b] ∧ o = if b then Ok tt else Err e.
Proof.
  unfold vput, put, runs. destruct es as [|e' es]; [done|]. intros (r & -> & H).
  exists r. destruct r, es; simpl in H; try done; (split; [reflexivity|by injection H]).
Qed.
Lemma any_vpurge k e es o :
  runs (vpurge k e) es o → ∃ b : bool, es = [VPurge k b] ∧ o = if b then Ok tt else Err e.
Proof.
  unfold vpurge, purge, runs. destruct es as [|e' es]; [done|]. intros (r & -> & H).
  exists r. destruct r, es; simpl in H; try done; (split; [reflexivity|by injection H]).
Qed.

(** Peel the first statement off the run [H]; the first goal is the one where it went well. *)
Tactic Notation "vseq" hyp(H) "as" ident(a) ident(Hm) :=
  let es1 := fresh "es" in let es2 := fresh "es" in let e := fresh "e" in let w := fresh "w" in
  apply runs_bind in H as [(es1 & es2 & a & -> & Hm & H)|[(e & Hm & H)|(w & Hm & H)]];
  lazymatch type of Hm with
  | runs (ok _) _ _ => let Ho := fresh "Ho" in apply any_ok in Hm as [? Ho]; try discriminate Ho; subst; try (injection Ho as Hm)
  | runs (fail _) _ _ => let Ho := fresh "Ho" in apply any_fail in Hm as [? Ho]; try discriminate Ho; subst
  | runs (panic _) _ _ => let Ho := fresh "Ho" in apply any_panic in Hm as [? Ho]; try discriminate Ho; subst
  | runs (ensure _ _) _ _ =>
      let Ho := fresh "Ho" in apply any_ensure in Hm as [? [[Hm Ho]|[Hm Ho]]]; try discriminate Ho; try (injection Ho as Ho); subst
  | runs (of_opt _ _) _ _ =>
      let Ho := fresh "Ho" in let x := fresh "x" in
      apply any_of_opt in Hm as [? [(x & Hm & Ho)|[Hm Ho]]]; try discriminate Ho; try (injection Ho as Ho; try subst x); subst
  | runs (ycall ?y) ?es ?o =>
      let Ho := fresh "Ho" in let x := fresh "x" in
      apply (any_ycall y es o) in Hm as (x & Hm & Ho); try discriminate Ho; try (injection Ho as Ho; subst x); subst; cbn [vmk] in *
  | runs (vget _) _ _ =>
      let Ho := fresh "Ho" in let x := fresh "x" in
      apply any_vget in Hm as (x & Hm & Ho); try discriminate Ho; try (injection Ho as Ho; subst x); subst
  | runs (vput _ _ _ _) _ _ =>
      let Ho := fresh "Ho" in let x := fresh "x" in
      apply any_vput in Hm as (x & Hm & Ho); destruct x; try discriminate Ho; try (injection Ho as Ho); subst
  | runs (vpurge _ _) _ _ =>
      let Ho := fresh "Ho" in let x := fresh "x" in
      apply any_vpurge in Hm as (x & Hm & Ho); destruct x; try discriminate Ho; try (injection Ho as Ho); subst
  | _ => idtac
  end.

(** ** What a request may see *)

Lemma as_in_sub su es es' : as_in su es → es' ⊆ es → as_in su es'.
Proof. intros (H1 & H2 & H3) Hs. repeat split; intros; naive_solver. Qed.
Lemma as_in_app su es1 es2 : as_in su (es1 ++ es2) → as_in su es1 ∧ as_in su es2.
Proof. intros H. split; eapply as_in_sub; try done; set_solver. Qed.

(** A request only looks at the world: no store calls. *)
Definition quiet (es : list vevent) : Prop := ∀ e, e ∈ es → ∃ x, e = Y x.
Lemma quiet_nil : quiet [].
Proof. intros e H. by apply elem_of_nil in H. Qed.
Lemma quiet_cons x es : quiet es → quiet (Y x :: es).
Proof. intros H e [->|He]%elem_of_cons; [eauto|by apply H]. Qed.
Lemma quiet_app es1 es2 : quiet es1 → quiet es2 → quiet (es1 ++ es2).
Proof. intros H1 H2 e [He|He]%elem_of_app; auto. Qed.

Lemma presents_mono su su' n v p :
  (∀ j s, su_vp su j s → su_vp su' j s) → presents su n v p → presents su' n v p.
Proof. intros H. destruct v; simpl; naive_solver. Qed.

(** ** verify_vps *)

Lemma verify_vp_any v es o :
  runs (verify_vp v) es o → quiet es ∧
  ((∃ p n, o = Ok (Some (p, n)) ∧ presents (seen es) n v p) ∨
   (o = Ok None ∧ match v with
                  | KString jwt => Y (WDecodeVp jwt None) ∈ es
                  | KObject p => ¬ ∃ pr, vp_proof p = Some (QOne pr)
                  end)).
Proof.
  destruct v as [jwt|p]; simpl.
  - intros H. vseq H as r Hm. apply any_ok in H as [-> ->]. split.
    + apply quiet_cons, quiet_nil.
    + destruct r as [s|]; [left|right].
      * eexists _, _. split; [done|]. exists s. split; [by left|done].
      * split; [done|]. by left.
  - intros H. destruct (vp_proof p) as [[pr|l]|] eqn:Hp; apply any_ok in H as [-> ->];
      (split; [apply quiet_nil|]); [left|right; split; [done|naive_solver]..].
    eexists _, _. split; [done|]. split; [done|]. eauto.
Qed.

Lemma verify_vps_any n l es o :
  runs (verify_vps n l) es o → quiet es ∧
  ((∃ vps, o = Ok vps ∧ Forall2 (presents (seen es) n) l vps) ∨
   ((∃ e, o = Err e) ∧ ∀ su, as_in su es → ¬ ∃ vps, Forall2 (presents su n) l vps)).
Proof.
  revert es o. induction l as [|v l IH]; intros es o H; simpl in H.
  - apply any_ok in H as [-> ->]. split; [apply quiet_nil|]. left. exists []. auto.
  - vseq H as r Hm.
    2, 3: by apply verify_vp_any in Hm as [_ [(? & ? & [=] & _)|[[=] _]]].
    apply verify_vp_any in Hm as [Hq [(p & m & [= ->] & Hp)|[[= ->] Hv]]].
    + vseq H as r' Hm; [|done..]. injection Hm as <-. simpl in *. vseq H as u Hm.
      * apply bool_decide_eq_true in Hm as ->. vseq H as vs Hm.
        -- apply any_ok in H as [-> ->]. apply IH in Hm as [Hq' [(vps & [= ->] & Hf)|[[e [=]] _]]].
           rewrite app_nil_r. split; [by apply quiet_app|]. left. eexists. split; [done|]. constructor.
           ++ eapply presents_mono; [|done]. simpl. intros ? ? ?. apply elem_of_app. auto.
           ++ eapply Forall2_impl; [done|]. intros ? ?. apply presents_mono. simpl. intros ? ? ?.
              apply elem_of_app. auto.
        -- subst o. apply IH in Hm as [Hq' [(vps & [=] & Hf)|[[e' [= ->]] Hno]]].
           split; [by apply quiet_app|]. right. split; [eauto|].
           intros su Hsu (vps & Hf). apply Forall2_cons_inv_l in Hf as (p' & vps' & _ & Hf & _).
           apply as_in_app in Hsu as [_ Hsu]. apply (Hno su Hsu). eauto.
        -- by apply IH in Hm as [_ [(? & [=] & _)|[[? [=]] _]]].
      * apply bool_decide_eq_false in Hm. rewrite app_nil_r. split; [done|]. right. split; [eauto|].
        intros su (Hsu & _) (vps & Hf). apply Forall2_cons_inv_l in Hf as (p' & vps' & Hp' & _ & _).
        destruct v as [jwt|v]; simpl in Hp, Hp'.
        -- destruct Hp as (s & Hin & <- & <-). destruct Hp' as (s' & Hs' & <- & Hn).
           apply (Hsu _ _ Hin) in Hs' as [= <-]. done.
        -- destruct Hp as (-> & pr & Hpr & <-). destruct Hp' as (-> & pr' & Hpr' & Hn). congruence.
    + vseq H as r' Hm; [done|]. rewrite app_nil_r. split; [done|]. right. split; [eauto|].
      intros su (Hsu & _) (vps & Hf). apply Forall2_cons_inv_l in Hf as (p' & vps' & Hp' & _ & _).
      destruct v as [jwt|v]; simpl in Hp'.
      * destruct Hp' as (s & Hs & _). by apply (Hsu _ _ Hv) in Hs.
      * destruct Hp' as (-> & pr' & Hpr' & Hn). eauto.
Qed.

(** ** Descriptors *)

Lemma find_mapping_some l d m : find_mapping (id_id d) l = Some m ↔ mapped l d m.
Proof.
  unfold mapped. induction l as [|m0 l IH]; simpl.
  - split; [done|]. intros (l1 & l2 & H & _). by destruct l1.
  - case_bool_decide as Hd.
    + split.
      * intros [= ->]. exists [], l. split; [done|]. split; [done|]. intros m' H. by apply elem_of_nil in H.
      * intros (l1 & l2 & H & _ & Hn). destruct l1 as [|m1 l1]; simpl in H; [congruence|].
        injection H as -> _. exfalso. apply (Hn m1); [by left|done].
    + rewrite IH. split.
      * intros (l1 & l2 & -> & H & Hn). exists (m0 :: l1), l2. split; [done|]. split; [done|].
        intros m' [->|Hm]%elem_of_cons; auto.
      * intros (l1 & l2 & H & Hm & Hn). destruct l1 as [|m1 l1]; simpl in H; injection H as -> ->; [done|].
        exists l1, l2. split; [done|]. split; [done|]. intros m' Hm'. apply Hn. by right.
Qed.
Lemma mapped_none l d : find_mapping (id_id d) l = None → ¬ ∃ m, mapped l d m.
Proof. intros H (m & Hm). apply find_mapping_some in Hm. congruence. Qed.

Lemma vps_json_document lb vps doc : document lb vps doc ↔ doc = vps_json lb vps.
Proof.
  unfold document. destruct vps as [|v [|v' vps]]; simpl.
  - split; [intros [(? & [=] & _)|[_ ?]]; done|]. intros ->. right. done.
  - split; [intros [(? & [= <-] & ?)|[? _]]; done|]. intros ->. left. eauto.
  - split; [intros [(? & [=] & _)|[_ ?]]; done|]. intros ->. right. done.
Qed.

Lemma has_key_keys {A} k (l : list (string * A)) : has_key k l = true ↔ k ∈ keys l.
Proof.
  unfold has_key, keys. induction l as [|[k' v] l IH]; simpl.
  - split; [done|]. by intros ?%elem_of_nil.
  - rewrite elem_of_cons. case_bool_decide; [naive_solver|]. rewrite IH. naive_solver.
Qed.

Lemma satisfied_fulfils eng c s : satisfied eng c (sv_json s) = Ok true ↔ fulfils eng c s.
Proof.
  unfold fulfils. destruct (sv_json s) as [j|].
  - rewrite satisfied_true. split.
    + intros [H1 H2]. right. exists j. auto.
    + intros [Hn|(j' & [= <-] & H)]; [|done]. split; unfold meets; intros; congruence.
  - unfold satisfied. destruct (cn_fields c) as [fs|].
    + split; [done|]. intros [?|(? & [=] & _)]. done.
    + split; auto.
Qed.

Lemma answers_mono lb su su' doc subm d token s :
  (∀ j s, su_vc su j s → su_vc su' j s) → (∀ t, su_clock su t → su_clock su' t) →
  answers lb su doc subm d token s → answers lb su' doc subm d token s.
Proof.
  intros H1 H2 (m & ? & ? & ? & ? & ? & Hc). exists m. do 3 (split; [done|]). split; [auto|].
  split; [done|]. intros exp He. destruct (Hc exp He) as (t & ? & ?). eauto.
Qed.

Lemma verify_vc_any node es o :
  runs (verify_vc node) es o → quiet es ∧
  ((∃ token s, node = JStr token ∧ o = Ok s ∧ es = [Y (WDecodeVc token (Some s))]) ∨
   ((∃ e, o = Err e) ∧ ∀ token, node = JStr token → Y (WDecodeVc token None) ∈ es)).
Proof.
  destruct node as [|b|t|token|l|m]; simpl; intros H.
  1, 2, 3, 5: apply any_fail in H as [-> ->]; (split; [apply quiet_nil|]); right; split; [eauto|done].
  - vseq H as r Hm. apply any_of_opt in H as [-> H].
    destruct H as [(s & -> & ->)|[-> ->]]; (split; [apply quiet_cons, quiet_nil|]).
    + left. eauto 6.
    + right. split; [eauto|]. intros ? [= <-]. by left.
  - vseq H as b Hm. vseq H as u Hm.
    + apply any_fail in H as [-> ->]. split; [apply quiet_cons, quiet_nil|]. right. split; [eauto|done].
    + split; [apply quiet_cons, quiet_nil|]. right. split; [eauto|done].
Qed.

Lemma verify_descriptor_any lb vps subm d es o :
  let doc := vps_json lb vps in
  runs (verify_descriptor lb doc (pb_descriptor_map subm) d) es o → quiet es ∧
  ((o = Ok tt ∧ ∃ token s, answers lb (seen es) doc subm d token s) ∨
   (o ≠ Ok tt ∧ ∀ su, as_in su es → ¬ ∃ token s, answers lb su doc subm d token s)).
Proof.
  intros doc H. unfold verify_descriptor in H.
  vseq H as m Hm.
  2: { split; [apply quiet_nil|]. right. split; [done|]. intros su _ (token & s & m & Hm' & _).
       apply (mapped_none _ _ Hm). eauto. }
  apply find_mapping_some in Hm as Hmap. vseq H as u Hf.
  2: { split; [apply quiet_nil|]. right. split; [done|]. intros su _ (token & s & m' & Hm' & Hfmt & _).
       apply find_mapping_some in Hm'. simplify_eq. destruct (id_format d) as [fmt|]; [|done].
       specialize (Hfmt fmt eq_refl). apply has_key_keys in Hfmt. congruence. }
  vseq H as nodes Hq.
  2: { split; [apply quiet_nil|]. right. split; [done|]. intros su _ (token & s & m' & Hm' & _ & Hpath & _).
       apply find_mapping_some in Hm'. simplify_eq. }
  vseq H as node Hn.
  2: { split; [apply quiet_nil|]. right. split; [done|]. intros su _ (token & s & m' & Hm' & _ & Hpath & _).
       apply find_mapping_some in Hm'. simplify_eq. }
  assert (nodes = [node]) as -> by (destruct nodes as [|? [|]]; naive_solver). clear Hn.
  vseq H as s Hv.
  2, 3: apply verify_vc_any in Hv as [Hquiet [(? & ? & _ & [=] & _)|[[e' He] Hno]]]; try discriminate He;
    subst o; (split; [done|]); right; (split; [done|]);
    intros su (_ & Hsu & _) (token & s & m' & Hm' & _ & Hpath & Hvc & _);
    apply find_mapping_some in Hm'; simplify_eq; specialize (Hno _ eq_refl);
    apply (Hsu _ _ Hno) in Hvc; done.
  apply verify_vc_any in Hv as [Hquiet [(token & s' & -> & [= <-] & ->)|[[? [=]] _]]].
  (* whoever answers is [s] *)
  assert (∀ su es, Y (WDecodeVc token (Some s)) ∈ es → as_in su es → ∀ t' s', answers lb su doc subm d t' s' → t' = token ∧ s' = s) as Huniq.
  { intros su es' Hin (_ & Hsu & _) t' s' (m' & Hm' & _ & Hpath & Hvc & _). apply find_mapping_some in Hm'.
    simplify_eq. split; [done|]. apply (Hsu _ _ Hin) in Hvc. congruence. }
  destruct (satisfied (lb_engine lb) (id_constraints d) (sv_json s)) as [[]|e|w] eqn:Hs.
  - vseq H as b Hb. subst b. vseq H as u' Hm'; [|done]. apply satisfied_fulfils in Hs.
    destruct (vc_valid_until (vcc_vc (sv_claims s))) as [exp|] eqn:Hexp.
    + vseq H as t Ht. apply any_ensure in H as [-> H]. split; [apply quiet_cons, quiet_cons, quiet_nil|].
      destruct H as [[H ->]|[H ->]].
      * left. split; [done|]. exists token, s, m. split; [done|]. split.
        { intros fmt Hfmt. rewrite Hfmt in Hf. by apply has_key_keys. }
        split; [done|]. split; [by left|]. split; [done|]. intros exp' ?. simplify_eq. exists t.
        split; [by right; left|]. apply negb_true_iff, Z.ltb_ge in H. done.
      * right. split; [done|]. intros su Hsu (t' & s' & Ha).
        destruct (Huniq su _ ltac:(by left) Hsu _ _ Ha) as [-> ->].
        destruct Ha as (m' & _ & _ & _ & _ & _ & Hc). destruct (Hc _ Hexp) as (t' & Ht' & Hle).
        destruct Hsu as (_ & _ & Hck). apply (Hck t) in Ht' as ->; [|by right; left].
        apply negb_false_iff, Z.ltb_lt in H. lia.
    + apply any_ok in H as [-> ->]. split; [apply quiet_cons, quiet_nil|]. left. split; [done|].
      exists token, s, m. split; [done|]. split.
      { intros fmt Hfmt. rewrite Hfmt in Hf. by apply has_key_keys. }
      split; [done|]. split; [by left|]. split; [done|]. intros exp' ?. congruence.
  - vseq H as b Hb. subst b. vseq H as u' Hm'; [done|]. split; [done|]. right. split; [done|].
    intros su Hsu (t' & s' & Ha). destruct (Huniq su _ ltac:(by left) Hsu _ _ Ha) as [-> ->].
    destruct Ha as (m' & _ & _ & _ & _ & Hful & _). apply satisfied_fulfils in Hful. congruence.
  - vseq H as b Hb. split; [done|]. right. split; [done|].
    intros su Hsu (t' & s' & Ha). destruct (Huniq su _ ltac:(by left) Hsu _ _ Ha) as [-> ->].
    destruct Ha as (m' & _ & _ & _ & _ & Hful & _). apply satisfied_fulfils in Hful. congruence.
  - vseq H as b Hb. split; [done|]. right. split; [done|].
    intros su Hsu (t' & s' & Ha). destruct (Huniq su _ ltac:(by left) Hsu _ _ Ha) as [-> ->].
    destruct Ha as (m' & _ & _ & _ & _ & Hful & _). apply satisfied_fulfils in Hful. congruence.
Qed.

Lemma verify_descriptors_any lb vps subm l es o :
  let doc := vps_json lb vps in
  runs (verify_descriptors lb doc (pb_descriptor_map subm) l) es o → quiet es ∧
  ((o = Ok tt ∧ ∀ d, d ∈ l → ∃ token s, answers lb (seen es) doc subm d token s) ∨
   (o ≠ Ok tt ∧ ∀ su, as_in su es → ¬ ∀ d, d ∈ l → ∃ token s, answers lb su doc subm d token s)).
Proof.
  intros doc. revert es o. induction l as [|d l IH]; intros es o H; simpl in H.
  - apply any_ok in H as [-> ->]. split; [apply quiet_nil|]. left. split; [done|].
    intros d Hd. by apply elem_of_nil in Hd.
  - vseq H as u Hm.
    + apply verify_descriptor_any in Hm as [Hq [[_ (token & s & Ha)]|[Hne _]]]; [|by destruct u].
      apply IH in H as [Hq' [[-> H]|[Hne H]]]; (split; [by apply quiet_app|]); [left|right].
      * split; [done|]. intros d' [->|Hd]%elem_of_cons.
        -- exists token, s. eapply answers_mono; [| |done]; simpl; intros; apply elem_of_app; auto.
        -- destruct (H d' Hd) as (token' & s' & Ha'). exists token', s'.
           eapply answers_mono; [| |done]; simpl; intros; apply elem_of_app; auto.
      * split; [done|]. intros su Hsu Hall. apply as_in_app in Hsu as [_ Hsu]. apply (H su Hsu).
        intros d' Hd. apply Hall. by right.
    + apply verify_descriptor_any in Hm as [Hq [[[=] _]|[_ Hno]]]. subst o. split; [done|]. right.
      split; [done|]. intros su Hsu Hall. apply (Hno su Hsu), Hall. by left.
    + apply verify_descriptor_any in Hm as [Hq [[[=] _]|[_ Hno]]]. subst o. split; [done|]. right.
      split; [done|]. intros su Hsu Hall. apply (Hno su Hsu), Hall. by left.
Qed.

(** ** response *)

Lemma presents_unique su es n l vps vps' :
  as_in su es → Forall2 (presents (seen es) n) l vps → Forall2 (presents su n) l vps' → vps' = vps.
Proof.
  intros Hsu Hf. revert vps'. induction Hf as [|v p l vps Hp Hf IH]; intros vps' Hf'.
  - by apply Forall2_nil_inv_l in Hf'.
  - apply Forall2_cons_inv_l in Hf' as (p' & vps'' & Hp' & Hf' & ->). f_equal; [|by apply IH].
    destruct v as [jwt|v]; simpl in *.
    + destruct Hp as (s & Hin & <- & _). destruct Hp' as (s' & Hs' & <- & _).
      apply (proj1 Hsu _ _ Hin) in Hs' as [= <-]. done.
    + destruct Hp as [-> _], Hp' as [-> _]. done.
Qed.


Lemma acceptable_mono lb su su' req r :
  (∀ j s, su_vp su j s → su_vp su' j s) → (∀ j s, su_vc su j s → su_vc su' j s) →
  (∀ t, su_clock su t → su_clock su' t) →
  acceptable lb su req r → acceptable lb su' req r.
Proof.
  intros H1 H2 H3 (l & vps & doc & subm & def & ? & Hf & ? & ? & ? & ? & Ha).
  exists l, vps, doc, subm, def. split; [done|]. split.
  { eapply Forall2_impl; [done|]. intros ? ?. by apply presents_mono. }
  do 4 (split; [done|]). intros d Hd. destruct (Ha d Hd) as (token & s & Ha'). exists token, s.
  by eapply answers_mono.
Qed.

(** The calls of a response: the state is read; then nothing but the world is looked at;
    if everything is in order the state is removed. *)
Lemma response_any lb r es o :
  runs (response lb r) es o →
  (rq_state r = None ∧ es = [] ∧ ∃ e, o = Err e) ∨
  ∃ key, rq_state r = Some key ∧
    ((es = [VGet key None] ∧ ∃ e, o = Err e) ∨
     ∃ st es', quiet es' ∧
       ((es = VGet key (Some st) :: es' ∧ (∀ x, o ≠ Ok x) ∧
           ∀ su, as_in su es' → ¬ acceptable lb su (vs_request st) r) ∨
        ∃ b : bool, es = VGet key (Some st) :: es' ++ [VPurge key b] ∧
          acceptable lb (seen es') (vs_request st) r ∧
          o = if b then Ok (ResponseResponse (Some "http://localhost:3000/cb") None)
              else Err (ServerError "issue purging state"))).
Proof.
  intros H. unfold response in H. vseq H as u Hv.
  - unfold response_verify in Hv. vseq Hv as key Hk; [|done]. right. exists key. split; [done|].
    vseq Hv as st' Hm. vseq Hv as st Hm; [|done]. right. exists st.
    vseq Hv as vpt Hvpt; [|done]. vseq Hv as vps Hvps; [|done..].
    apply verify_vps_any in Hvps as [Hq [(vps' & [= <-] & Hf)|[[? [=]] _]]].
    vseq Hv as subm Hsubm; [|done]. vseq Hv as def Hdef; [|done]. vseq Hv as u' Hid; [|done].
    apply bool_decide_eq_true in Hid.
    apply verify_descriptors_any in Hv as [Hq' [[_ Ha]|[Hne _]]]; [|by destruct u].
    unfold response_process in H. vseq H as key' Hk'; [|congruence].
    assert (key' = key) as -> by congruence.
    destruct (vo_definition (vs_request st)) as [|def'] eqn:Hd; [done|]. injection Hdef as ->.
    match goal with |- ∃ es', _ ∧ (_ ∨ ∃ b, ?es = _ ∧ _) => idtac end.
    match type of Hf with Forall2 (presents (seen ?a) _) _ _ =>
      match type of Hq' with quiet ?b => exists (a ++ b) end end.
    split; [by apply quiet_app|]. right.
    assert (Hacc : ∀ a b, Forall2 (presents (seen a) (vo_nonce (vs_request st))) vpt vps →
      (∀ d, d ∈ pd_input_descriptors def → ∃ token s, answers lb (seen b) (vps_json lb vps) subm d token s) →
      acceptable lb (seen (a ++ b)) (vs_request st) r).
    { intros a b Hf' Ha'. exists vpt, vps, (vps_json lb vps), subm, def. split; [done|]. split.
      { eapply Forall2_impl; [done|]. intros ? ?. apply presents_mono. simpl. intros. apply elem_of_app; auto. }
      split; [by apply vps_json_document|]. do 3 (split; [done|]). intros d Hd'.
      destruct (Ha' d Hd') as (token & s & ?). exists token, s.
      eapply answers_mono; [| |done]; simpl; intros; apply elem_of_app; auto. }
    vseq H as u'' Hp.
    + apply any_ok in H as [-> ->]. exists true. split; [|split; [by apply Hacc|done]].
      simpl. by rewrite ?app_nil_r, <-?app_assoc.
    + exists false. split; [|split; [by apply Hacc|done]]. simpl. by rewrite ?app_nil_r, <-?app_assoc.
  - subst o. unfold response_verify in Hv. vseq Hv as key Hk; [|left; eauto]. right. exists key. split; [done|].
    vseq Hv as st' Hm. vseq Hv as st Hm; [|left; eauto]. right. exists st.
    vseq Hv as vpt Hvpt.
    2: { exists []. split; [apply quiet_nil|]. left. split; [done|]. split; [done|].
         intros su _ (l & vps & doc & subm & def & ? & _). congruence. }
    vseq Hv as vps Hvps.
    2: { apply verify_vps_any in Hvps as [Hq [(vps' & [=] & Hf)|[[? [= ->]] Hno]]].
         eexists. split; [exact Hq|]. left. split; [done|]. split; [done|].
         intros su Hsu (l & vps & doc & subm & def & ? & ? & _). simplify_eq. apply (Hno su Hsu). eauto. }
    2: { by apply verify_vps_any in Hvps as [Hq [(vps' & [=] & Hf)|[[? [=]] _]]]. }
    apply verify_vps_any in Hvps as [Hq [(vps' & [= <-] & Hf)|[[? [=]] _]]].
    vseq Hv as subm Hsubm.
    2: { eexists. split; [exact Hq|]. left. rewrite app_nil_r. split; [done|]. split; [done|].
         intros su _ (l & vps' & doc & subm & def & ? & ? & ? & ? & _). congruence. }
    vseq Hv as def Hdef.
    2: { eexists. split; [exact Hq|]. left. rewrite app_nil_r. split; [done|]. split; [done|].
         intros su _ (l & vps' & doc & subm' & def & ? & ? & ? & ? & Hd & _). rewrite Hd in Hdef. done. }
    destruct (vo_definition (vs_request st)) as [|def'] eqn:Hd; [done|]. injection Hdef as ->.
    vseq Hv as u' Hid.
    2: { apply bool_decide_eq_false in Hid. eexists. split; [exact Hq|]. left. rewrite app_nil_r.
         split; [done|]. split; [done|].
         intros su _ (l & vps' & doc & subm' & def' & ? & ? & ? & ? & ? & ? & _). simplify_eq. congruence. }
    apply verify_descriptors_any in Hv as [Hq' [[[=] _]|[_ Hno]]].
    eexists. split; [apply (quiet_app _ _ Hq Hq')|]. left. split; [done|]. split; [done|].
    intros su Hsu (l & vps' & doc & subm' & def' & ? & Hf' & Hdoc & ? & Hd' & _ & Ha).
    apply as_in_app in Hsu as [Hsu1 Hsu2]. apply (Hno su Hsu2). intros d Hdd. simplify_eq.
    assert (vps' = vps) as -> by exact (presents_unique _ _ _ _ _ _ Hsu1 Hf Hf').
    apply vps_json_document in Hdoc as ->. apply Ha. assert (def' = def) as -> by congruence. done.
  - subst o. unfold response_verify in Hv. vseq Hv as key Hk; [|done]. right. exists key. split; [done|].
    vseq Hv as st' Hm. vseq Hv as st Hm; [|done]. right. exists st.
    vseq Hv as vpt Hvpt; [|done]. vseq Hv as vps Hvps.
    2, 3: by apply verify_vps_any in Hvps as [Hq [(vps' & [=] & Hf)|[[? [=]] _]]].
    apply verify_vps_any in Hvps as [Hq [(vps' & [= <-] & Hf)|[[? [=]] _]]].
    vseq Hv as subm Hsubm; [|done]. vseq Hv as def Hdef; [|done].
    destruct (vo_definition (vs_request st)) as [|def'] eqn:Hd; [done|]. injection Hdef as ->.
    vseq Hv as u' Hid; [|done].
    apply verify_descriptors_any in Hv as [Hq' [[[=] _]|[_ Hno]]].
    eexists. split; [apply (quiet_app _ _ Hq Hq')|]. left. split; [done|]. split; [done|].
    intros su Hsu (l & vps' & doc & subm' & def' & ? & Hf' & Hdoc & ? & Hd' & _ & Ha).
    apply as_in_app in Hsu as [Hsu1 Hsu2]. apply (Hno su Hsu2). intros d Hdd. simplify_eq.
    assert (vps' = vps) as -> by exact (presents_unique _ _ _ _ _ _ Hsu1 Hf Hf').
    apply vps_json_document in Hdoc as ->. apply Ha. assert (def' = def) as -> by congruence. done.
Qed.
