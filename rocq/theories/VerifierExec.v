(** The verifier's other endpoints, and executions of the verifier. *)
From Verif Require Import Base Json CoreModel VcModel Prog ProgFacts ExecSpec ExecFacts IssuerTypes
  MatcherModel MatcherSpec MatcherFacts VerifierModel VerifierSpec VerifierFacts.

Notation vconfig := (config VSig vrequest (outcome error vreply)).

(** ** create_request *)

Definition created (r : create_request_request) (def_id token nonce : string) (meta : json) : vp_request :=
  VpRequest VpToken
      (vq_client_id r +:+ (if bool_decide (vq_device_flow r = CrossDevice) then "/post" else "/callback")) None
      (if bool_decide (vq_device_flow r = CrossDevice) then Some "direct_post" else None)
      (if bool_decide (vq_device_flow r = CrossDevice) then Some (vq_client_id r +:+ "/post") else None) None
      nonce (Some token)
      (KObject (PresentationDefinition def_id (vq_input_descriptors r) None (Some (vq_purpose r))
               (Some [("jwt_vc", ClaimFormat (Some ["EdDSA"]) None)])))
      (Some SchemeRedirectUri) meta.
Lemma created_asks r def_id token nonce meta : asks r token nonce def_id meta (created r def_id token nonce meta).
Proof.
  unfold asks, created. simpl. do 7 (split; [done|]). split; [eauto 12|].
  by destruct (vq_device_flow r).
Qed.

Lemma create_request_any r es o :
  runs (create_request r) es o →
  (vq_input_descriptors r = [] ∧ es = [] ∧ o = Err (InvalidRequest "no credentials specified")) ∨
  vq_input_descriptors r ≠ [] ∧ ∃ def_id token,
    (es = [Y (WGen GvDefinitionId def_id); Y (WGen GvUriToken token); Y (WVerifier (vq_client_id r) None)] ∧
     o = Err (InvalidRequest "invalid client_id")) ∨
    ∃ meta nonce t b resp,
      let st := VState (t + minutes 5)%Z (created r def_id token nonce meta) in
      es = [Y (WGen GvDefinitionId def_id); Y (WGen GvUriToken token);
            Y (WVerifier (vq_client_id r) (Some meta)); Y (WGen GvNonce nonce); Y (WNow t);
            VPut token st (t + minutes 5)%Z b] ∧
      handed_over r token (vs_request st) resp ∧
      o = if b then Ok resp else Err (ServerError "issue saving state").
Proof.
  intros H. unfold create_request in H. vseq H as u Hv.
  - apply any_ensure in Hv as [-> [[Hd _]|[_ [=]]]]. right.
    split; [by intros Hn; rewrite Hn in Hd|]. unfold create_request_process in H.
    vseq H as def_id Hm. vseq H as token Hm. exists def_id, token. vseq H as meta' Hm. vseq H as meta Hm.
    2: { left. auto. }
    right. vseq H as nonce Hm. vseq H as t Hm. exists meta, nonce, t.
    exists (match o with Ok _ => true | _ => false end).
    exists (CreateRequestResponse
      (if bool_decide (vq_device_flow r = CrossDevice) then None else Some (created r def_id token nonce meta))
      (if bool_decide (vq_device_flow r = CrossDevice)
       then Some (vq_client_id r +:+ "/request/" +:+ token) else None)).
    vseq H as u' Hm.
    + apply any_ok in H as [-> ->]. split; [done|]. split; [|done].
      unfold handed_over. by destruct (vq_device_flow r).
    + split; [done|]. split; [|done]. unfold handed_over. by destruct (vq_device_flow r).
  - apply any_ensure in Hv as [-> [[_ [=]]|[Hd [= ->]]]]. left. by destruct (vq_input_descriptors r).
  - by apply any_ensure in Hv as [-> [[_ [=]]|[Hd [=]]]].
Qed.

(** ** request_object *)

Lemma vrequest_object_any r es o :
  runs (vrequest_object r) es o →
  (es = [VGet (or_id r) None] ∧ ∃ e, o = Err e) ∨
  ∃ st,
    (es = [VGet (or_id r) (Some st)] ∧ vo_client_id (vs_request st) ≠ or_client_id r +:+ "/post" ∧
     o = Err (InvalidRequest "client ID mismatch")) ∨
    vo_client_id (vs_request st) = or_client_id r +:+ "/post" ∧
    ((es = [VGet (or_id r) (Some st); Y (WSigner (or_client_id r) false)] ∧ ∃ e, o = Err e) ∨
     ∃ jwt, es = [VGet (or_id r) (Some st); Y (WSigner (or_client_id r) true);
                  Y (WSign (or_client_id r) (vs_request st) jwt)] ∧
       match jwt with Some jwt => o = Ok (RoJwt jwt) | None => ∃ e, o = Err e end).
Proof.
  intros H. unfold vrequest_object in H. vseq H as st' Hm. vseq H as st Hm; [|left; eauto].
  right. exists st. vseq H as u Hc; [|apply bool_decide_eq_false in Hc; left; auto].
  apply bool_decide_eq_true in Hc. right. split; [done|]. vseq H as b Hb. vseq H as u' Hb.
  - right. vseq H as jwt' Hj. exists jwt'. vseq H as jwt Hj.
    + apply any_ok in H as [-> ->]. auto.
    + eauto.
  - left. eauto.
Qed.

Lemma vmetadata_any id es o :
  runs (vmetadata id) es o → ∃ m, es = [Y (WVerifier id m)] ∧
    match m with Some m => o = Ok m | None => ∃ e, o = Err e end.
Proof.
  intros H. unfold vmetadata in H. vseq H as m Hm. exists m. apply any_of_opt in H as [-> H]. split; [done|].
  destruct H as [(a & -> & ->)|[-> ->]]; eauto.
Qed.

(** ** Saving *)

(** A path can be completed: some answer is always possible. *)
Lemma path_complete {A} (p q : prog VSig A) es : path p es q → ∃ es' a, runs p (es ++ es') a.
Proof.
  assert (∀ q : prog VSig A, ∃ es' a, runs q es' a) as Hq.
  { induction q0 as [a|c k IH]; [exists [], a; done|].
    assert (∃ r : answer c, True) as [r _].
    { destruct c as [?|?? ?|?|x]; [exists None|exists true|exists true|]; try done.
      destruct x; [exists 0%Z|exists ""|exists None|exists true|exists None|exists None|exists None|exists true]; done. }
    destruct (IH r) as (es' & a & H). exists (mkev c r :: es'), a. exists r. done. }
  intros H. destruct (Hq q) as (es' & a & Hr). exists es', a. unfold runs. apply path_app. eauto.
Qed.

Lemma vhandler_any lb q es o :
  runs (vhandler lb q) es o →
  match q with
  | VCreate r => ∃ o', runs (create_request r) es o' ∧
      match o' with Ok x => o = Ok (VRCreate x) | Err e => o = Err e | Panic w => o = Panic w end
  | VObject r => ∃ o', runs (vrequest_object r) es o' ∧
      match o' with Ok x => o = Ok (VRObject x) | Err e => o = Err e | Panic w => o = Panic w end
  | VResponse r => ∃ o', runs (response lb r) es o' ∧
      match o' with Ok x => o = Ok (VRResponse x) | Err e => o = Err e | Panic w => o = Panic w end
  | VMetadata i => ∃ o', runs (vmetadata i) es o' ∧
      match o' with Ok x => o = Ok (VRMetadata x) | Err e => o = Err e | Panic w => o = Panic w end
  end.
Proof.
  destruct q; simpl; intros H;
    (apply runs_bind in H as [(es1 & es2 & a & -> & Hm & H)|[(e & Hm & ->)|(w & Hm & ->)]];
     [apply any_ok in H as [-> ->]; rewrite app_nil_r|..]); eexists; (split; [exact Hm|reflexivity]).
Qed.

Definition no_put (es : list vevent) : Prop := ∀ k v x o, VPut k v x o ∉ es.
Lemma quiet_no_put es : quiet es → no_put es.
Proof. intros H k v x o Hin. by destruct (H _ Hin). Qed.
Lemma no_put_cons e es : (∀ k v x o, e ≠ VPut k v x o) → no_put es → no_put (e :: es).
Proof. intros He H k v x o [Hin|Hin]%elem_of_cons; [by eapply He|by eapply H]. Qed.
Lemma no_put_app es es' : no_put es → no_put es' → no_put (es ++ es').
Proof. intros H H' k v x o [Hin|Hin]%elem_of_app; [by eapply H|by eapply H']. Qed.
Lemma no_put_nil : no_put [].
Proof. intros k v x o H. by apply elem_of_nil in H. Qed.

Lemma object_no_put r es o : runs (vrequest_object r) es o → no_put es.
Proof.
  intros [(-> & _)|(st & [(-> & _)|(_ & [(-> & _)|(jwt & -> & _)])])]%vrequest_object_any;
    repeat (apply no_put_cons; [done|]); apply no_put_nil.
Qed.
Lemma response_no_put lb r es o : runs (response lb r) es o → no_put es.
Proof.
  intros [(_ & -> & _)|(key & _ & [[-> _]|(st & es' & Hq & [(-> & _)|(b & -> & _)])])]%response_any;
    repeat (apply no_put_cons; [done|]); try apply no_put_nil; [by apply quiet_no_put|].
  apply no_put_app; [by apply quiet_no_put|]. apply no_put_cons; [done|]. apply no_put_nil.
Qed.

Lemma put_create lb q h k v x o h' p :
  path (vhandler lb q) (h ++ VPut k v x o :: h') p →
  ∃ r def_id nonce meta t, q = VCreate r ∧ vq_input_descriptors r ≠ [] ∧ h' = [] ∧
    h = [Y (WGen GvDefinitionId def_id); Y (WGen GvUriToken k);
            Y (WVerifier (vq_client_id r) (Some meta)); Y (WGen GvNonce nonce); Y (WNow t)] ∧
    v = VState (t + minutes 5)%Z (created r def_id k nonce meta) ∧ x = (t + minutes 5)%Z.
Proof.
  intros Hp. apply path_complete in Hp as (es' & a & Hr). apply vhandler_any in Hr.
  rewrite <-app_assoc in Hr. simpl in Hr.
  assert (¬ no_put (h ++ VPut k v x o :: h' ++ es')) as Hput.
  { intros Hn. apply (Hn k v x o). apply elem_of_app. right. by left. }
  destruct q as [r|r|r|i]; destruct Hr as (o' & Hr & _).
  - apply create_request_any in Hr as [(_ & Heq & _)|(Hd & def_id & token & [(Heq & _)|
      (meta & nonce & t & b & resp & Heq & _)])].
    + by destruct h.
    + exfalso. apply Hput. rewrite Heq. apply quiet_no_put. do 3 apply quiet_cons. apply quiet_nil.
    + exists r, def_id, nonce, meta, t.
      do 5 (destruct h as [|? h]; [discriminate Heq|]; injection Heq as -> Heq).
      destruct h as [|? h]; [|injection Heq as _ Heq; by destruct h]. simpl in Heq.
      injection Heq as -> -> -> -> Heq. apply app_eq_nil in Heq as [-> _].
      split; [done|]. split; [done|]. split; [done|]. split; [done|]. split; done.
  - exfalso. by apply object_no_put in Hr.
  - exfalso. by apply response_no_put in Hr.
  - exfalso. apply vmetadata_any in Hr as (m & Heq & _). apply Hput. rewrite Heq.
    apply quiet_no_put, quiet_cons, quiet_nil.
Qed.

(** ** Executions *)

Section exec.
Context (lb : libs) (c : vconfig) (Hr : reachable (vhandler lb) ∅ c).

Lemma answered_runs i q r : answered c i q r → runs (vhandler lb q) (calls_of i (c_log c)) r.
Proof. intros H. exact (reachable_path _ _ _ _ _ _ Hr H). Qed.

(** What is read was created by a request of the execution. *)
Lemma get_created i k st :
  VGet k (Some st) ∈ calls_of i (c_log c) → ∃ j r, created_by c j k r st.
Proof using Hr.
  intros Hg. apply calls_of_elem_pos in Hg as (n & en & Hn & Hw & He).
  destruct (get_source _ _ _ _ _ _ _ Hr Hn He (lookup_empty k)) as (m & em & x & o & Hlt & Hm & Hem & _ & _).
  destruct (pos_path _ _ _ _ _ Hr Hm) as (q & p & es2 & Hq & Hp). rewrite Hem in Hp.
  destruct (pos_calls_of (e_who em) _ _ _ Hm eq_refl) as (es3 & Heq).
  pose proof (reachable_path _ _ _ _ _ _ Hr Hq) as Hpath. rewrite Heq, Hem in Hpath.
  apply put_create in Hpath as (r & def_id & nonce & meta & t & -> & Hd & -> & Hh & -> & ->).
  exists (e_who em), r. split; [eauto|]. exists nonce, def_id, meta, t, (t + minutes 5)%Z, o.
  rewrite Heq, Hh, Hem. split; [done|]. split; [done|]. split; [apply created_asks|]. done.
Qed.

(** *** C42, C43 *)

Lemma part_nil token : ¬ part (JStr token) (JArr []).
Proof. simpl. naive_solver. Qed.

Lemma response_accepted i r x :
  answered c i (VResponse r) (Ok (VRResponse x)) →
  ∃ key st es', rq_state r = Some key ∧
    calls_of i (c_log c) = VGet key (Some st) :: es' ++ [VPurge key true] ∧
    quiet es' ∧ acceptable lb (seen es') (vs_request st) r ∧
    (∃ j q, created_by c j key q st).
Proof using Hr.
  intros Ha. apply answered_runs in Ha as Hrun. apply vhandler_any in Hrun as (o & Hrun & Ho).
  destruct o as [x'|e|w]; [|done..].
  apply response_any in Hrun as [(_ & _ & [? [=]])|(key & Hk & [[_ [? [=]]]|(st & es' & Hq & [(_ & Hne & _)|
    (b & Heq & Hacc & Hb)])])]; [by destruct (Hne x')|].
  destruct b; [|done]. exists key, st, es'. do 4 (split; [done|]).
  eapply get_created. rewrite Heq. by left.
Qed.

Lemma response_presentations i r x :
  selects_parts (lb_engine lb) →
  answered c i (VResponse r) (Ok (VRResponse x)) →
  ∃ key st l, rq_state r = Some key ∧ VGet key (Some st) ∈ calls_of i (c_log c) ∧
    rq_vp_token r = Some l ∧ l ≠ [] ∧
    ∀ v, v ∈ l → ∃ p, presents (seen (calls_of i (c_log c))) (vo_nonce (vs_request st)) v p.
Proof using Hr.
  intros Hsel Ha. destruct (response_accepted i r x Ha) as (key & st & es' & Hk & Hc & Hq & Hacc & (j & q & Hcr)).
  destruct Hacc as (l & vps & doc & subm & def & Hl & Hf & Hdoc & Hs & Hdef & Hid & Hans).
  exists key, st, l. split; [done|]. split; [rewrite Hc; by left|]. split; [done|]. split.
  - intros ->. apply Forall2_nil_inv_l in Hf as ->.
    destruct Hcr as (_ & nonce & def_id & meta & t & y & o & _ & Hd & (_ & _ & _ & _ & _ & _ & _ & (def' & Hdef' & _ & Hin & _) & _) & _).
    rewrite Hdef in Hdef'. injection Hdef' as <-. rewrite <-Hin in Hd.
    destruct (pd_input_descriptors def) as [|d ds] eqn:Hds; [done|].
    destruct (Hans d ltac:(by left)) as (token & s & m & _ & _ & Hpath & _).
    destruct Hdoc as [(? & [=] & _)|[_ ->]].
    apply (part_nil token). eapply Hsel; [exact Hpath|]. by left.
  - intros v Hv. apply elem_of_list_lookup in Hv as (n & Hn).
    destruct (Forall2_lookup_l _ _ _ _ _ Hf Hn) as (p & _ & Hp). exists p.
    eapply presents_mono; [|exact Hp]. simpl. intros ? ? ?. rewrite Hc. right.
    apply elem_of_app. by left.
Qed.

(** *** C44 *)

Lemma vfresh_pos a b ea eb g g' s :
  vfresh (c_log c) → c_log c !! a = Some ea → c_log c !! b = Some eb →
  e_ev ea = Y (WGen g s) → e_ev eb = Y (WGen g' s) → a = b.
Proof.
  intros Hn Ha Hb Hea Heb. unfold vfresh in Hn.
  assert (vgenerated ea = Some s) as Hga by (unfold vgenerated; by rewrite Hea).
  assert (vgenerated eb = Some s) as Hgb by (unfold vgenerated; by rewrite Heb).
  clear Hea Heb. revert a b Ha Hb. induction (c_log c) as [|z l IH]; intros a b Ha Hb; [done|].
  destruct a as [|a], b as [|b]; simpl in *; simplify_eq/=; try done.
  - rewrite Hga in Hn. apply NoDup_cons in Hn as [Hn _]. exfalso. apply Hn.
    apply elem_of_list_omap. exists eb. split; [by eapply elem_of_list_lookup_2|done].
  - rewrite Hgb in Hn. apply NoDup_cons in Hn as [Hn _]. exfalso. apply Hn.
    apply elem_of_list_omap. exists ea. split; [by eapply elem_of_list_lookup_2|done].
  - f_equal. eapply IH; eauto. destruct (vgenerated z); [by apply NoDup_cons in Hn as [_ Hn]|done].
Qed.

Lemma response_once i j r r' x x' :
  vfresh (c_log c) → i ≠ j → rq_state r = rq_state r' →
  answered c i (VResponse r) (Ok (VRResponse x)) → answered c j (VResponse r') (Ok (VRResponse x')) →
  overlap (c_log c) i j.
Proof using Hr.
  assert (∀ i j r r' x x', vfresh (c_log c) → rq_state r = rq_state r' →
    answered c i (VResponse r) (Ok (VRResponse x)) → answered c j (VResponse r') (Ok (VRResponse x')) →
    ¬ before (c_log c) i j) as Hone.
  { intros a b q q' y y' Hf Hk Ha Hb.
    destruct (response_accepted a q y Ha) as (key & st & es & Hka & Hca & _).
    destruct (response_accepted b q' y' Hb) as (key' & st' & es' & Hkb & Hcb & _).
    assert (key' = key) as -> by congruence.
    apply (single_use (vhandler lb) c (λ _, True) (λ k e, e = Y (WGen GvUriToken k)) a b key st st'
      [] es []); try done.
    - intros q0 p h k v x0 o h' Hp _. apply put_create in Hp as (r0 & d & n & m & t & _ & _ & _ & -> & _).
      split; [eexists; split; [|reflexivity]; by right; left|].
      intros k' v' x1 o1 Hin _. by repeat (apply elem_of_cons in Hin as [Hin|Hin]; [done|]); apply elem_of_nil in Hin.
    - intros. by eapply vfresh_pos.
    - rewrite Hcb. by left. }
  intros Hf _ Hk Ha Hb. split; [exact (Hone _ _ _ _ _ _ Hf Hk Ha Hb)|exact (Hone _ _ _ _ _ _ Hf (eq_sym Hk) Hb Ha)].
Qed.

End exec.

(** A refused response leaves the state alone. *)
Lemma response_refused lb r es o :
  runs (response lb r) es o → (∀ x, o ≠ Ok x) →
  (∀ k v x b, VPut k v x b ∉ es) ∧
  ∀ k b, VPurge k b ∈ es → b = false ∧ o = Err (ServerError "issue purging state").
Proof.
  intros H Hne. split; [exact (response_no_put _ _ _ _ H)|]. intros k b Hin.
  apply response_any in H as [(_ & -> & _)|(key & _ & [[-> _]|(st & es' & Hq & [(-> & _)|(b' & -> & _ & ->)])])].
  - by apply elem_of_nil in Hin.
  - apply elem_of_cons in Hin as [Hin|Hin]; [done|by apply elem_of_nil in Hin].
  - apply elem_of_cons in Hin as [Hin|Hin]; [done|]. by destruct (Hq _ Hin).
  - apply elem_of_cons in Hin as [Hin|Hin]; [done|].
    apply elem_of_app in Hin as [Hin|Hin]; [by destruct (Hq _ Hin)|].
    apply elem_of_list_singleton in Hin as [= -> ->]. destruct b'; [|done]. by edestruct Hne.
Qed.

(** C49. *)
Lemma response_iff lb su r es o key st :
  runs (response lb r) es o → as_in su es →
  rq_state r = Some key → VGet key (Some st) ∈ es → (∀ k, VPurge k false ∉ es) →
  (∃ x, o = Ok x) ↔ acceptable lb su (vs_request st) r.
Proof.
  intros H Hsu Hk Hg Hp.
  apply response_any in H as [(? & _)|(key' & Hk' & [[-> _]|(st' & es' & Hq & H)])]; [congruence| |].
  { apply elem_of_list_singleton in Hg. done. }
  assert (key' = key) as -> by congruence.
  assert (st' = st ∧ as_in su es') as [-> Hsu'].
  { destruct H as [(-> & _)|(b & -> & _)]; split.
    - apply elem_of_cons in Hg as [[= ->]|Hg]; [done|]. by destruct (Hq _ Hg).
    - eapply as_in_sub; [done|]. intros ? ?. by right.
    - apply elem_of_cons in Hg as [[= ->]|Hg]; [done|].
      apply elem_of_app in Hg as [Hg|Hg]; [by destruct (Hq _ Hg)|by apply elem_of_list_singleton in Hg].
    - eapply as_in_sub; [done|]. intros ? ?. right. apply elem_of_app. by left. }
  destruct H as [(_ & Hne & Hno)|(b & -> & Hacc & ->)].
  - split; [intros [x ->]; by destruct (Hne x)|]. intros Ha. by destruct (Hno su Hsu').
  - destruct b; [|exfalso; apply (Hp key); right; apply elem_of_app; right; by left].
    split; [|eauto]. intros _. destruct Hsu' as (H1 & H2 & H3).
    eapply acceptable_mono; [| | |exact Hacc]; simpl.
    + intros j s Hin. by apply (H1 _ _ Hin).
    + intros j s Hin. by apply (H2 _ _ Hin).
    + intros t Hin. by apply (H3 _ Hin).
Qed.

(** C40. *)
Lemma create_request_iff r es o :
  runs (create_request r) es o →
  (∃ resp, o = Ok resp) ↔ vq_input_descriptors r ≠ [] ∧ ∀ e, e ∈ es → ¬ vfailed e.
Proof.
  intros [(Hd & -> & ->)|(Hd & def_id & token & [(-> & ->)|(meta & nonce & t & b & resp & -> & _ & ->)])]%create_request_any.
  - split; [by intros [? [=]]|]. by intros [? _].
  - split; [by intros [? [=]]|]. intros [_ Hf]. exfalso. eapply Hf; [right; right; left|exact I].
  - destruct b.
    + split; [|eauto]. intros _. split; [done|]. intros e He.
      repeat (apply elem_of_cons in He as [->|He]; [intros []|]). by apply elem_of_nil in He.
    + split; [by intros [? [=]]|]. intros [_ Hf]. exfalso. eapply Hf; [do 5 right; left|exact I].
Qed.
Lemma create_request_saved r es resp :
  runs (create_request r) es (Ok resp) →
  ∃ token nonce def_id meta t obj,
    Y (WGen GvUriToken token) ∈ es ∧ Y (WGen GvNonce nonce) ∈ es ∧ Y (WGen GvDefinitionId def_id) ∈ es ∧
    Y (WVerifier (vq_client_id r) (Some meta)) ∈ es ∧ Y (WNow t) ∈ es ∧
    asks r token nonce def_id meta obj ∧ handed_over r token obj resp ∧
    VPut token (VState (t + minutes 5)%Z obj) (t + minutes 5)%Z true ∈ es ∧
    ∀ k v x b, VPut k v x b ∈ es → k = token.
Proof.
  intros [(Hd & -> & [=])|(Hd & def_id & token & [(-> & [=])|(meta & nonce & t & b & resp' & -> & Hh & Ho)])]%create_request_any.
  destruct b; [|done]. injection Ho as <-.
  exists token, nonce, def_id, meta, t, (created r def_id token nonce meta).
  split; [by right; left|]. split; [by do 3 right; left|]. split; [by left|].
  split; [by do 2 right; left|]. split; [by do 4 right; left|]. split; [apply created_asks|].
  split; [done|]. split; [by do 5 right; left|]. intros k v x b Hin.
  repeat (apply elem_of_cons in Hin as [Hin|Hin]; [by inversion Hin|]). by apply elem_of_nil in Hin.
Qed.

(** C41. *)
Lemma request_object_iff r es o :
  runs (vrequest_object r) es o →
  ((∃ resp, o = Ok resp) ↔
   (∀ st, VGet (or_id r) (Some st) ∈ es → vo_client_id (vs_request st) = or_client_id r +:+ "/post") ∧
   ∀ e, e ∈ es → ¬ vfailed e).
Proof.
  intros [(-> & e & ->)|(st & [(-> & Hne & ->)|(Hc & [(-> & e & ->)|(jwt & -> & Ho)])])]%vrequest_object_any.
  - split; [by intros [? [=]]|]. intros [_ Hf]. exfalso. eapply Hf; [left|exact I].
  - split; [by intros [? [=]]|]. intros [Heq _]. exfalso. apply Hne, Heq. by left.
  - split; [by intros [? [=]]|]. intros [_ Hf]. exfalso. eapply Hf; [right; left|exact I].
  - destruct jwt as [jwt|].
    + subst o. split; [|eauto]. intros _. split.
      * intros st' Hin. apply elem_of_cons in Hin as [[= ->]|Hin]; [done|].
        repeat (apply elem_of_cons in Hin as [Hin|Hin]; [done|]). by apply elem_of_nil in Hin.
      * intros e He. repeat (apply elem_of_cons in He as [->|He]; [intros []|]). by apply elem_of_nil in He.
    + destruct Ho as [e ->]. split; [by intros [? [=]]|]. intros [_ Hf]. exfalso. eapply Hf; [right; right; left|exact I].
Qed.
Lemma request_object_given r es resp :
  runs (vrequest_object r) es (Ok resp) →
  ∃ st jwt, VGet (or_id r) (Some st) ∈ es ∧ vo_client_id (vs_request st) = or_client_id r +:+ "/post" ∧
    Y (WSign (or_client_id r) (vs_request st) (Some jwt)) ∈ es ∧ resp = RoJwt jwt.
Proof.
  intros [(-> & e & [=])|(st & [(-> & Hne & [=])|(Hc & [(-> & e & [=])|(jwt & -> & Ho)])])]%vrequest_object_any.
  destruct jwt as [jwt|]; [|by destruct Ho]. injection Ho as ->. exists st, jwt.
  split; [by left|]. split; [done|]. split; [by right; right; left|done].
Qed.
Lemma request_object_quiet r es o :
  runs (vrequest_object r) es o → ∀ e, e ∈ es → (∃ k v, e = VGet k v) ∨ ∃ x, e = Y x.
Proof.
  intros [(-> & _)|(st & [(-> & _)|(_ & [(-> & _)|(jwt & -> & _)])])]%vrequest_object_any e He;
    repeat (apply elem_of_cons in He as [->|He]; [eauto|]); by apply elem_of_nil in He.
Qed.
Lemma app_tail_ne s s' : s +:+ "/callback" ≠ s' +:+ "/post".
Proof.
  intros H. assert (∀ a b : string, list_ascii_of_string (a +:+ b) = list_ascii_of_string a ++ list_ascii_of_string b) as Ha.
  { induction a as [|x a IH]; intros b; [done|]. simpl. f_equal. apply IH. }
  apply (f_equal list_ascii_of_string) in H. rewrite !Ha in H.
  apply (f_equal last) in H. rewrite !last_app in H. simpl in H. done.
Qed.
Lemma app_tail_inj s s' t : s +:+ t = s' +:+ t → s = s'.
Proof.
  intros H. assert (∀ a b : string, list_ascii_of_string (a +:+ b) = list_ascii_of_string a ++ list_ascii_of_string b) as Ha.
  { induction a as [|x a IH]; intros b; [done|]. simpl. f_equal. apply IH. }
  apply (f_equal list_ascii_of_string) in H. rewrite !Ha in H. apply app_inv_tail in H.
  rewrite <-(string_of_list_ascii_of_string s), <-(string_of_list_ascii_of_string s'). by rewrite H.
Qed.
Lemma request_object_source lb c i r x :
  reachable (vhandler lb) ∅ c →
  answered c i (VObject r) (Ok (VRObject x)) →
  ∃ j q st jwt, created_by c j (or_id r) q st ∧ vq_client_id q = or_client_id r ∧
    vq_device_flow q = CrossDevice ∧ x = RoJwt jwt ∧
    Y (WSign (or_client_id r) (vs_request st) (Some jwt)) ∈ calls_of i (c_log c).
Proof.
  intros Hr Ha. apply (answered_runs lb c Hr) in Ha. apply vhandler_any in Ha as (o & Hrun & Ho).
  destruct o as [y|e|w]; [|done..]. injection Ho as ->.
  apply request_object_given in Hrun as (st & jwt & Hg & Hc & Hs & ->).
  destruct (get_created lb c Hr _ _ _ Hg) as (j & q & Hcr). exists j, q, st, jwt. split; [done|].
  destruct Hcr as (_ & n & d & m & t & y & o & _ & _ & (_ & _ & _ & _ & _ & _ & _ & _ & Hflow) & _).
  destruct (vq_device_flow q).
  - destruct Hflow as [Hcid _]. rewrite Hcid in Hc. apply app_tail_inj in Hc. auto.
  - destruct Hflow as [Hcid _]. rewrite Hcid in Hc. by apply app_tail_ne in Hc.
Qed.

(** C45: the expiry of the state makes no difference. *)
Lemma response_ignores_expiry lb r k st exp es o :
  runs (response lb r) (VGet k (Some st) :: es) o →
  runs (response lb r) (VGet k (Some (VState exp (vs_request st))) :: es) o.
Proof.
  unfold response, response_verify. destruct (rq_state r) as [key|]; [|done].
  intros (a & Ha & H). injection Ha as -> <-. exists (Some (VState exp (vs_request st))). split; [done|]. exact H.
Qed.
Lemma object_ignores_expiry r k st exp es o :
  runs (vrequest_object r) (VGet k (Some st) :: es) o →
  runs (vrequest_object r) (VGet k (Some (VState exp (vs_request st))) :: es) o.
Proof.
  unfold vrequest_object.
  intros (a & Ha & H). injection Ha as -> <-. exists (Some (VState exp (vs_request st))). split; [done|]. exact H.
Qed.

(** C48: nonces are not shared. *)
Lemma nonce_unique (c : vconfig) j j' k k' q q' st st' :
  vfresh (c_log c) → created_by c j k q st → created_by c j' k' q' st' →
  vo_nonce (vs_request st) = vo_nonce (vs_request st') → j = j'.
Proof.
  intros Hf (_ & n & d & m & t & x & o & Hc & _ & (_ & Hn & _) & _)
    (_ & n' & d' & m' & t' & x' & o' & Hc' & _ & (_ & Hn' & _) & _) Heq.
  assert (n' = n) as -> by congruence.
  assert (Y (WGen GvNonce n) ∈ calls_of j (c_log c)) as H1 by (rewrite <-Hc; by do 3 right; left).
  assert (Y (WGen GvNonce n) ∈ calls_of j' (c_log c)) as H2.
  { rewrite <-Hc'. by do 3 right; left. }
  apply calls_of_elem_pos in H1 as (a & ea & Ha & <- & Hea).
  apply calls_of_elem_pos in H2 as (b & eb & Hb & <- & Heb).
  assert (a = b) as -> by exact (vfresh_pos c _ _ _ _ _ _ _ Hf Ha Hb Hea Heb). congruence.
Qed.

Lemma response_ok lb r es x :
  runs (response lb r) es (Ok x) →
  ∃ key st es', rq_state r = Some key ∧ es = VGet key (Some st) :: es' ++ [VPurge key true] ∧
    quiet es' ∧ acceptable lb (seen es) (vs_request st) r.
Proof.
  intros Hrun.
  apply response_any in Hrun as [(_ & _ & [? [=]])|(key & Hk & [[_ [? [=]]]|(st & es' & Hq & [(_ & Hne & _)|
    (b & Heq & Hacc & Hb)])])]; [by destruct (Hne x)|].
  destruct b; [|done]. exists key, st, es'. do 3 (split; [done|]).
  rewrite Heq. eapply acceptable_mono; [..|exact Hacc]; simpl; intros; right; apply elem_of_app; by left.
Qed.
Lemma response_descriptors lb r es x :
  runs (response lb r) es (Ok x) →
  ∃ key st l vps doc subm def,
    rq_state r = Some key ∧ VGet key (Some st) ∈ es ∧
    rq_vp_token r = Some l ∧ Forall2 (presents (seen es) (vo_nonce (vs_request st))) l vps ∧
    document lb vps doc ∧ rq_submission r = Some subm ∧ vo_definition (vs_request st) = KObject def ∧
    pb_definition_id subm = pd_id def ∧
    ∀ d, d ∈ pd_input_descriptors def → ∃ token s, answers lb (seen es) doc subm d token s.
Proof.
  intros (key & st & es' & Hk & Hes & _ & (l & vps & doc & subm & def & H))%response_ok.
  exists key, st, l, vps, doc, subm, def. split; [done|]. split; [rewrite Hes; by left|]. exact H.
Qed.
Lemma response_removes lb r es x :
  runs (response lb r) es (Ok x) →
  ∃ key es', rq_state r = Some key ∧ es = es' ++ [VPurge key true] ∧ ∀ k b, VPurge k b ∉ es'.
Proof.
  intros (key & st & es' & Hk & Hes & Hq & _)%response_ok. exists key, (VGet key (Some st) :: es').
  split; [done|]. split; [done|]. intros k b [Hin|Hin]%elem_of_cons; [done|].
  destruct (Hq _ Hin) as (? & [=]).
Qed.
Lemma response_tokens lb r es x jwt l :
  runs (response lb r) es (Ok x) → rq_vp_token r = Some l → KString jwt ∈ l →
  ∃ s, Y (WDecodeVp jwt (Some s)) ∈ es.
Proof.
  intros (key & st & es' & Hk & Hes & _ & (l' & vps & doc & subm & def & Hl & Hf & _))%response_ok Hl' Hin.
  simplify_eq. apply elem_of_list_lookup in Hin as (n & Hn).
  destruct (Forall2_lookup_l _ _ _ _ _ Hf Hn) as (p & _ & (s & Hs & _)). exists s. exact Hs.
Qed.
Lemma response_signed lb r es x :
  runs (response lb r) es (Ok x) →
  ∃ key st def, rq_state r = Some key ∧ VGet key (Some st) ∈ es ∧ vo_definition (vs_request st) = KObject def ∧
    ∀ d, d ∈ pd_input_descriptors def → ∃ token s, Y (WDecodeVc token (Some s)) ∈ es ∧
      fulfils (lb_engine lb) (id_constraints d) s.
Proof.
  intros (key & st & l & vps & doc & subm & def & Hk & Hg & _ & _ & _ & _ & Hd & _ & Ha)%response_descriptors.
  exists key, st, def. do 3 (split; [done|]). intros d Hin.
  destruct (Ha d Hin) as (token & s & m & _ & _ & _ & Hs & Hf & _). exists token, s. done.
Qed.

Section service.
Context (lb : libs) (c : vconfig) (Hr : reachable (vhandler lb) ∅ c).

Lemma get_expiry i key st :
  VGet key (Some st) ∈ calls_of i (c_log c) →
  ∃ j t b, Y (WNow t) ∈ calls_of j (c_log c) ∧
    VPut key st (t + minutes 5)%Z b ∈ calls_of j (c_log c) ∧ vs_expires_at st = (t + minutes 5)%Z.
Proof using Hr.
  intros Hg. destruct (get_created lb c Hr i key st Hg) as (j & q & _ & n & d & m & t & x & o & Hc & _ & _ & He & ->).
  exists j, t, o. rewrite <-Hc. split; [by do 4 right; left|]. split; [by do 5 right; left|done].
Qed.

Lemma response_nonce i r x :
  vfresh (c_log c) →
  answered c i (VResponse r) (Ok (VRResponse x)) →
  ∃ key j q st l, rq_state r = Some key ∧ created_by c j key q st ∧ rq_vp_token r = Some l ∧
    (∀ v, v ∈ l → ∃ p, presents (seen (calls_of i (c_log c))) (vo_nonce (vs_request st)) v p) ∧
    ∀ j' key' q' st', created_by c j' key' q' st' →
      vo_nonce (vs_request st') = vo_nonce (vs_request st) → j' = j.
Proof using Hr.
  intros Hf Ha. destruct (response_accepted lb c Hr i r x Ha) as (key & st & es' & Hk & Hc & Hq & Hacc & (j & q & Hcr)).
  destruct Hacc as (l & vps & doc & subm & def & Hl & Hp & _).
  exists key, j, q, st, l. do 3 (split; [done|]). split.
  - intros v Hv. apply elem_of_list_lookup in Hv as (n & Hn).
    destruct (Forall2_lookup_l _ _ _ _ _ Hp Hn) as (p & _ & Hpr). exists p.
    eapply presents_mono; [|exact Hpr]. simpl. intros ? ? ?. rewrite Hc. right.
    apply elem_of_app. by left.
  - intros j' key' q' st' Hc' Hn. exact (nonce_unique c _ _ _ _ _ _ _ _ Hf Hc' Hcr Hn).
Qed.
End service.
