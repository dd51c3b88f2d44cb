(** Lemmas behind the nonce, deferral and notification properties. *)
From Verif Require Import Base StringSpec Json CoreModel VcModel Prog ProgFacts ExecSpec ExecFacts IssuerTypes
  ClaimsModel Sha256 IssuerModel IssuerSpec IssuerFacts IssuerWp IssuerExec IssuerOffer IssuerToken
  IssuerExpiry IssuerCredential.

(** ** Results are determined by the calls and their answers *)

Lemma imk_inj x (r r' : ians x) : imk x r = imk x r' → r = r'.
Proof. destruct x; simpl; congruence. Qed.
Lemma mkev_inj (c : call ISig) (r r' : answer c) : mkev c r = mkev c r' → r = r'.
Proof. destruct c; simpl; intros H; [congruence..|]. injection H. apply imk_inj. Qed.
Lemma runs_det {A} (p : prog ISig A) es a b : runs p es a → runs p es b → a = b.
Proof.
  unfold runs. revert p. induction es as [|e es IH]; intros p H1 H2; simpl in *; [congruence|].
  destruct p as [|c k]; [done|]. destruct H1 as (r & -> & H1), H2 as (r' & Heq & H2).
  apply mkev_inj in Heq as ->. eauto.
Qed.

(** ** The credential endpoint *)

Lemma credential_first r es o :
  runs (credential r) es o → ∃ v es', es = Get (cr_access_token r) v :: es' ∧
    (v = None → es' = [] ∧ o = Err (AccessDenied "invalid access token")).
Proof.
  unfold credential. unfold sget, get. cbn [bind]. intros H.
  destruct es as [|e es]; [done|]. destruct H as (v & -> & H). exists v, es. split; [done|].
  intros ->. cbn in H. apply runs_ret in H as [-> <-]. done.
Qed.

Lemma credential_entitled r es resp :
  runs (credential r) es (Ok resp) →
  ∃ st tok iss auth cfg did, entitled r es st tok iss auth cfg did.
Proof.
  intros H. apply credential_ok in H as Hok.
  destruct Hok as (st & tok & iss & es_o & auth & cfg & t1 & t2 & es_p & did & subj & ds0 & es_t & Hes & _).
  assert (X (VDataset subj (au_identifier auth) (Some ds0)) ∈ es) as Hin by (rewrite Hes; set_solver).
  clear Hes. apply elem_of_list_split in Hin as (l1 & l2 & ->).
  apply (wp_event _ _ _ _ [] _ _ _ (credential_releases r)) in H; [|done].
  destruct H as (st' & tok' & subj' & iss' & auth' & cfg' & did' & He & _).
  exists st', tok', iss', auth', cfg', did'. by apply entitled_app.
Qed.

(** ** Rejected proofs *)

(** [Q h o]: what is known when the endpoint answers that the proof is invalid. *)
Definition rejected_with (st : state) (tok : token_state) (k : string) (h : ihist)
    (nonce : string) (secs : Z) : Prop :=
  ∃ es' t1 t2, h = Get k (Some st) :: es' ++
    [X (VGen GNonce nonce); X (VNow t1); X (VNow t2);
     Put (tk_access_token tok)
       (State (s_subject_id st) (Validated (Token (tk_access_token tok) nonce (t2 + minutes 10)%Z
          (tk_credentials tok))) (t1 + minutes 15)%Z) (t1 + minutes 15)%Z true] ∧
    secs = 600%Z ∧ no_puts es' ∧ Forall (λ e, releases e = false) es'.
Definition quiet_since (st : state) (k : string) (h : ihist) : Prop :=
  ∃ es', h = Get k (Some st) :: es' ∧ no_puts es' ∧ Forall (λ e, releases e = false) es'.

Lemma quiet_snoc st k h e :
  quiet_since st k h → is_put e = false → releases e = false → quiet_since st k (h ++ [e]).
Proof.
  intros (es' & -> & H1 & H2) Hp Hr. exists (es' ++ [e]). split; [done|].
  split; [by apply no_puts_snoc|]. apply Forall_app. split; [done|]. by constructor.
Qed.
Lemma quiet_app st k h es :
  quiet_since st k h → no_puts es → Forall (λ e, releases e = false) es → quiet_since st k (h ++ es).
Proof.
  intros (es' & -> & H1 & H2) Hp Hr. exists (es' ++ es). split; [done|].
  split; [by apply no_puts_app|]. by apply Forall_app.
Qed.

Definition ipQ (st : state) (tok : token_state) (k : string) {A} (h : ihist) (o : outcome error A) : Prop :=
  match o with
  | Err (InvalidProof _ n s) => rejected_with st tok k h n s
  | _ => True
  end.

Lemma reject_proof_ip {A} st tok k hint h :
  s_stage st = Validated tok → quiet_since st k h →
  wp (λ _ _, True) (ipQ st tok k (A := A)) (reject_proof st hint) h.
Proof.
  intros Hs (es' & -> & H1 & H2). unfold reject_proof, invalid_proof. rewrite Hs. apply wp_bind.
  iwx n. iwx t1. iwx t2. apply wp_bind. iwp1; [done|unfold bindQ|done]. apply wp_ok.
  apply wp_fail. cbn [ipQ]. exists es', t1, t2. split; [by simplify_list_eq|]. done.
Qed.

Lemma verify_proofs_ip st tok k nonce jwts did h :
  s_stage st = Validated tok → quiet_since st k h →
  wp (λ _ _, True) (λ h' o, ipQ st tok k h' o) (verify_proofs st nonce jwts did) h.
Proof.
  intros Hs. revert did h. induction jwts as [|jwt jwts IH]; intros did h Hq; cbn [verify_proofs]; [by iwp|].
  iwx d. assert (quiet_since st k (h ++ [X (VDecodeProof jwt d)])) as Hq' by by apply quiet_snoc.
  destruct d as [p|]; [|by apply reject_proof_ip].
  destruct (negb _); [by apply reject_proof_ip|]. destruct (negb _); [by apply reject_proof_ip|].
  destruct (pj_kid p); [by apply IH|by apply reject_proof_ip].
Qed.

(** Programs that never answer that the proof is invalid. *)
Definition noip {A} (p : iprog A) : Prop :=
  ∀ h, wp (λ _ _, True) (λ _ o, ∀ a b c, o ≠ Err (InvalidProof a b c)) p h.
Lemma noip_bind {A B} (m : iprog A) (f : A → iprog B) :
  noip m → (∀ a, noip (f a)) → noip (bind m f).
Proof.
  intros H1 H2 h. apply wp_bind. eapply wp_call_lemma; [apply H1|].
  intros h' [a|e|w] Ho; unfold bindQ; [apply H2|..|done]. intros a b c [= ->]. by eapply Ho.
Qed.

Lemma noip_process st iss auth cfg did r : noip (credential_process st iss auth cfg did r).
Proof.
  unfold credential_process. apply noip_bind; [intros h; unfold credential_dataset; by iwp|].
  intros ds. destruct (ds_pending ds); [intros h; unfold defer_response; by iwp|].
  unfold issue_response. do 3 (apply noip_bind; [intros h; by iwp|intros ?]).
  apply noip_bind.
  { destruct (cc_format cfg) as [def| | | |]; try (intros h; by iwp).
    - apply noip_bind; [|intros v; unfold jwt_vc_json].
      + unfold w3c_vc. do 5 (apply noip_bind; [intros h; by iwp|intros ?]).
        destruct (match cc_display cfg with Some l => create_names l | None => (None, None) end).
        intros h. by iwp.
      + apply noip_bind; [|intros ? h; by iwp]. intros h. unfold vc_claims_from.
        destruct (match vc_subject v with QOne s => Some s | QMany l => head l end); by iwp.
    - intros h. unfold mso_mdoc. by iwp. }
  intros ?. intros h. by iwp.
Qed.

Lemma credential_invalid_proof r es hint nonce secs :
  runs (credential r) es (Err (InvalidProof hint nonce secs)) →
  ∃ st tok, s_stage st = Validated tok ∧ rejected_with st tok (cr_access_token r) es nonce secs.
Proof.
  intros H.
  assert (wp (λ _ _, True) (λ h o, ∀ a n s, o = Err (InvalidProof a n s) →
    ∃ st tok, s_stage st = Validated tok ∧ rejected_with st tok (cr_access_token r) h n s) (credential r) []) as Hwp.
  2:{ exact (wp_runs _ _ _ _ _ _ Hwp H _ _ _ eq_refl). }
  clear H es hint nonce secs. unfold credential. iwx st'. iwo st Hst. subst.
  iwx iss'. iwo iss Hiss. subst.
  assert (quiet_since st (cr_access_token r) (([] ++ [Get (cr_access_token r) (Some st)]) ++
    [X (VIssuer (cr_credential_issuer r) (Some iss))])) as Hq.
  { eexists. split; [done|]. split; by repeat constructor. }
  apply wp_bind. apply wp_intro; [done|].
  intros es_o oa Ha.
  assert (no_puts es_o ∧ Forall (λ e, releases e = false) es_o) as [Hn1 Hn2].
  { split; [by eapply noput_path, Ha; apply noput_credential_authorized|].
    apply Forall_forall. intros e He. apply elem_of_list_split in He as (l1 & l2 & ->).
    apply (wp_event _ _ _ _ [] l1 e l2 (norel_credential_authorized st iss r []) Ha). }
  destruct oa as [auth|e|w]; unfold bindQ; [| |done].
  2:{ intros a n s [= ->]. exfalso. unfold credential_authorized in Ha.
      assert (noip (credential_authorized st iss r)) as Hno.
      { unfold credential_authorized. destruct (s_stage st); try (intros h; by iwp).
        apply noip_bind; [|intros ? h; by iwp]. destruct (cr_credential r); [intros h; by iwp|].
        apply noip_bind; [intros h; by iwp|]. intros cid.
        apply noip_bind; [intros h; unfold iterate; by iwp|]. intros l h. by iwp. }
      by apply (wp_runs _ _ _ _ _ _ (Hno []) Ha a n s). }
  apply credential_authorized_ok in Ha as (tok & Htok & _).
  apply (quiet_app _ _ _ _ Hq Hn1) in Hn2. clear Hq Hn1. revert Hn2.
  match goal with |- _ → wp _ _ _ ?h0 => generalize h0 end. intros h Hq.
  iwo cfg Hcfg. apply wp_bind.
  apply (wp_call_lemma _ _ (ipQ st tok (cr_access_token r))).
  - unfold credential_verify. iwx t1. iwe He. rewrite Htok. iwx t2. iwe He'.
    destruct (cc_proof_types cfg); [|by iwp].
    assert (quiet_since st (cr_access_token r) ((h ++ [X (VNow t1)]) ++ [X (VNow t2)])) as Hq2
      by (repeat (apply quiet_snoc; [|done..]); done).
    destruct (cr_proof r); [|by apply reject_proof_ip]. iwe Hj. by apply verify_proofs_ip.
  - intros h' [did|e|w] Ho; unfold bindQ; [| |done].
    + eapply wp_call_lemma; [apply noip_process|]. intros h2 o Hno a n s ->. by edestruct Hno.
    + intros a n s [= ->]. eauto.
Qed.

(** ** Nonces are not accepted twice *)

Definition is_decode (e : ievent) : bool :=
  match e with EExt (VDecodeProof _ _) => true | _ => false end.
Definition nodecode {A} (p : prog ISig A) : Prop :=
  ∀ h, wp (λ _ e, is_decode e = false) (λ _ _, True) p h.
Lemma nodecode_bind {A B} (m : iprog A) (f : A → iprog B) :
  nodecode m → (∀ a, nodecode (f a)) → nodecode (bind m f).
Proof.
  intros H1 H2 h. apply wp_bind. eapply wp_call_lemma; [apply H1|].
  intros h' [a|e|w] _; unfold bindQ; [apply H2|done..].
Qed.
Lemma nodecode_runs {A} (p : prog ISig A) es a e :
  nodecode p → runs p es a → e ∈ es → is_decode e = false.
Proof.
  intros Hn Hr He. apply elem_of_list_split in He as (l1 & l2 & ->).
  apply (wp_event _ _ _ _ [] l1 e l2 (Hn []) Hr).
Qed.
Lemma nodecode_authorized st iss r : nodecode (credential_authorized st iss r).
Proof.
  unfold credential_authorized. destruct (s_stage st); try (intros h; by iwp).
  apply nodecode_bind; [|intros ? h; by iwp]. destruct (cr_credential r); [intros h; by iwp|].
  apply nodecode_bind; [intros h; by iwp|]. intros cid.
  apply nodecode_bind; [intros h; unfold iterate; by iwp|]. intros l h. by iwp.
Qed.
Lemma nodecode_process st iss auth cfg did r : nodecode (credential_process st iss auth cfg did r).
Proof.
  unfold credential_process. apply nodecode_bind; [intros h; unfold credential_dataset; by iwp|].
  intros ds. destruct (ds_pending ds); [intros h; unfold defer_response; by iwp|].
  unfold issue_response. do 3 (apply nodecode_bind; [intros h; by iwp|intros ?]).
  apply nodecode_bind.
  { destruct (cc_format cfg) as [def| | | |]; try (intros h; by iwp).
    - apply nodecode_bind; [|intros v; unfold jwt_vc_json].
      + unfold w3c_vc. do 5 (apply nodecode_bind; [intros h; by iwp|intros ?]).
        destruct (match cc_display cfg with Some l => create_names l | None => (None, None) end).
        intros h. by iwp.
      + apply nodecode_bind; [|intros ? h; by iwp]. intros h. by iwp.
    - intros h. unfold mso_mdoc. by iwp. }
  intros ?. intros h. by iwp.
Qed.

Lemma reject_refused {A} st tok hint h :
  s_stage st = Validated tok → wp (λ _ _, True) (λ _ o, proof_refused o) (@reject_proof A st hint) h.
Proof.
  intros Hs. unfold reject_proof, invalid_proof, proof_refused. rewrite Hs. iwp; eauto.
Qed.

(** A proof with another nonce than the token's is refused. *)
Definition stale (nonce : string) (e : ievent) : Prop :=
  ∃ jwt p, e = X (VDecodeProof jwt (Some p)) ∧ pj_nonce p ≠ Some nonce.

Lemma verify_proofs_stale st tok nonce jwts did h :
  s_stage st = Validated tok → (∀ e, e ∈ h → ¬ stale nonce e) →
  wp (λ _ _, True) (λ h' o, ∀ e, e ∈ h' → stale nonce e → proof_refused o)
    (verify_proofs st nonce jwts did) h.
Proof.
  intros Hs. revert did h. induction jwts as [|jwt jwts IH]; intros did h Hh; cbn [verify_proofs].
  { iwp. intros e He Hst. by apply Hh in He. }
  assert (∀ hint h, wp (λ _ _, True) (λ h' o, ∀ e, e ∈ h' → stale nonce e → proof_refused o)
    (reject_proof (A := string) st hint) h) as Hrej.
  { intros hint h'. eapply wp_call_lemma; [by eapply reject_refused|]. auto. }
  iwx d. destruct d as [p|]; [|done]. destruct (negb (pj_typ_is_proof p)); [done|].
  case_bool_decide as Hn; simpl; [|done]. destruct (pj_kid p); [|done].
  apply IH. intros e He. apply elem_of_app in He as [He|He]; [by apply Hh|].
  apply elem_of_list_singleton in He as ->. intros (? & ? & [= <- <-] & ?). done.
Qed.

Lemma credential_stale r es o jwt p :
  runs (credential r) es o → X (VDecodeProof jwt (Some p)) ∈ es →
  ∃ st tok, Get (cr_access_token r) (Some st) ∈ es ∧ s_stage st = Validated tok ∧
    (pj_nonce p ≠ Some (tk_c_nonce tok) → proof_refused o).
Proof.
  intros H Hin.
  assert (wp (λ _ _, True) (λ h o, ∀ jwt p, X (VDecodeProof jwt (Some p)) ∈ h →
    ∃ st tok, Get (cr_access_token r) (Some st) ∈ h ∧ s_stage st = Validated tok ∧
    (pj_nonce p ≠ Some (tk_c_nonce tok) → proof_refused o)) (credential r) []) as Hwp.
  2:{ exact (wp_runs _ _ _ _ _ _ Hwp H _ _ Hin). }
  clear H es o jwt p Hin.
  unfold credential. iwx st'. apply wp_bind. apply wp_of_opt; [intros st Hst|intros Hst]; unfold bindQ.
  2:{ intros jwt p Hin. apply elem_of_app in Hin as [?%elem_of_nil|?%elem_of_list_singleton]; done. }
  subst. iwx iss'. apply wp_bind. apply wp_of_opt; [intros iss Hiss|intros Hiss]; unfold bindQ.
  2:{ intros jwt p Hin. simpl in Hin. rewrite !elem_of_cons, elem_of_nil in Hin. naive_solver. }
  subst. apply wp_bind. apply wp_intro; [done|]. intros es_o oa Ha.
  assert (∀ jwt p, X (VDecodeProof jwt (Some p)) ∉ ([] ++ [Get (cr_access_token r) (Some st)]) ++
    [X (VIssuer (cr_credential_issuer r) (Some iss))] ++ es_o) as Hno.
  { intros jwt p. rewrite !elem_of_app, !elem_of_list_singleton, elem_of_nil.
    intros [[[]|?]|[?|Hd]]; try done. eapply nodecode_runs in Hd; [|apply nodecode_authorized|done]. done. }
  rewrite app_assoc in Hno.
  destruct oa as [auth|e|w]; unfold bindQ; [|intros jwt p Hin; by apply Hno in Hin..].
  apply credential_authorized_ok in Ha as (tok & Htok & _).
  assert (Get (cr_access_token r) (Some st) ∈ (([] ++ [Get (cr_access_token r) (Some st)]) ++
    [X (VIssuer (cr_credential_issuer r) (Some iss))]) ++ es_o) as Hget by set_solver.
  revert Hget Hno. match goal with |- _ → _ → wp _ _ _ ?h0 => generalize h0 end. intros h Hget Hno.
  apply wp_bind. apply wp_of_opt; [intros cfg Hcfg|intros Hcfg]; unfold bindQ.
  2:{ intros jwt p Hin. by apply Hno in Hin. }
  apply wp_bind.
  apply wp_prefix. apply (wp_call_lemma _ _ (λ h' o, ∀ e, e ∈ h' → stale (tk_c_nonce tok) e → proof_refused o)).
  - unfold credential_verify. iwx t1. apply wp_bind, wp_ensure; intros He; unfold bindQ.
    2:{ intros e Hin (jwt & p & -> & _). apply elem_of_app in Hin as [Hin|Hin%elem_of_list_singleton]; [|done].
        by apply Hno in Hin. }
    rewrite Htok. iwx t2.
    assert (∀ e, e ∈ (h ++ [X (VNow t1)]) ++ [X (VNow t2)] → ¬ stale (tk_c_nonce tok) e) as Hns.
    { intros e Hin (jwt & p & -> & _). rewrite !elem_of_app, !elem_of_list_singleton in Hin.
      destruct Hin as [[Hin|?]|?]; [|done..]. by apply Hno in Hin. }
    apply wp_bind, wp_ensure; intros He'; unfold bindQ.
    2:{ intros e Hin Hst. by apply Hns in Hst. }
    destruct (cc_proof_types cfg).
    2:{ apply wp_ok. intros e Hin Hst. by apply Hns in Hst. }
    destruct (cr_proof r).
    2:{ eapply wp_call_lemma; [by eapply reject_refused|]. auto. }
    apply wp_bind, wp_ensure; intros Hj; unfold bindQ.
    2:{ intros e Hin Hst. by apply Hns in Hst. }
    by eapply verify_proofs_stale.
  - intros h' [did|e|w] Ho Hpre; unfold bindQ.
    + apply wp_intro; [done|]. intros es o Hr jwt p Hin. exists st, tok.
      split. { apply elem_of_app. left. destruct Hpre as [z ->]. apply elem_of_app. by left. }
      split; [done|]. intros Hne. apply elem_of_app in Hin as [Hin|Hin].
      * exfalso. destruct (Ho _ Hin) as [(? & ? & ? & ?)|?]; [|done..]. by exists jwt, p.
      * eapply nodecode_runs in Hin; [|apply nodecode_process|exact Hr]. done.
    + intros jwt p Hin. exists st, tok. split. { destruct Hpre as [z ->]. apply elem_of_app. by left. }
      split; [done|]. intros Hne. destruct (Ho _ Hin) as [(? & ? & ? & ?)|?]; [by exists jwt, p| |].
      * left. naive_solver.
      * right. naive_solver.
    + intros jwt p Hin. exists st, tok. split. { destruct Hpre as [z ->]. apply elem_of_app. by left. }
      split; [done|]. intros Hne. destruct (Ho _ Hin) as [(? & ? & ? & ?)|?]; [by exists jwt, p|done..].
Qed.

Lemma token_nonces (c : iconfig) a ea m m' em em' k v v' x x' o o' tok tok' :
  ireach c → fresh (c_log c) → c_log c !! a = Some ea → e_ev ea = X (VGen GToken k) →
  c_log c !! m = Some em → c_log c !! m' = Some em' → e_ev em = Put k v x o → e_ev em' = Put k v' x' o' →
  s_stage v = Validated tok → s_stage v' = Validated tok' → tk_c_nonce tok = tk_c_nonce tok' → m = m'.
Proof.
  intros Hr Hf Ha Hea Hm Hm' Hem Hem' Hs Hs' Hn.
  assert (∀ m em v x o tok, c_log c !! m = Some em → e_ev em = Put k v x o → s_stage v = Validated tok →
    no_puts (calls_of (e_who em) (take m (c_log c))) ∧
    X (VGen GNonce (tk_c_nonce tok)) ∈ calls_of (e_who em) (take m (c_log c))) as Hput.
  { clear - Hr Hf Ha Hea. intros m em v x o tok Hm Hem Hs.
    destruct (put_pos _ _ _ _ _ _ _ Hr Hm Hem) as (q & p & _ & Hp).
    assert (∀ r, credential_put r (calls_of (e_who em) (take m (c_log c))) k v x →
      no_puts (calls_of (e_who em) (take m (c_log c))) ∧
      X (VGen GNonce (tk_c_nonce tok)) ∈ calls_of (e_who em) (take m (c_log c))) as Hc.
    { intros r Hcp. unfold credential_put in Hcp. rewrite Hs in Hcp.
      destruct Hcp as (st & tok0 & t & _ & _ & [[_ Hnp]|Hgen] & _ & _ & Hn & _); [done|]. exfalso.
      apply calls_of_take_elem in Hgen as (b & eb & _ & Hb & _ & Heb).
      assert (GToken = GNotificationId) by (eapply (fresh_kind (c_log c) a b ea eb); done). done. }
    unfold put_from in Hp. destruct q; rewrite ?Hs in Hp; try done.
    - destruct Hp as (st & items & _ & _ & Hn & _ & _ & Hnp & _). done.
    - by eapply Hc.
    - destruct Hp as (st & txn & cr & _ & _ & _ & Hp). by eapply Hc. }
  destruct (Hput _ _ _ _ _ _ Hm Hem Hs) as [Hnp Hg], (Hput _ _ _ _ _ _ Hm' Hem' Hs') as [Hnp' Hg'].
  apply calls_of_take_elem in Hg as (b & eb & Hlt & Hb & Hw & Heb).
  apply calls_of_take_elem in Hg' as (b' & eb' & Hlt' & Hb' & Hw' & Heb').
  rewrite Hn in Heb. assert (b = b') as <- by by eapply fresh_pos.
  rewrite Hb in Hb'. injection Hb' as <-.
  assert (∀ m m' em (em' : entry ISig) v x o, c_log c !! m = Some em → e_ev em = Put k v x o → e_who em = e_who em' →
    no_puts (calls_of (e_who em') (take m' (c_log c))) → ¬ m < m') as Hno.
  { clear. intros m m' em em' v x o Hm Hem Hw Hnp Hlt.
    assert (e_ev em ∈ calls_of (e_who em') (take m' (c_log c))) as Hin.
    { assert (take m' (c_log c) !! m = Some em) as Hm2 by (rewrite lookup_take; done).
      destruct (pos_calls_of (e_who em') _ _ _ Hm2 Hw) as (es2 & ->). set_solver. }
    rewrite Hem in Hin. unfold no_puts in Hnp. rewrite Forall_forall in Hnp. by apply Hnp in Hin. }
  assert (¬ m < m') by (eapply (Hno m m' em em'); eauto; congruence).
  assert (¬ m' < m) by (eapply (Hno m' m em' em); eauto; congruence). lia.
Qed.

(** The state under a generated access token is that of the token. *)
Lemma token_key (c : iconfig) i k v :
  ireach c → fresh (c_log c) → is_token (c_log c) k → Get k (Some v) ∈ calls_of i (c_log c) →
  ∃ tok, s_stage v = Validated tok ∧ tk_access_token tok = k.
Proof.
  intros Hr Hf (ea & Hin & Hea) Hget. apply elem_of_list_lookup in Hin as [a Ha].
  apply calls_of_elem_pos in Hget as (g & eg & Hg & _ & Heg).
  destruct (get_source _ _ _ _ _ _ _ Hr Hg Heg (lookup_empty k)) as (m & em & x & o & _ & Hm & Hem & _).
  destruct (key_fits c m em k v x o a ea GToken Hr Hf Hm Hem Ha Hea) as (_ & _ & _ & H); [done|]. by apply H.
Qed.

Lemma put_effective (c : iconfig) n en k v x :
  ireach c → c_log c !! n = Some en → e_ev en = Put k v x true → puts_key k en = true.
Proof.
  intros Hr Hn He. pose proof (pos_allowed _ _ _ _ _ Hr Hn) as Hal. unfold allowed in Hal.
  unfold puts_key. rewrite He in *. by rewrite bool_decide_true, Hal.
Qed.

Lemma nonce_not_reused (c : iconfig) i j ri rj resp cred oj jwt p jwt' p' nonce :
  ireach c → fresh (c_log c) → is_token (c_log c) (cr_access_token ri) →
  cr_access_token rj = cr_access_token ri →
  answered c i (QCredential ri) (Ok (RCredential resp)) → crs_response resp = CRCredential cred →
  X (VDecodeProof jwt (Some p)) ∈ calls_of i (c_log c) → pj_nonce p = Some nonce →
  before (c_log c) i j → answered c j (QCredential rj) oj →
  X (VDecodeProof jwt' (Some p')) ∈ calls_of j (c_log c) → pj_nonce p' = Some nonce →
  proof_refused oj.
Proof.
  intros Hr Hf Htok Hk Hi Hresp Hdi Hnonce Hb Hj Hdj Hnonce'.
  apply answered_runs in Hi as Hri; [|done]. apply handler_ok in Hri as (resp' & [= <-] & Hri).
  apply answered_runs in Hj as Hrj; [|done]. apply handler_outcome in Hrj as (o' & Hrj & ->).
  destruct (credential_stale _ _ _ _ _ Hri Hdi) as (sti & toki & Hgeti & Hsi & Hni).
  destruct (credential_stale _ _ _ _ _ Hrj Hdj) as (stj & tokj & Hgetj & Hsj & Hnj).
  assert (nonce = tk_c_nonce toki) as ->.
  { destruct (decide (pj_nonce p = Some (tk_c_nonce toki))) as [Heq|Hne]; [congruence|].
    destruct (Hni Hne) as [(? & ? & ? & ?)|?]; done. }
  assert (proof_refused o') as Hrefuse; [|destruct Hrefuse as [(hint & n & s & ->)| ->]; [left; eauto|by right]].
  apply Hnj. rewrite Hnonce'. intros [= Heq]. rewrite Hk in Hgetj.
  (* the save made by [i] *)
  assert (∃ v x es1 es2, calls_of i (c_log c) = es1 ++ Put (cr_access_token ri) v x true :: es2 ∧
    Get (cr_access_token ri) (Some sti) ∈ es1) as (v & x & es1 & es2 & Hput & Hbefore).
  { destruct (credential_live _ _ _ Hri) as (st & tok & es' & Hes & Hno & Hs & _).
    assert (st = sti) as ->.
    { rewrite Hes in Hgeti. apply elem_of_cons in Hgeti as [[= ->]|Hin]; [done|]. by apply Hno in Hin. }
    destruct (token_key c i (cr_access_token ri) sti Hr Hf Htok Hgeti) as (tok' & Hs' & Hacc).
    apply credential_ok in Hri as (st & tok2 & iss & es_o & auth & cfg & t1 & t2 & es_p & did & subj & ds0 & es_t &
      Hes2 & Hs2 & _ & _ & _ & _ & _ & _ & Hd).
    destruct (ds_pending ds0); [by destruct Hd as (? & ? & _ & ->)|].
    destruct Hd as (t0 & es_b & jw & t3 & nonce & t4 & nid & t5 & Het & _).
    rewrite Hes in Hes2. injection Hes2 as <- Hes2. rewrite Hs' in Hs2. injection Hs2 as <-.
    rewrite Hacc, Hes2 in *. clear Hes2. rewrite Het in Hes. clear Het.
    match type of Hes with context [Put _ ?v ?x true] => exists v, x end.
    eexists (Get (cr_access_token ri) (Some sti) :: (X (VIssuer (cr_credential_issuer ri) (Some iss)) ::
      es_o ++ [X (VNow t1); X (VNow t2)] ++ es_p ++ [X (VDataset subj (au_identifier auth) (Some ds0))] ++
      [X (VNow t0); X (VSigner (cr_credential_issuer ri) true)] ++ es_b ++
      [X (VNow t3); X (VGen GNonce nonce); X (VNow t4)])), _.
    split; [rewrite Hes; simplify_list_eq; done|left]. }
  destruct (calls_of_pos _ _ _ _ _ Hput) as (pi & epi & Hpi & Hwi & Hepi & Hci).
  apply calls_of_elem_pos in Hgetj as (gj & egj & Hgj & Hwj & Hegj).
  assert (pi < gj) as Hlt by exact (Hb _ _ _ _ Hpi Hgj Hwi Hwj).
  rewrite <-Hci in Hbefore. apply calls_of_take_elem in Hbefore as (gi & egi & Hlti & Hgi & _ & Hegi).
  destruct (get_source _ _ _ _ _ _ _ Hr Hgi Hegi (lookup_empty _)) as (mi & emi & xi & oi & Hmi & Hlmi & Hemi & _).
  destruct (get_source _ _ _ _ _ _ _ Hr Hgj Hegj (lookup_empty _))
    as (mj & emj & xj & oj & Hmj & Hlmj & Hemj & _ & Hbetween).
  assert (¬ mj < pi) as Hge.
  { intros Hlt'. destruct (Hbetween pi epi ltac:(lia) Hpi) as [Hnp _].
    rewrite (put_effective c pi epi _ v x) in Hnp; done. }
  destruct Htok as (ea & Hin & Hea). apply elem_of_list_lookup in Hin as [a Ha].
  assert (mi = mj) as Heq2; [|lia].
  by eapply (token_nonces c a ea mi mj).
Qed.

(** ** deferred *)

Lemma deferred_iff r es o resp :
  runs (deferred r) es o →
  (o = Ok resp ↔ ∃ h0 es_c cr c, es = h0 ++ es_c ∧ credential_request_of (QDeferred r) h0 cr ∧
     runs (credential cr) es_c (Ok resp) ∧ crs_response resp = CRCredential c).
Proof.
  intros H. split.
  - intros ->. apply deferred_ok in H as (st & t & txn & cr & es_c & c & Hes & He & Hs & Hc & Hr).
    eexists _, es_c, _, c. split; [exact Hes|]. split; [|done]. cbn. exists st, t, txn, cr.
    apply is_expired_false in He. done.
  - intros (h0 & es_c & cr' & c & -> & (st & t & txn & cr & -> & Hl & Hs & ->) & Hr & Hc).
    eapply runs_det; [exact H|]. unfold deferred.
    apply is_expired_false in Hl.
    unfold sget, get. cbn. eexists. split; [done|]. cbn. eexists t. split; [done|]. rewrite Hl. cbn.
    rewrite Hs. cbn. exists true. split; [done|]. cbn. rewrite <-(app_nil_r es_c).
    change (runs (let! response := credential (CredentialRequest (dr_credential_issuer r) (dr_access_token r)
      (cr_credential cr) (cr_proof cr)) in
      match crs_response response with
      | CRTransactionId _ => fail (IssuancePending 5)
      | CRCredential _ => ok response
      end) (es_c ++ []) (Ok resp)).
    apply runs_bind_ok. exists es_c, [], resp. split; [done|]. split; [done|]. by rewrite Hc.
Qed.

Lemma deferred_read r es o :
  runs (deferred r) es o → ∃ v es', es = Get (dr_transaction_id r) v :: es' ∧
    (v = None → es' = [] ∧ o = Err (InvalidTransactionId "deferred state not found")).
Proof.
  unfold deferred. unfold sget, get. cbn [bind]. intros H.
  destruct es as [|e es]; [done|]. destruct H as (v & -> & H). exists v, es. split; [done|].
  intros ->. cbn in H. apply runs_ret in H as [-> <-]. done.
Qed.

(** The transaction was found and removed. *)
Definition taken (k : string) (es : ihist) : Prop :=
  ∃ st t es', es = Get k (Some st) :: X (VNow t) :: Purge k true :: es' ∧ key_kind (s_stage st) GTransactionId.

Lemma deferred_taken r es o :
  runs (deferred r) es o → (∃ resp, o = Ok resp) ∨ (∃ n, o = Err (IssuancePending n)) →
  taken (dr_transaction_id r) es.
Proof.
  intros H Ho.
  assert (wp (λ _ _, True) (λ h o, (∃ resp, o = Ok resp) ∨ (∃ n, o = Err (IssuancePending n)) →
    taken (dr_transaction_id r) h) (deferred r) []) as Hwp.
  2:{ exact (wp_runs _ _ _ _ _ _ Hwp H Ho). }
  clear H Ho es o. unfold deferred.
  iwx st'. apply wp_bind, wp_of_opt; [intros st Hst|intros Hst]; unfold bindQ; [|by intros [[]|[]]].
  subst. iwx t. apply wp_bind, wp_ensure; intros He; unfold bindQ; [|by intros [[]|[]]].
  destruct (s_stage st) as [| | | | | | |txn cr] eqn:Hs; try (iwp; by intros [[]|[]]).
  apply wp_bind. iwp1; [done|unfold bindQ|by intros [[]|[]]].
  apply wp_prefix, wp_intro; [done|]. intros es o Hr [z Hz] _. rewrite Hz.
  exists st, t, z. rewrite Hs. split; [done|]. done.
Qed.

Lemma deferred_spent (c : iconfig) i j ri rj oi oj :
  ireach c → fresh (c_log c) →
  answered c i (QDeferred ri) oi → (∃ resp, oi = Ok resp) ∨ (∃ n, oi = Err (IssuancePending n)) →
  answered c j (QDeferred rj) oj → dr_transaction_id ri = dr_transaction_id rj → before (c_log c) i j →
  oj = Err (InvalidTransactionId "deferred state not found").
Proof.
  intros Hr Hf Hi Hoi Hj Hid Hb.
  apply answered_runs in Hi as Hri; [|done]. apply handler_outcome in Hri as (oi' & Hri & ->).
  apply answered_runs in Hj as Hrj; [|done]. apply handler_outcome in Hrj as (oj' & Hrj & ->).
  apply deferred_taken in Hri as (st & t & es & Hci & Hk).
  2:{ destruct oi'; naive_solver. }
  apply deferred_read in Hrj as (v & es' & Hcj & Hn). rewrite <-Hid in Hcj.
  assert (one_shot GTransactionId) as Hone by by right; right.
  destruct (read_generated c i (dr_transaction_id ri) st GTransactionId Hr) as (a & ea & Ha & Hea);
    [rewrite Hci; set_solver|done..|].
  assert (v = None) as Hv.
  { eapply (one_shot_gone c a ea GTransactionId (dr_transaction_id ri) i j st v [] [_] es); eauto.
    rewrite Hcj. set_solver. }
  destruct (Hn Hv) as [_ ->]. done.
Qed.

Lemma deferred_once (c : iconfig) i j ri rj di dj :
  ireach c → fresh (c_log c) → i ≠ j →
  answered c i (QDeferred ri) (Ok (RDeferred di)) → answered c j (QDeferred rj) (Ok (RDeferred dj)) →
  dr_transaction_id ri = dr_transaction_id rj → overlap (c_log c) i j.
Proof.
  intros Hr Hf Hij Hi Hj Hid. split; intros Hb.
  - eapply (deferred_spent c i j) in Hb; eauto. done.
  - eapply (deferred_spent c j i) in Hb; eauto. done.
Qed.

(** The saved request is that of the request that generated the transaction id. *)
Lemma deferred_source (c : iconfig) i r st txn cr :
  ireach c → Get (dr_transaction_id r) (Some st) ∈ calls_of i (c_log c) → s_stage st = Deferred txn cr →
  txn = dr_transaction_id r ∧
  ∃ j q p h0 h1, c_pool c !! j = Some (q, p) ∧ h0 ++ h1 `prefix_of` calls_of j (c_log c) ∧
    credential_request_of q h0 cr ∧ X (VGen GTransactionId (dr_transaction_id r)) ∈ h1.
Proof.
  intros Hr Hin Hs. apply calls_of_elem_pos in Hin as (g & eg & Hg & _ & Heg).
  destruct (get_source _ _ _ _ _ _ _ Hr Hg Heg (lookup_empty _)) as (m & em & x & o & _ & Hm & Hem & _).
  destruct (pos_path _ _ _ _ _ Hr Hm) as (q & p & es2 & Hq & Hp). rewrite Hem in Hp.
  apply releases_source in Hp as (r' & h0 & h1 & Hh & Hcr & st' & tok & subj & iss & auth & cfg & did & _ & _ & Hok).
  2:{ simpl. by rewrite Hs. }
  destruct Hok as (ds & t & Hs' & Hgen & _). rewrite Hs in Hs'. injection Hs' as -> ->. split; [done|].
  exists (e_who em), q, p, h0, h1. split; [done|]. split; [|done].
  rewrite <-Hh. destruct (pos_calls_of (e_who em) _ _ _ Hm eq_refl) as (z & ->). by eexists.
Qed.

(** ** notification *)

Lemma no_issued (c : iconfig) n en k v x o cr :
  ireach c → c_log c !! n = Some en → e_ev en = Put k v x o → s_stage v ≠ Issued cr.
Proof.
  intros Hr Hn He Hs. destruct (put_pos _ _ _ _ _ _ _ Hr Hn He) as (q & p & _ & Hp).
  unfold put_from, credential_put in Hp. destruct q; rewrite ?Hs in Hp; try done.
  by destruct Hp as (? & ? & ? & _ & _ & _ & []).
Qed.

Lemma notification_never (c : iconfig) i r o :
  ireach c → answered c i (QNotification r) (Ok o) → False.
Proof.
  intros Hr Hi. apply answered_runs in Hi as Hri; [|done]. cbn [ihandler] in Hri.
  apply runs_bind_ok in Hri as (es1 & es2 & u & Hes & Hn & _).
  apply notification_ok in Hn as (st & cr & -> & Hs).
  assert (Get (nr_notification_id r) (Some st) ∈ calls_of i (c_log c)) as Hin by (rewrite Hes; set_solver).
  apply calls_of_elem_pos in Hin as (g & eg & Hg & _ & Heg).
  destruct (get_source _ _ _ _ _ _ _ Hr Hg Heg (lookup_empty _)) as (m & em & x & o' & _ & Hm & Hem & _).
  by eapply no_issued.
Qed.

Lemma notification_iff r es o :
  runs (notification r) es o →
  (o = Ok tt ↔ ∃ st cr, es = [Get (nr_notification_id r) (Some st); Purge (nr_notification_id r) true] ∧
     s_stage st = Issued cr).
Proof.
  intros H. split.
  - intros ->. by apply notification_ok in H.
  - intros (st & cr & -> & Hs). eapply runs_det; [exact H|]. unfold notification.
    apply runs_bind_ok. eexists [_], [_], (Some st). split; [done|]. split; [by apply runs_sget|].
    apply runs_bind_ok. eexists [], [_], st. split; [done|]. split; [by apply runs_ok|].
    rewrite Hs. by apply runs_spurge.
Qed.

(** ** Consequences *)

Lemma credential_unknown r es o :
  runs (credential r) (Get (cr_access_token r) None :: es) o →
  es = [] ∧ o = Err (AccessDenied "invalid access token").
Proof. intros H. apply credential_first in H as (v & es' & [= <- <-] & Hn). by apply Hn. Qed.

Lemma credential_possession r es resp :
  runs (credential r) es (Ok resp) →
  ∃ st tok iss auth cfg did, entitled r es st tok iss auth cfg did ∧
    ∀ types, cc_proof_types cfg = Some types →
      "jwt" ∈ types ∧ ∃ pr kids, cr_proof r = Some pr ∧
        Forall2 (λ jwt kid, ∃ p, X (VDecodeProof jwt (Some p)) ∈ es ∧ pj_typ_is_proof p = true ∧
                   pj_nonce p = Some (tk_c_nonce tok) ∧ pj_kid p = Some kid) (proof_jwts pr) kids ∧
        (proof_jwts pr ≠ [] → ∃ kid, last kids = Some kid ∧ up_to "#" kid did).
Proof.
  intros H. apply credential_entitled in H as (st & tok & iss & auth & cfg & did & He).
  exists st, tok, iss, auth, cfg, did. split; [done|]. intros types Ht.
  pose proof (en_possession _ _ _ _ _ _ _ _ He) as Hp. unfold possession in Hp. rewrite Ht in Hp.
  destruct Hp as (Hj & pr & kids & Hpr & Hf & Hdid). split; [done|]. exists pr, kids.
  split; [done|]. split; [done|]. intros Hne. destruct (last kids) as [kid|] eqn:El; [eauto|].
  apply last_None in El as ->. by inversion Hf.
Qed.

Lemma credential_signed_for r p h signer v jwt h' :
  path (credential r) (h ++ X (VSignVc signer v jwt) :: h') p →
  ∃ st tok iss auth cfg did, entitled r h st tok iss auth cfg did ∧
    vcc_sub v = did ∧ ∃ claims, vc_subject (vcc_vc v) = QOne (CredentialSubject (Some did) claims).
Proof.
  intros H. apply (wp_event _ _ _ _ [] _ _ _ (credential_releases r)) in H; [|done].
  destruct H as (st & tok & subj & iss & auth & cfg & did & He & _ & Hok).
  destruct Hok as (def & types & type & ds & status & date & _ & _ & _ & _ & _ & _ & _ & _ & Hs).
  exists st, tok, iss, auth, cfg, did. split; [done|]. destruct Hs. eauto.
Qed.

Lemma forallb_decode (es : ihist) :
  forallb (λ e, negb (is_decode e)) es = true → ∀ e, e ∈ es → is_decode e = false.
Proof. rewrite forallb_elem. intros H e He. apply H in He. by destruct (is_decode e). Qed.

Lemma credential_new_nonce r es resp :
  runs (credential r) es (Ok resp) → ∀ cred, crs_response resp = CRCredential cred →
  ∃ st tok nonce t1 t2, Get (cr_access_token r) (Some st) ∈ es ∧ s_stage st = Validated tok ∧
    crs_c_nonce resp = Some nonce ∧ X (VGen GNonce nonce) ∈ es ∧ X (VNow t1) ∈ es ∧ X (VNow t2) ∈ es ∧
    Put (tk_access_token tok) (State (s_subject_id st) (Validated (Token (tk_access_token tok) nonce
      (t2 + minutes 10)%Z (tk_credentials tok))) (t1 + minutes 15)%Z) (t1 + minutes 15)%Z true ∈ es.
Proof.
  intros H cred Hc. apply credential_ok in H as (st & tok & iss & es_o & auth & cfg & t1 & t2 & es_p & did &
    subj & ds0 & es_t & -> & Hs & _ & _ & _ & _ & _ & _ & Hd).
  destruct (ds_pending ds0). { by destruct Hd as (? & ? & _ & ->). }
  destruct Hd as (t0 & es_b & jwt & t3 & nonce & t4 & nid & t5 & -> & _ & ->).
  exists st, tok, nonce, t3, t4. cbn. split_and!; try done; set_solver.
Qed.

Lemma credential_invalid_proof_saves r es hint nonce secs :
  runs (credential r) es (Err (InvalidProof hint nonce secs)) →
  ∃ st tok es' t1 t2, s_stage st = Validated tok ∧ secs = 600%Z ∧
    es = Get (cr_access_token r) (Some st) :: es' ++
      [X (VGen GNonce nonce); X (VNow t1); X (VNow t2);
       Put (tk_access_token tok) (State (s_subject_id st) (Validated (Token (tk_access_token tok) nonce
         (t2 + minutes 10)%Z (tk_credentials tok))) (t1 + minutes 15)%Z) (t1 + minutes 15)%Z true] ∧
    (∀ k v x b, Put k v x b ∉ es') ∧ (∀ e, e ∈ es' → releases e = false).
Proof.
  intros H. apply credential_invalid_proof in H as (st & tok & Hs & es' & t1 & t2 & Hes & -> & Hn & Hr).
  exists st, tok, es', t1, t2. split_and!; try done.
  - intros k v x b Hin. unfold no_puts in Hn. rewrite Forall_forall in Hn. by apply Hn in Hin.
  - by rewrite Forall_forall in Hr.
Qed.

Lemma invalid_proof_key (c : iconfig) i r hint nonce secs :
  ireach c → fresh (c_log c) → is_token (c_log c) (cr_access_token r) →
  answered c i (QCredential r) (Err (InvalidProof hint nonce secs)) →
  ∃ v x tok, Put (cr_access_token r) v x true ∈ calls_of i (c_log c) ∧ s_stage v = Validated tok ∧
    tk_c_nonce tok = nonce ∧ tk_access_token tok = cr_access_token r.
Proof.
  intros Hr Hf Htok Hi. apply answered_runs in Hi as Hri; [|done].
  apply handler_outcome in Hri as ([a|e|w] & Hri & Heq); [done| |done]. injection Heq as <-.
  apply credential_invalid_proof_saves in Hri as (st & tok & es' & t1 & t2 & Hs & _ & Hes & _).
  destruct (token_key c i (cr_access_token r) st Hr Hf Htok) as (tok' & Hs' & Hk).
  { rewrite Hes. left. }
  rewrite Hs in Hs'. injection Hs' as <-. rewrite Hk in Hes.
  eexists _, _, _. split; [rewrite Hes; right; apply elem_of_app; right; do 3 right; left|]. done.
Qed.

Lemma signed_content q p h signer v jwt h' :
  path (ihandler q) (h ++ X (VSignVc signer v jwt) :: h') p →
  ∃ r h0 h1 st tok subj iss auth cfg did def types type ds status date,
    h = h0 ++ h1 ∧ credential_request_of q h0 r ∧ entitled r h1 st tok iss auth cfg did ∧
    s_subject_id st = Some subj ∧
    cc_format cfg = FJwtVcJson def ∧ cd_type def = Some types ∧ types !! 1 = Some type ∧
    X (VDataset subj (au_identifier auth) (Some ds)) ∈ h ∧ ds_pending ds = false ∧
    X (VStatus subj "credential_identifier" (Some status)) ∈ h ∧ X (VNow date) ∈ h ∧
    signer = cr_credential_issuer r ∧
    signed_claims (is_credential_issuer iss) did type status
      (restrict (named (cr_credential r)) (restrict (au_claim_ids auth) (ds_claims ds))) date v.
Proof.
  intros H. apply releases_source in H as (r & h0 & h1 & -> & Hcr & st & tok & subj & iss & auth & cfg & did &
    He & Hs & Hok); [|done].
  destruct Hok as (def & types & type & ds & status & date & H1 & H2 & H3 & H4 & H5 & H6 & H7 & H8 & H9).
  exists r, h0, h1, st, tok, subj, iss, auth, cfg, did, def, types, type, ds, status, date.
  split_and!; try done; apply elem_of_app; by right.
Qed.

Lemma signed_mdl q p h signer claims mdl h' :
  path (ihandler q) (h ++ X (VSignMdl signer claims mdl) :: h') p →
  ∃ r h0 h1 st tok subj iss auth cfg did doctype cs ds,
    h = h0 ++ h1 ∧ credential_request_of q h0 r ∧ entitled r h1 st tok iss auth cfg did ∧
    s_subject_id st = Some subj ∧ cc_format cfg = FIsoMdl doctype cs ∧
    X (VDataset subj (au_identifier auth) (Some ds)) ∈ h ∧ ds_pending ds = false ∧
    signer = cr_credential_issuer r ∧
    claims = restrict (named (cr_credential r)) (restrict (au_claim_ids auth) (ds_claims ds)).
Proof.
  intros H. apply releases_source in H as (r & h0 & h1 & -> & Hcr & st & tok & subj & iss & auth & cfg & did &
    He & Hs & Hok); [|done].
  destruct Hok as (doctype & cs & ds & H1 & H2 & H3 & H4 & H5).
  exists r, h0, h1, st, tok, subj, iss, auth, cfg, did, doctype, cs, ds.
  split_and!; try done; apply elem_of_app; by right.
Qed.

Lemma credential_returned r es resp cred :
  runs (credential r) es (Ok resp) → crs_response resp = CRCredential cred →
  ∃ jwt, cred = KString jwt ∧
    ((∃ signer v, X (VSignVc signer v (Some jwt)) ∈ es) ∨
     (∃ signer cl, X (VSignMdl signer cl (Some jwt)) ∈ es)).
Proof.
  intros H Hc. apply credential_ok in H as (st & tok & iss & es_o & auth & cfg & t1 & t2 & es_p & did &
    subj & ds0 & es_t & -> & Hs & _ & _ & _ & _ & _ & _ & Hd).
  destruct (ds_pending ds0). { by destruct Hd as (? & ? & _ & ->). }
  destruct Hd as (t0 & es_b & jwt & t3 & nonce & t4 & nid & t5 & -> & Hi & ->).
  injection Hc as <-. exists jwt. split; [done|]. unfold issued_by in Hi.
  destruct (cc_format cfg); try done.
  - destruct Hi as (types & ctype & sub & status & v & vcl & _ & _ & _ & _ & _ & ->).
    left. exists (cr_credential_issuer r), vcl. set_solver.
  - subst es_b. right. eexists (cr_credential_issuer r), _. do 2 (apply elem_of_app; right). apply elem_of_app; right.
    do 2 (apply elem_of_app; right). apply elem_of_app; right. apply elem_of_app; left. left.
Qed.

Lemma deferred_lost (c : iconfig) i j ri rj n oj :
  ireach c → fresh (c_log c) →
  answered c i (QDeferred ri) (Err (IssuancePending n)) →
  answered c j (QDeferred rj) oj → dr_transaction_id ri = dr_transaction_id rj → before (c_log c) i j →
  oj = Err (InvalidTransactionId "deferred state not found").
Proof. intros Hr Hf Hi Hj Hid Hb. eapply (deferred_spent c i j); eauto. Qed.

Lemma deferred_entitled r es resp :
  runs (deferred r) es (Ok resp) →
  ∃ h0 es_c cr st tok iss auth cfg did, es = h0 ++ es_c ∧ credential_request_of (QDeferred r) h0 cr ∧
    entitled cr es_c st tok iss auth cfg did ∧ cr_access_token cr = dr_access_token r.
Proof.
  intros H. apply (deferred_iff r es (Ok resp) resp) in H as Hiff.
  destruct Hiff as [Hiff _]. destruct (Hiff eq_refl) as (h0 & es_c & cr & c & -> & Hcr & Hrun & _).
  apply credential_entitled in Hrun as (st & tok & iss & auth & cfg & did & He).
  exists h0, es_c, cr, st, tok, iss, auth, cfg, did. split_and!; try done.
  by destruct Hcr as (? & ? & ? & ? & _ & _ & _ & ->).
Qed.

(** Tokens restrict no claims. *)
Lemma authorized_no_claims items key auth :
  (key, auth) ∈ authorized_credentials items → au_claim_ids auth = None.
Proof.
  unfold authorized_credentials. revert key auth.
  induction items as [|it items IH] using rev_ind; [by intros ? ? ?%elem_of_nil|].
  rewrite foldl_app. simpl. set (m0 := foldl _ [] items) in *. clearbody m0.
  induction (ai_identifiers it) as [|id ids IHi] using rev_ind; [done|].
  rewrite foldl_app. simpl. set (m1 := foldl _ m0 ids) in *. clearbody m1. intros key auth.
  assert (∀ m : list (string * authorized), (key, auth) ∈ ainsert id (Authorized id (ai_configuration_id it) None) m →
    (key, auth) ∈ m ∨ au_claim_ids auth = None) as Hm.
  { clear. induction m as [|[k a] m IH]; simpl.
    - rewrite elem_of_list_singleton. intros [= -> ->]. by right.
    - case_bool_decide; rewrite !elem_of_cons.
      + intros [[= -> ->]|Hin]; auto.
      + intros [Hin|Hin]; [auto|]. destruct (IH Hin); auto. }
  intros Hin. destruct (Hm _ Hin); eauto.
Qed.
Lemma put_no_claim_ids (c : iconfig) n en k v x o tok key auth :
  ireach c → c_log c !! n = Some en → e_ev en = Put k v x o → s_stage v = Validated tok →
  (key, auth) ∈ tk_credentials tok → au_claim_ids auth = None.
Proof.
  intros Hr. revert en k v x o tok. induction n as [n IH] using lt_wf_ind.
  intros en k v x o tok Hn He Hs Hin.
  destruct (put_pos _ _ _ _ _ _ _ Hr Hn He) as (q & p & Hq & Hp).
  assert (∀ r, credential_put r (calls_of (e_who en) (take n (c_log c))) k v x → au_claim_ids auth = None) as Hc.
  { intros r Hcp. unfold credential_put in Hcp. rewrite Hs in Hcp.
    destruct Hcp as (st & tok0 & t & Hget & Hst & _ & _ & Hcs & _).
    destruct (read_pos _ _ _ _ _ Hr Hget) as (g & m & em & x' & o' & Hlt & Hm & Hem).
    rewrite Hcs in Hin. eapply (IH m); eauto; lia. }
  unfold put_from in Hp. destruct q; rewrite ?Hs in Hp; try done.
  - destruct Hp as (st & items & _ & _ & _ & _ & _ & _ & _ & _ & _ & Hcs & _).
    rewrite Hcs in Hin. by eapply authorized_no_claims.
  - by eapply Hc.
  - destruct Hp as (st & txn & cr & _ & _ & _ & Hp). by eapply Hc.
Qed.

Lemma token_no_claim_ids (c : iconfig) i k st tok key auth :
  ireach c → Get k (Some st) ∈ calls_of i (c_log c) → s_stage st = Validated tok →
  (key, auth) ∈ tk_credentials tok → au_claim_ids auth = None.
Proof.
  intros Hr Hg Hs Hin. rewrite <- (firstn_all (c_log c)) in Hg.
  destruct (read_pos _ _ _ _ _ Hr Hg) as (g & m & em & x' & o' & Hlt & Hm & Hem).
  eapply put_no_claim_ids; eauto.
Qed.

Lemma credential_bearer (c : iconfig) i r resp :
  ireach c → answered c i (QCredential r) (Ok (RCredential resp)) →
  ∃ en, en ∈ c_log c ∧ (e_ev en = X (VGen GToken (cr_access_token r)) ∨
                        e_ev en = X (VGen GNotificationId (cr_access_token r))).
Proof.
  intros Hr Hi. apply answered_runs in Hi as Hri; [|done].
  apply handler_outcome in Hri as ([a|e|w] & Hri & Heq); [|done|done].
  apply credential_ok in Hri as (st & tok & iss & es_o & auth & cfg & t1 & t2 & es_p & did &
    subj & ds0 & es_t & Hes & Hs & _).
  assert (Get (cr_access_token r) (Some st) ∈ calls_of i (take (length (c_log c)) (c_log c))) as Hg.
  { rewrite firstn_all, Hes. left. }
  destruct (read_pos _ _ _ _ _ Hr Hg) as (g & m & em & x' & o' & Hlt & Hm & Hem).
  destruct (key_origin c m em _ _ _ _ Hr Hm Hem) as [(? & ? & ? & Hs' & _)|(g' & b & eb & Hk & _ & Hb & Heb & _)].
  - by rewrite Hs in Hs'.
  - exists eb. split; [by eapply elem_of_list_lookup_2|]. rewrite Hs in Hk. destruct Hk as [->| ->]; auto.
Qed.

(** Two credentials for one nonce take two requests that overlap. *)
Lemma nonce_overlap (c : iconfig) i j ri rj respi respj credi credj jwt p jwt' p' nonce :
  ireach c → fresh (c_log c) → is_token (c_log c) (cr_access_token ri) →
  cr_access_token rj = cr_access_token ri →
  answered c i (QCredential ri) (Ok (RCredential respi)) → crs_response respi = CRCredential credi →
  answered c j (QCredential rj) (Ok (RCredential respj)) → crs_response respj = CRCredential credj →
  X (VDecodeProof jwt (Some p)) ∈ calls_of i (c_log c) → pj_nonce p = Some nonce →
  X (VDecodeProof jwt' (Some p')) ∈ calls_of j (c_log c) → pj_nonce p' = Some nonce →
  overlap (c_log c) i j.
Proof.
  intros Hr Hf Ht Heq Hi Hci Hj Hcj Hpi Hni Hpj Hnj. split; intros Hb.
  - destruct (nonce_not_reused c i j ri rj respi credi _ jwt p jwt' p' nonce Hr Hf Ht Heq Hi Hci Hpi Hni Hb Hj Hpj Hnj)
      as [(? & ? & ? & [=])|[=]].
  - rewrite <-Heq in Ht.
    destruct (nonce_not_reused c j i rj ri respj credj _ jwt' p' jwt p nonce Hr Hf Ht (eq_sym Heq) Hj Hcj Hpj Hnj Hb Hi Hpi Hni)
      as [(? & ? & ? & [=])|[=]].
Qed.
