(** C140: a wallet and a verifier that talk in text. *)
From Verif Require Import Base Json JsonParse CoreModel VcModel Prog ProgFacts ExecSpec ExecFacts Sched Sha256 IssuerTypes
  MatcherModel MatcherSpec MatcherFacts MatcherExample VerifierModel VerifierSpec VerifierFacts VerifierExec VerifierExample
  HolderModel HolderSpec HolderExec HolderProps PresentFacts SerdeSpec SerdeModel SerdeText QueryModel SerdeQuery VcSerde SerdeTrips DifSerde DifSpec
  PresentTextSpec PresentTextFacts P_PresentVerify.
From Verif Require UrlModel HolderExample SerdeExample.

(** When the wallet is told that its presentation is accepted, the verifier accepted it; it was judged against the
    request that the wallet got, that its owner saw and consented to, and that the verifier once created; and it is
    acceptable. *)
Theorem C140_agreement cx lb (c : hconfig) (cv : vconfig) f n i uri rr a :
  dates_read cx → hreach c → reachable (vhandler lb) ∅ cv → well_supplied cv → harmless_links cv → vfresh (c_log cv) → talks cx c cv f →
  made c n i (HX (EPresent uri rr (Some a))) →
  ∃ id n1 i1 n2 i2 url req j k q st,
    asked c i (HPresent id) ∧ n1 < n2 < n ∧ asked c i1 (HRequest url) ∧ saved c n1 i1 id ∧ asked c i2 (HConsent id) ∧ saved c n2 i2 id ∧
    (∃ m, m < n1 ∧ (made c m i1 (HX (EParseRequest url (Some req))) ∨ ∃ jwt, made c m i1 (HX (EDecodeRequest jwt (Some req))))) ∧
    created_by cv j k q st ∧ vs_request st = req ∧
    answered cv (f n) (VResponse rr) (Ok (VRResponse a)) ∧ VGet k (Some st) ∈ calls_of (f n) (c_log cv) ∧
    acceptable lb (seen (calls_of (f n) (c_log cv))) req rr.
Proof. intros Hd Hr Hv Hw Hl Hf Ht. exact (agreement cx Hd lb c Hr cv Hv f Hw Hl Ht Hf n i uri rr a). Qed.
Print Assumptions C140_agreement.
(** Whatever the answer: if keys and the JSONPath library work as they should, the verifier accepts a presentation of the
    wallet whose state it still has exactly when the first credential the wallet found for the first descriptor of the
    request it got fulfils every descriptor of that request. *)
Theorem C140_verdict cx lb (c : hconfig) (cv : vconfig) f su n i uri rr x :
  dates_read cx → hreach c → reachable (vhandler lb) ∅ cv → well_supplied cv → harmless_links cv → vfresh (c_log cv) → talks cx c cv f →
  verifies_as_signed c su → one_credential_per_token su → finds_first (lb_engine lb) → made c n i (HX (EPresent uri rr x)) →
  ∃ i1 url req creds d x0 rest,
    asked c i1 (HRequest url) ∧
    (∃ m, m < n ∧ (made c m i1 (HX (EParseRequest url (Some req))) ∨ ∃ jwt, made c m i1 (HX (EDecodeRequest jwt (Some req))))) ∧
    vo_definition req = KObject d ∧ pd_input_descriptors d = x0 :: rest ∧
    (∃ m, m < n ∧ made c m i1 (HX (EFind (id_constraints x0) (Some creds)))) ∧
    ∀ j o key st, answered cv j (VResponse rr) o → as_in su (calls_of j (c_log cv)) → rq_state rr = Some key →
      VGet key (Some st) ∈ calls_of j (c_log cv) → (∀ k, VPurge k false ∉ calls_of j (c_log cv)) →
      (∃ y, o = Ok y) ↔ ∃ c1 cs, creds = c1 :: cs ∧ fits_all lb su d (wc_issued c1).
Proof. intros Hd Hr Hv Hw Hl Hf Ht. exact (verdict cx lb c Hr cv Hv f Hw Hl Ht Hf su n i uri rr x). Qed.
Print Assumptions C140_verdict.
(** The wallet is told twice that a presentation for the same request is accepted only if the verifier worked on the two at
    the same time. *)
Theorem C140_once cx lb (c : hconfig) (cv : vconfig) f n n' i i' u u' r r' a a' :
  dates_read cx → hreach c → reachable (vhandler lb) ∅ cv → vfresh (c_log cv) → talks cx c cv f →
  made c n i (HX (EPresent u r (Some a))) → made c n' i' (HX (EPresent u' r' (Some a'))) → n ≠ n' → rq_state r = rq_state r' →
  overlap (c_log cv) (f n) (f n').
Proof. intros Hd Hr Hv Hf Ht. exact (accepted_once cx Hd lb c Hr cv Hv f Ht Hf n n' i i' u u' r r' a a'). Qed.
Print Assumptions C140_once.

(** ** Both sides, in text *)

(** A verifier whose signer makes the token the wallet of the examples gets. *)
Definition signing_orc (w : vworld) (log : list (entry VSig)) (who : nat) (x : vcall) : vans x :=
  match x with
  | YSign _ _ => Some "request"
  | x => ex_vorc w log who x
  end.
Definition accepting : response_response := ResponseResponse (Some "http://localhost:3000/cb") None.
Definition wallet : hconfig :=
  HolderExample.hafter
    (HolderExample.HWorld IssuerExample.ex_issuer IssuerExample.ex_server (λ _ _, None)
       (map HolderExample.ex_wcredential ["vc"]) (request_of [employee]) (λ _ _, Some accepting))
    (HolderExample.hserially [HRequest "request_uri"; HConsent "id1"; HPresent "id1"]).
Definition calls : list vrequest :=
  [asks_for [employee]; VObject (RequestObjectRequest "http://verifier" "uri1"); VResponse (sent_by wallet)].
Definition verifier : vconfig :=
  default (Config [] []) (exec (vhandler ex_libs) ∅ (signing_orc (VWorld (λ _, seconds 9) (decodes_for wallet)))
    (vserially calls) (Config [] [])).
(** The request is from the second call and the answer to the presentation from the third. *)
Definition told_in (n : nat) : nat := if bool_decide (n = 3) then 1 else 2.

Lemma in_two {A B} (x x1 x2 : A) (y y1 y2 : B) : (x, y) ∈ [(x1, y1); (x2, y2)] → (x = x1 ∧ y = y1) ∨ (x = x2 ∧ y = y2).
Proof. intros [[= -> ->]|[= -> ->]%elem_of_list_singleton]%elem_of_cons; auto. Qed.
Lemma ex_wallet_told n i e : made wallet n i e → from_verifier e = true →
  (n = 3 ∧ e = HX (EDecodeRequest "request" (Some (request_of [employee])))) ∨
  (n = 16 ∧ ∃ uri, e = HX (EPresent uri (sent_by wallet) (Some accepting))).
Proof.
  intros [eff H] Hv.
  assert ((n, e) ∈ omap id (imap (λ n (en : entry HSig), if from_verifier (e_ev en) then Some (n, e_ev en) else None) (c_log wallet))) as Hin.
  { apply elem_of_list_omap. exists (Some (n, e)). split; [|done]. apply elem_of_lookup_imap. exists n, (Entry i e eff). split; [|done].
    simpl. by rewrite Hv. }
  replace (omap id (imap _ (c_log wallet))) with
    [(3, HX (EDecodeRequest "request" (Some (request_of [employee]))) : hevent);
     (16, HX (EPresent (Some "http://verifier/post") (sent_by wallet) (Some accepting)))] in Hin by (vm_compute; reflexivity).
  apply in_two in Hin as [[H1 H2]|[H1 H2]]; [left; exact (conj H1 H2)|right]. split; [exact H1|]. eexists. exact H2.
Qed.
Lemma ex_verifier_reach : reachable (vhandler ex_libs) ∅ verifier.
Proof.
  unfold verifier. destruct (exec _ _ _ _ _) as [c|] eqn:E; simpl; [|apply reach_init]. eapply exec_reachable; [apply reach_init|exact E].
Qed.
Lemma ex_asked_of_verifier j q p : c_pool verifier !! j = Some (q, p) → q ∈ calls.
Proof.
  intros H. apply elem_of_list_lookup_2, (elem_of_list_fmap_1 fst) in H. replace (c_pool verifier).*1 with calls in H by (vm_compute; reflexivity). exact H.
Qed.
Lemma ex_verifier_supplied : well_supplied verifier.
Proof.
  split.
  - intros j r p d Hj Hd. apply ex_asked_of_verifier in Hj.
    apply elem_of_cons in Hj as [[= ->]|Hj].
    { apply elem_of_list_singleton in Hd as ->. intros l [= <-]. apply NoDup_singleton. }
    apply elem_of_cons in Hj as [[=]|Hj]. by apply elem_of_list_singleton in Hj.
  - intros j id m Hin. apply calls_of_elem in Hin.
    assert (Forall (λ en : entry VSig, match e_ev en with EExt (WVerifier _ (Some m)) => m = JObj [("client_id", JStr "http://verifier"); ("client_name", JStr "A verifier")] | _ => True end)
      (c_log verifier)) as Hf by (vm_compute; repeat constructor).
    destruct Hin as (en & Hin & _ & He). rewrite Forall_forall in Hf. specialize (Hf en Hin). rewrite He in Hf. simpl in Hf. subst m.
    exists (ClientMetadata "http://verifier" None None None None None None None None (Some "A verifier") None None None None None None None None None None None None).
    split; [done|reflexivity].
Qed.
Lemma ex_verifier_links : harmless_links verifier.
Proof.
  intros i q x o Ha Ho. pose proof Ha as Hp. apply ex_asked_of_verifier in Hp.
  assert (∀ q p, (q, p) ∈ c_pool verifier → match p with Ret (Ok (VRCreate x)) => vr_request_object x = None | _ => True end) as Hn.
  { intros q0 p0 H. assert (Forall (λ qp : vrequest * prog VSig (outcome error vreply), match qp.2 with Ret (Ok (VRCreate x)) => vr_request_object x = None | _ => True end) (c_pool verifier)) as Hf
      by (vm_compute; repeat constructor). exact (proj1 (Forall_forall _ _) Hf _ H). }
  apply elem_of_list_lookup_2, Hn in Ha. congruence.
Qed.
Lemma ex_talks : talks SerdeExample.ex_cx wallet verifier told_in.
Proof.
  split.
  - intros n i e Hm Hv. destruct (ex_wallet_told _ _ _ Hm Hv) as [[-> ->]|[-> [uri ->]]].
    + exists "http://verifier", (request_of [employee]). split; [|vm_compute; reflexivity].
      apply elem_of_list_lookup. exists 2. vm_compute. reflexivity.
    + exists (sent_by wallet), accepting. split; [vm_compute; reflexivity|]. split; [vm_compute; reflexivity|]. reflexivity.
  - intros n n' i i' u u' r r' a a' H H' _. apply ex_wallet_told in H as [[_ [=]]|[-> _]]; [|done].
    by apply ex_wallet_told in H' as [[_ [=]]|[-> _]].
Qed.
Example C140_example :
  hreach wallet ∧ reachable (vhandler ex_libs) ∅ verifier ∧ well_supplied verifier ∧ harmless_links verifier ∧ vfresh (c_log verifier) ∧
  dates_read SerdeExample.ex_cx ∧ talks SerdeExample.ex_cx wallet verifier told_in ∧
  (∃ uri, made wallet 16 2 (HX (EPresent uri (sent_by wallet) (Some accepting)))) ∧
  (let su := around wallet in verifies_as_signed wallet su ∧ one_credential_per_token su ∧ finds_first (lb_engine ex_libs) ∧
    as_in su (calls_of 2 (c_log verifier)) ∧ ∀ k, VPurge k false ∉ calls_of 2 (c_log verifier)).
Proof.
  split; [apply HolderExample.hafter_reach|]. split; [exact ex_verifier_reach|]. split; [exact ex_verifier_supplied|].
  split; [exact ex_verifier_links|]. split; [apply vfreshb_vfresh; vm_compute; reflexivity|].
  split; [exact SerdeExample.ex_dates|]. split; [exact ex_talks|].
  split; [eexists _, true; vm_compute; reflexivity|]. intros su.
  split; [eapply signed_once; vm_compute; reflexivity|]. split; [intros j s s' H1 H2; simpl in *; congruence|]. split; [exact ex_finds_first|].
  split; [apply as_around; vm_compute; repeat constructor|].
  intros k Hin. vm_compute in Hin. repeat (apply elem_of_cons in Hin as [Hin|Hin]; [discriminate|]). by apply elem_of_nil in Hin.
Qed.
