(** The wallet and the verifier talking in text: proofs. *)
From Verif Require Import Base Json JsonParse CoreModel VcModel Prog ProgFacts ExecSpec ExecFacts Sched IssuerTypes MatcherModel MatcherSpec
  VerifierModel VerifierSpec VerifierFacts VerifierExec HolderModel HolderSpec HolderExec HolderProps PresentFacts SerdeSpec SerdeModel SerdeText SerdeTrips QueryModel SerdeQuery
  VcSerde DifSerde DifSpec DifTrips DifExec DifQuery PresentTextSpec.
From Verif Require UrlModel.

Lemma response_answer_text r : read de_response_response (write ser_response_response r) = Some r.
Proof.
  apply (read_write _ _ _ 4); [|apply Nat.ltb_lt; reflexivity|apply de_response_response_ser].
  destruct r as [[u|] [v|]]; unfold ser_response_response; cbn [rs_redirect_uri rs_response_code null_or]; apply fine_obj; fns; done.
Qed.
(** Keys are not shared. *)
Lemma key_unique (c : vconfig) j j' k q q' st st' :
  vfresh (c_log c) → created_by c j k q st → created_by c j' k q' st' → j = j' ∧ q = q' ∧ st = st'.
Proof.
  intros Hf ((p & Hp) & n & d & m & t & x & o & Hc & _) ((p' & Hp') & n' & d' & m' & t' & x' & o' & Hc' & _).
  assert (j = j') as <-.
  { assert (Y (WGen GvUriToken k) ∈ calls_of j (c_log c)) as H1 by (rewrite <-Hc; by right; left).
    assert (Y (WGen GvUriToken k) ∈ calls_of j' (c_log c)) as H2 by (rewrite <-Hc'; by right; left).
    apply calls_of_elem_pos in H1 as (a & ea & Ha & <- & Hea). apply calls_of_elem_pos in H2 as (b & eb & Hb & <- & Heb).
    assert (a = b) as -> by exact (vfresh_pos c _ _ _ _ _ _ _ Hf Ha Hb Hea Heb). congruence. }
  split; [done|]. rewrite Hp in Hp'. rewrite <- Hc in Hc'. injection Hp' as <- _. split; [done|]. by injection Hc'.
Qed.
(** A request given to the owner is saved. *)
Lemma given_created lb (c : vconfig) i q x o : reachable (vhandler lb) ∅ c → answered c i (VCreate q) (Ok (VRCreate x)) →
  vr_request_object x = Some o → ∃ j k q st, created_by c j k q st ∧ o = vs_request st.
Proof.
  intros Hr Ha Ho. pose proof (answered_runs lb c Hr _ _ _ Ha) as Hp. apply vhandler_any in Hp as (o' & Hp & Ho').
  destruct o' as [y| |]; [|done..]. injection Ho' as <-.
  apply create_request_saved in Hp as (token & nonce & def_id & meta & t & obj & _ & _ & _ & _ & _ & _ & Hh & Hput & _).
  unfold handed_over in Hh. destruct (vq_device_flow q); subst x; simpl in Ho; [done|]. injection Ho as <-.
  destruct (put_created lb c i _ _ _ _ Hr Hput) as (q' & Hcr). by exists i, token, q', (VState (t + minutes 5)%Z obj).
Qed.

Section talk.
Context (cx : codecs) (Hd : dates_read cx) (lb : libs) (c : hconfig) (Hr : hreach c) (cv : vconfig) (Hv : reachable (vhandler lb) ∅ cv)
  (f : nat → nat) (Hw : well_supplied cv) (Hl : harmless_links cv) (Ht : talks cx c cv f) (Hf : vfresh (c_log cv)).

(** What the wallet takes for a request is one the verifier created, as it was. *)
Lemma request_created m i req url : (made c m i (HX (EParseRequest url (Some req))) ∨ ∃ jwt, made c m i (HX (EDecodeRequest jwt (Some req)))) →
  ∃ j k q st, created_by cv j k q st ∧ vs_request st = req ∧ vo_state req = Some k.
Proof.
  intros H. enough (∃ j k q st, created_by cv j k q st ∧ vs_request st = req) as (j & k & q & st & Hc & <-).
  { exists j, k, q, st. split; [done|]. split; [done|]. destruct Hc as (_ & n & d & mt & t & x & o & _ & _ & (_ & _ & Hs & _) & _). done. }
  destruct H as [H|[jwt H]]; apply (tk_told _ _ _ _ Ht) in H; [|done| |done].
  - destruct H as (q & x & o & Ha & Ho & -> & Hq). rewrite (vp_query_read o) in Hq.
    + injection Hq as ->. destruct (given_created lb cv _ _ _ _ Hv Ha Ho) as (j & k & q' & st & Hc & ->). by exists j, k, q', st.
    + exact (create_answer_readable lb cv _ _ _ Hv Hw Ha o Ho).
    + exact (Hl _ _ _ _ Ha Ho).
  - destruct H as (id & o & Hs & Hq). rewrite (signed_text lb cv _ _ _ _ Hv Hw Hs) in Hq. injection Hq as ->.
    destruct (sign_created lb cv _ _ _ _ Hv Hs) as (j & k & q & st & Hc & ->). by exists j, k, q, st.
Qed.
(** What was posted and accepted. *)
Lemma accepted_as_sent n i uri rr a : made c n i (HX (EPresent uri rr (Some a))) → answered cv (f n) (VResponse rr) (Ok (VRResponse a)).
Proof.
  intros Hm. destruct (tk_told _ _ _ _ Ht _ _ _ Hm eq_refl) as (rr' & x & Hq & Ha & Hx).
  rewrite (presented_text cx c n i uri rr (Some a) Hr Hd Hm) in Hq. injection Hq as <-.
  rewrite (response_answer_text x) in Hx. by injection Hx as ->.
Qed.
(** The state that the verifier finds for the wallet's presentation is that of the request the wallet answers. *)
Lemma state_is_the_requests n i uri rr x : made c n i (HX (EPresent uri rr x)) →
  ∃ id n1 i1 n2 i2 url req j k q st,
    asked c i (HPresent id) ∧ n1 < n2 < n ∧ asked c i1 (HRequest url) ∧ saved c n1 i1 id ∧ asked c i2 (HConsent id) ∧ saved c n2 i2 id ∧
    (∃ m, m < n1 ∧ (made c m i1 (HX (EParseRequest url (Some req))) ∨ ∃ jwt, made c m i1 (HX (EDecodeRequest jwt (Some req))))) ∧
    created_by cv j k q st ∧ vs_request st = req ∧ rq_state rr = Some k ∧
    (∀ i' k' st', rq_state rr = Some k' → VGet k' (Some st') ∈ calls_of i' (c_log cv) → st' = st).
Proof.
  intros Hm. destruct (made_says _ Hr _ _ _ Hm) as (q0 & Hq & id & -> & Hs).
  destruct Hs as (p & d & u1 & kid & u2 & v & t1 & t2 & t3 & jwt & Hg & Hst & Hdf & Hkid & Hvp & Hsign & Huri & ->).
  destruct (pprovenance_get _ Hr _ _ _ _ Hg) as (_ & n1 & Hlt & (i1 & url & Hs1 & Hq1 & Hfl & Hfind & Hreq) & Hc).
  rewrite Hst in Hc. destruct Hc as (n2 & i2 & Hn2 & Hs2 & Hq2).
  destruct Hreq as (m & Hm1 & Hreq). destruct (request_created _ _ _ _ Hreq) as (j & k & q & st & Hcr & Hst0 & Hk).
  exists id, n1, i1, n2, i2, url, (hp_request p), j, k, q, st. do 6 (split; [done|]). split; [by exists m|]. do 3 (split; [done|]).
  intros i' k' st' Hk' Hget. cbn [rq_state] in Hk'. rewrite Hk in Hk'. injection Hk' as <-.
  destruct (get_created lb cv Hv _ _ _ Hget) as (j' & q' & Hcr'). by destruct (key_unique cv _ _ _ _ _ _ _ Hf Hcr' Hcr) as (_ & _ & ->).
Qed.
Lemma verdict su n i uri rr x :
  verifies_as_signed c su → one_credential_per_token su → finds_first (lb_engine lb) → made c n i (HX (EPresent uri rr x)) →
  ∃ i1 url req creds d x0 rest,
    asked c i1 (HRequest url) ∧
    (∃ m, m < n ∧ (made c m i1 (HX (EParseRequest url (Some req))) ∨ ∃ jwt, made c m i1 (HX (EDecodeRequest jwt (Some req))))) ∧
    vo_definition req = KObject d ∧ pd_input_descriptors d = x0 :: rest ∧
    (∃ m, m < n ∧ made c m i1 (HX (EFind (id_constraints x0) (Some creds)))) ∧
    ∀ j o key st, answered cv j (VResponse rr) o → as_in su (calls_of j (c_log cv)) → rq_state rr = Some key →
      VGet key (Some st) ∈ calls_of j (c_log cv) → (∀ k, VPurge k false ∉ calls_of j (c_log cv)) →
      (∃ y, o = Ok y) ↔ ∃ c1 cs, creds = c1 :: cs ∧ fits_all lb su d (wc_issued c1).
Proof.
  intros H1 H2 H3 Hm. destruct (presented_fits c Hr lb su n i uri rr x H1 H2 H3 Hm) as
    (id & n1 & i1 & url & req & creds & d & x0 & rest & m & _ & Hn & Hq & _ & (m1 & Hm1 & Hreq) & Hdf & Hds & Hm2 & Hfind & Hst & Hall).
  destruct (request_created _ _ _ _ Hreq) as (j0 & k & q & st0 & Hcr & Hst0 & Hk).
  exists i1, url, req, creds, d, x0, rest. split; [done|]. split; [exists m1; split; [lia|done]|]. do 2 (split; [done|]).
  split; [exists m; split; [lia|done]|].
  intros j o key st Ha Has Hkey Hget Hp. pose proof (answered_runs lb cv Hv _ _ _ Ha) as Hrun.
  apply vhandler_any in Hrun as (o' & Hrun & Ho).
  assert (vs_request st = req) as E.
  { destruct (get_created lb cv Hv _ _ _ Hget) as (j' & q' & Hcr'). assert (key = k) as -> by congruence.
    destruct (key_unique cv _ _ _ _ _ _ _ Hf Hcr' Hcr) as (_ & _ & ->). done. }
  rewrite <- (Hall _ _ _ _ Hrun Has Hkey Hget Hp E). destruct o' as [y| |]; subst o; simpl; naive_solver.
Qed.
Lemma accepted_once n n' i i' u u' r r' a a' : made c n i (HX (EPresent u r (Some a))) → made c n' i' (HX (EPresent u' r' (Some a'))) →
  n ≠ n' → rq_state r = rq_state r' → overlap (c_log cv) (f n) (f n').
Proof.
  intros H1 H2 Hne Hs. eapply (response_once lb cv Hv); [done| |exact Hs|exact (accepted_as_sent _ _ _ _ _ H1)|exact (accepted_as_sent _ _ _ _ _ H2)].
  intros E. apply Hne. exact (tk_apart _ _ _ _ Ht _ _ _ _ _ _ _ _ _ _ H1 H2 E).
Qed.
Lemma agreement n i uri rr a : made c n i (HX (EPresent uri rr (Some a))) →
  ∃ id n1 i1 n2 i2 url req j k q st,
    asked c i (HPresent id) ∧ n1 < n2 < n ∧ asked c i1 (HRequest url) ∧ saved c n1 i1 id ∧ asked c i2 (HConsent id) ∧ saved c n2 i2 id ∧
    (∃ m, m < n1 ∧ (made c m i1 (HX (EParseRequest url (Some req))) ∨ ∃ jwt, made c m i1 (HX (EDecodeRequest jwt (Some req))))) ∧
    created_by cv j k q st ∧ vs_request st = req ∧
    answered cv (f n) (VResponse rr) (Ok (VRResponse a)) ∧ VGet k (Some st) ∈ calls_of (f n) (c_log cv) ∧
    acceptable lb (seen (calls_of (f n) (c_log cv))) req rr.
Proof.
  intros Hm. pose proof (accepted_as_sent _ _ _ _ _ Hm) as Ha.
  destruct (state_is_the_requests _ _ _ _ _ Hm) as (id & n1 & i1 & n2 & i2 & url & req & j & k & q & st & H1 & H2 & H3 & H4 & H5 & H6 & H7 & Hc & Hreq & Hk & Hone).
  pose proof (answered_runs lb cv Hv _ _ _ Ha) as Hrun. apply vhandler_any in Hrun as (o' & Hrun & Ho).
  destruct o' as [y| |]; [|done..]. apply response_ok in Hrun as (key & st' & es' & Hk' & Heq & _ & Hacc).
  rewrite Hk in Hk'. injection Hk' as <-.
  assert (VGet k (Some st') ∈ calls_of (f n) (c_log cv)) as Hget by (rewrite Heq; by left).
  assert (st' = st) as -> by exact (Hone _ _ _ Hk Hget).
  exists id, n1, i1, n2, i2, url, req, j, k, q, st. rewrite <- Hreq. rewrite <- Hreq in H7. by repeat (split; [done|]).
Qed.
End talk.
