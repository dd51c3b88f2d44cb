(** A presentation made by the wallet, at the verifier. *)
From Verif Require Import Base Json CoreModel VcModel Prog ProgFacts ExecSpec ExecFacts Sched Sha256 IssuerTypes
  MatcherModel MatcherSpec VerifierModel VerifierSpec VerifierFacts VerifierExec HolderModel HolderSpec HolderExec HolderRuns
  HolderProps.

(** ** What is assumed of keys and libraries *)

(** What the wallet of [c] signed verifies, as what it signed. *)
Definition verifies_as_signed (c : hconfig) (su : surroundings) : Prop :=
  ∀ n i claims jwt, made c n i (HX (ESignVp claims (Some jwt))) →
    ∃ s, sp_claims s = claims ∧ ∀ s', su_vp su jwt s' ↔ s' = s.
(** A token is one credential. *)
Definition one_credential_per_token (su : surroundings) : Prop :=
  ∀ jwt s s', su_vc su jwt s → su_vc su jwt s' → s = s'.
(** The JSONPath library finds the first element of a member that is an array. *)
Definition finds_first (eng : engine) : Prop :=
  ∀ m, en_query eng "$.verifiableCredential[0]" (JObj m) =
    Some (match assoc "verifiableCredential" m with Some (JArr (x :: _)) => [x] | _ => [] end).

(** One credential is enough for every descriptor. *)
Definition fits_all (lb : libs) (su : surroundings) (d : presentation_definition) (token : string) : Prop :=
  ∃ s, su_vc su token s ∧ current su s ∧
    ∀ x, x ∈ pd_input_descriptors d →
      fulfils (lb_engine lb) (id_constraints x) s ∧
      ∀ fmt, id_format x = Some fmt → "jwt_vc_json" ∈ keys fmt.

(** ** The response of the wallet *)
Section vp.
Context (lb : libs) (su : surroundings).

Lemma vp_json_credential v :
  ∃ m, vp_json lb v = JObj m ∧
    assoc "verifiableCredential" m =
      option_map (λ l, JArr (map (kind_json (lb_vc_json lb)) l)) (vp_credential v).
Proof.
  unfold vp_json. eexists. split; [reflexivity|].
  destruct (vp_holder v), (vp_id v), (vp_proof v), (vp_credential v); reflexivity.
Qed.

Lemma first_mapping (l : list input_descriptor) (f : input_descriptor → descriptor_map) d :
  (∀ x, dm_id (f x) = id_id x) → d ∈ l → ∃ x, x ∈ l ∧ mapped (map f l) d (f x).
Proof.
  intros Hf. induction l as [|y l IH]; [by intros ?%elem_of_nil|]. intros Hd.
  destruct (decide (id_id y = id_id d)) as [He|Hne].
  - exists y. split; [by left|]. exists [], (map f l). simpl. split; [done|]. rewrite Hf. split; [done|].
    intros ? ?%elem_of_nil. done.
  - apply elem_of_cons in Hd as [->|Hd]; [done|]. destruct (IH Hd) as (x & Hx & l1 & l2 & E & Hi & Hn).
    exists x. split; [by right|]. exists (f y :: l1), l2. simpl. rewrite E. split; [done|]. split; [done|].
    intros m' [->|Hm']%elem_of_cons; [by rewrite Hf|by apply Hn].
Qed.

Lemma response_fits req d jwt sp u creds :
  finds_first (lb_engine lb) → one_credential_per_token su →
  (∀ s', su_vp su jwt s' ↔ s' = sp) → vpc_nonce (sp_claims sp) = vo_nonce req →
  default [] (vp_credential (vpc_vp (sp_claims sp))) = map (λ cr, KString (wc_issued cr)) creds →
  vo_definition req = KObject d → pd_input_descriptors d ≠ [] →
  acceptable lb su req (ResponseRequest (Some [KString jwt]) (Some (create_submission u d)) (vo_state req)) ↔
  ∃ c1 cs, creds = c1 :: cs ∧ fits_all lb su d (wc_issued c1).
Proof.
  intros Hff Hone Hsp Hnonce Hcr Hd Hne.
  set (v := vpc_vp (sp_claims sp)) in *.
  destruct (vp_json_credential v) as (m & Hm & Ha).
  assert (en_query (lb_engine lb) "$.verifiableCredential[0]" (vp_json lb v) =
    Some (match creds with c1 :: _ => [JStr (wc_issued c1)] | [] => [] end)) as Hq.
  { rewrite Hm, Hff, Ha. f_equal. destruct (vp_credential v) as [l|]; simpl in *; subst; [|by destruct creds].
    by destruct creds. }
  split.
  - intros (l & vps & doc & subm & def & [= <-] & Hpr & Hdoc & [= <-] & Hdef & _ & Hall).
    rewrite Hd in Hdef. injection Hdef as <-.
    apply Forall2_cons_inv_l in Hpr as (p & vps' & (s0 & Hs0 & Hp & _) & Hpr & ->).
    apply Forall2_nil_inv_l in Hpr as ->. apply Hsp in Hs0 as ->. change (v = p) in Hp. subst p.
    assert (doc = vp_json lb v) as -> by (destruct Hdoc as [(v' & [= <-] & ->)|[? _]]; done).
    assert (∀ x, x ∈ pd_input_descriptors d → ∃ c1 cs s, creds = c1 :: cs ∧ su_vc su (wc_issued c1) s ∧ current su s ∧
      fulfils (lb_engine lb) (id_constraints x) s ∧ ∀ fmt, id_format x = Some fmt → "jwt_vc_json" ∈ keys fmt) as H.
    { intros x Hx. destruct (Hall x Hx) as (token & s & mp & (l1 & l2 & E & _) & Hfmt & Hpath & Hvc & Hful & Hcur).
      assert (mp ∈ pb_descriptor_map (create_submission u d)) as Hin by (rewrite E; set_solver).
      apply elem_of_list_fmap in Hin as (y & -> & _). simpl in *.
      rewrite Hq in Hpath. destruct creds as [|c1 cs]; [done|]. injection Hpath as <-. by exists c1, cs, s. }
    destruct (pd_input_descriptors d) as [|x0 rest] eqn:Ex; [done|].
    destruct (H x0) as (c1 & cs & s & -> & Hvc & Hcur & _); [by left|]. exists c1, cs. split; [done|].
    exists s. split; [done|]. split; [done|]. rewrite Ex.
    intros x Hx. destruct (H x Hx) as (? & ? & s' & [= <- <-] & Hvc' & _ & Hful).
    by rewrite (Hone _ _ _ Hvc Hvc').
  - intros (c1 & cs & -> & s & Hvc & Hcur & Hall).
    exists [KString jwt], [v], (vp_json lb v), (create_submission u d), d. split; [done|].
    split; [apply Forall2_cons; split; [|done]; exists sp; by rewrite Hsp|].
    split; [left; by exists v|]. do 3 (split; [done|]).
    intros x Hx. exists (wc_issued c1), s.
    destruct (first_mapping (pd_input_descriptors d) (λ x, DescriptorMap (id_id x) "jwt_vc_json" "$"
                 (PathNested "jwt_vc_json" "$.verifiableCredential[0]")) x) as (y & Hy & Hmap); [done|done|].
    eexists. split; [exact Hmap|]. simpl. destruct (Hall x Hx) as [Hful Hfmt].
    split; [exact Hfmt|]. by rewrite Hq.
Qed.
End vp.

Section present.
Context (c : hconfig) (Hr : hreach c) (lb : libs) (su : surroundings).

Lemma presented_fits n i uri rr x :
  verifies_as_signed c su → one_credential_per_token su → finds_first (lb_engine lb) →
  made c n i (HX (EPresent uri rr x)) →
  ∃ id n1 i1 url req creds d x0 rest m,
    asked c i (HPresent id) ∧ n1 < n ∧ asked c i1 (HRequest url) ∧ saved c n1 i1 id ∧
    (∃ m, m < n1 ∧ (made c m i1 (HX (EParseRequest url (Some req))) ∨
                    ∃ jwt, made c m i1 (HX (EDecodeRequest jwt (Some req))))) ∧
    vo_definition req = KObject d ∧ pd_input_descriptors d = x0 :: rest ∧
    m < n1 ∧ made c m i1 (HX (EFind (id_constraints x0) (Some creds))) ∧
    rq_state rr = vo_state req ∧
    ∀ es o key st, runs (response lb rr) es o → as_in su es → rq_state rr = Some key →
      VGet key (Some st) ∈ es → (∀ k, VPurge k false ∉ es) → vs_request st = req →
      (∃ y, o = Ok y) ↔ ∃ c1 cs, creds = c1 :: cs ∧ fits_all lb su d (wc_issued c1).
Proof.
  intros Hv Hone Hff Hm. destruct (made_says _ Hr _ _ _ Hm) as (q & Hq & id & -> & Hs).
  destruct Hs as (p & d & u1 & kid & u2 & v & t1 & t2 & t3 & jwt & Hg & Hst & Hd & Hkid & Hvp & Hsign & Huri & ->).
  destruct (pprovenance_get _ Hr _ _ _ _ Hg) as (_ & n1 & Hlt & (i1 & url & Hs1 & Hq1 & Hf & Hfind & Hreq) & Hc).
  unfold build_filter in Hf. rewrite Hd in Hf. destruct (pd_input_descriptors d) as [|x0 rest] eqn:Hds; [done|].
  injection Hf as Hf. destruct Hfind as (m & Hm1 & Hfind). rewrite <-Hf in Hfind.
  apply past_made in Hsign as (m0 & Hm0 & Hsign). destruct (Hv _ _ _ _ Hsign) as (sp & Esp & Hsp).
  apply create_vp_ok in Hvp as (Hh & Hid & Hcr).
  exists id, n1, i1, url, (hp_request p), (hp_credentials p), d, x0, rest, m.
  do 10 (split; [done|]).
  intros es o key st Hrun Has Hkey Hget Hpu Hst0.
  rewrite (response_iff lb su _ es o key st Hrun Has Hkey Hget Hpu), Hst0.
  apply (response_fits lb su _ d jwt sp u1); try done; [by rewrite Esp..|by rewrite Hds].
Qed.

Lemma one_descriptor n i uri rr x :
  verifies_as_signed c su → one_credential_per_token su → finds_first (lb_engine lb) →
  made c n i (HX (EPresent uri rr x)) →
  ∃ i1 url req d x0 rest creds m,
    asked c i1 (HRequest url) ∧
    (∃ m, m < n ∧ (made c m i1 (HX (EParseRequest url (Some req))) ∨
                   ∃ jwt, made c m i1 (HX (EDecodeRequest jwt (Some req))))) ∧
    vo_definition req = KObject d ∧ pd_input_descriptors d = x0 :: rest ∧
    m < n ∧ made c m i1 (HX (EFind (id_constraints x0) (Some creds))) ∧
    (rest = [] → (∀ fmt, id_format x0 = Some fmt → "jwt_vc_json" ∈ keys fmt) →
     creds ≠ [] →
     (∀ cr, cr ∈ creds → ∃ s, su_vc su (wc_issued cr) s ∧ current su s ∧ fulfils (lb_engine lb) (id_constraints x0) s) →
     ∀ es o key st, runs (response lb rr) es o → as_in su es → rq_state rr = Some key →
       VGet key (Some st) ∈ es → (∀ k, VPurge k false ∉ es) → vs_request st = req → ∃ y, o = Ok y).
Proof.
  intros H1 H2 H3 Hm.
  destruct (presented_fits n i uri rr x H1 H2 H3 Hm) as
    (id & n1 & i1 & url & req & creds & d & x0 & rest & m & _ & Hn1 & Hq & _ & (m1 & Hm1 & Hreq) & Hd & Hds & Hm2 & Hf & _ & Hall).
  exists i1, url, req, d, x0, rest, creds, m. split; [done|]. split; [exists m1; split; [lia|done]|].
  do 2 (split; [done|]). split; [lia|]. split; [done|].
  intros -> Hfmt Hne Hcr es o key st Hrun Has Hkey Hget Hpu Hst.
  apply (Hall es o key st); [done..|]. destruct creds as [|c1 cs]; [done|]. exists c1, cs. split; [done|].
  destruct (Hcr c1) as (s & Hs & Hcur & Hful); [by left|]. exists s. split; [done|]. split; [done|].
  rewrite Hds. intros y ->%elem_of_list_singleton. done.
Qed.
End present.
