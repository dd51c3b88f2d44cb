(** C158: presenting what the example wallet keeps. *)
From Coq Require Import Lia.
From Verif Require Import Base Json CoreModel VcModel Prog ProgFacts ExecSpec IssuerTypes MetaSerde SerdeModel SerdeSpec SerdeTrips VcSerde VcSpec MatcherModel MatcherSpec MatcherFacts
  VerifierModel VerifierSpec HolderModel HolderSpec PresentFacts RecordSerde WalletModel WalletSpec WalletFacts DriveSpec KeepSpec.
From Verif Require P_App P_Wallet P_PresentVerify DriveExample HolderExample VerifierExample SerdeExample MatcherExample VcTrips Sched.

Lemma ws_filter_clear cx eng k l r c : ws_filter cx eng k l = Ok r → c ∈ r → satisfied eng k (Some (ser_vc cx (kc_vc c))) = Ok true.
Proof.
  revert r. induction l as [|x l IH]; intros r; simpl; [intros [= <-] Hc; by apply elem_of_nil in Hc|].
  destruct (satisfied eng k (Some (ser_vc cx (kc_vc x)))) as [b|e|w] eqn:Es; [| |intros H; discriminate H]; destruct (ws_filter cx eng k l) as [r'| |]; try (intros H; discriminate H); intros [= <-].
  - destruct b; [|by apply IH]. intros [->|?]%elem_of_cons; [done|by eapply IH].
  - by apply IH.
Qed.
Lemma satisfied_fulfils eng k s j : sv_json s = Some j → satisfied eng k (Some j) = Ok true → fulfils eng k s.
Proof.
  intros Hj H. pose proof (proj1 (satisfied_spec eng k j true H) eq_refl) as Hm. right. exists j. split; [done|]. split; [done|].
  intros fs f Hfs Hf. unfold satisfied in H. rewrite Hfs in H.
  exact (proj2 (proj2 (proj2 (fields_satisfied_spec eng fs j))) H f Hf).
Qed.

Section keep.
Context (c : hconfig) (Hr : hreach c) (cx : codecs) (eng : engine) (Hd : dates_read cx) (Hk : kept_by cx eng c).
Context (Hrd : ∀ n i t v d, made c n i (HX (EVerifyVc t (Some (v, d)))) → readable_vc v).

(** What is found was verified and saved, and matches. *)
Lemma found_kept m i f creds cr : made c m i (HX (EFind f (Some creds))) → cr ∈ creds →
  satisfied eng f (Some (ser_vc cx (wc_vc cr))) = Ok true ∧
  (∃ n j d, made c n j (HX (EVerifyVc (wc_issued cr) (Some (wc_vc cr, d))))) ∧
  ∃ n j cr' b, n < m ∧ made c n j (HX (ESave cr' b)) ∧ wc_issued cr' = wc_issued cr ∧ wc_vc cr' = wc_vc cr.
Proof.
  intros Hf Hin. destruct (Hk m i f creds Hf) as (ops & l & Hl & Hall & Hops).
  assert (∃ k, k ∈ l ∧ kept_as k cr) as (k & Hkl & (_ & _ & Hiss) & Hvc).
  { apply elem_of_list_lookup in Hin as [a Hin]. destruct (Forall2_lookup_r _ _ _ _ _ Hall Hin) as (k & Hka & ?).
    exists k. split; [by eapply elem_of_list_lookup_2|done]. }
  assert (∀ k w, WSave k w ∈ ops → ∃ n j d, made c n j (HX (EVerifyVc (kc_issued k) (Some (kc_vc k, d))))) as Hver.
  { intros k' w Hw. destruct (Hops k' w Hw) as (n & j & cr' & b & Hn & Hm & (_ & _ & ->) & ->).
    destruct (P_Wallet.C87_only_verified_credentials_are_saved c n j cr' b Hr Hm) as (? & j' & ? & m1 & ? & ? & _ & _ & _ & Hm1 & Hv & _).
    eexists m1, j', _. exact Hv. }
  assert (∀ k w, WSave k w ∈ ops → readable_vc (kc_vc k)) as Hread.
  { intros k' w Hw. destruct (Hver k' w Hw) as (n & j & d & Hm). exact (Hrd _ _ _ _ _ Hm). }
  pose proof (proj1 (P_App.C151_filtered cx eng ops _ f l Hd Hread eq_refl Hl k) Hkl) as [Hload _].
  destruct (P_App.C151_found cx eng ops _ Hd Hread eq_refl) as (l0 & Hl0 & _ & Hl0').
  destruct (Hl0' k) as [Hk0 Hk1]. destruct (Hk1 (proj2 Hk0 Hload)) as [w Hw].
  destruct (Hver k w Hw) as (n & j & d & Hm). rewrite Hiss, Hvc in Hm.
  split; [|split; [eauto|]].
  - rewrite <-Hvc. unfold ws_find in Hl. destruct (ws_list cx _) as [l1|]; [|done]. exact (ws_filter_clear cx eng f l1 l k Hl Hkl).
  - destruct (Hops k w Hw) as (n' & j' & cr' & b & Hn' & Hm' & (_ & _ & E1) & E2). exists n', j', cr', b. split; [done|]. split; [done|]. split; congruence.
Qed.
Lemma found_saved m i f creds cr : made c m i (HX (EFind f (Some creds))) → cr ∈ creds →
  ∃ n j cr' b, n < m ∧ made c n j (HX (ESave cr' b)) ∧ wc_issued cr' = wc_issued cr ∧ wc_vc cr' = wc_vc cr.
Proof. intros Hf Hin. apply (found_kept m i f creds cr Hf Hin). Qed.
Lemma found_fits su m i f creds cr : reads_alike cx c su → made c m i (HX (EFind f (Some creds))) → cr ∈ creds →
  (∃ s, su_vc su (wc_issued cr) s ∧ vcc_vc (sv_claims s) = wc_vc cr ∧ fulfils eng f s) ∧
  ∃ n j cr' b, n < m ∧ made c n j (HX (ESave cr' b)) ∧ wc_issued cr' = wc_issued cr ∧ wc_vc cr' = wc_vc cr.
Proof.
  intros Ha Hf Hin. destruct (found_kept m i f creds cr Hf Hin) as (Hsat & (n & j & d & Hm) & Hs). split; [|done].
  destruct (Ha _ _ _ _ _ Hm) as (_ & s & Hs' & Hsv & Hsj). exists s. do 2 (split; [done|]). exact (satisfied_fulfils eng f s _ Hsj Hsat).
Qed.
End keep.

(** The verifier asked for one credential, as a JWT.  It accepts the presentation exactly if the wallet found a credential and the
    first it found is not expired; all it found were saved before. *)
Theorem C158_accepted_unless_expired (c : hconfig) cx lb su n i uri rr x :
  hreach c → dates_read cx → kept_by cx (lb_engine lb) c → reads_alike cx c su →
  verifies_as_signed c su → one_credential_per_token su → finds_first (lb_engine lb) →
  made c n i (HX (EPresent uri rr x)) →
  ∃ i1 url req d x0 rest creds m,
    asked c i1 (HRequest url) ∧
    (∃ m, m < n ∧ (made c m i1 (HX (EParseRequest url (Some req))) ∨
                   ∃ jwt, made c m i1 (HX (EDecodeRequest jwt (Some req))))) ∧
    vo_definition req = KObject d ∧ pd_input_descriptors d = x0 :: rest ∧
    m < n ∧ made c m i1 (HX (EFind (id_constraints x0) (Some creds))) ∧
    (∀ cr, cr ∈ creds → ∃ n' j cr' b, n' < m ∧ made c n' j (HX (ESave cr' b)) ∧ wc_issued cr' = wc_issued cr ∧ wc_vc cr' = wc_vc cr) ∧
    (rest = [] → (∀ fmt, id_format x0 = Some fmt → "jwt_vc_json" ∈ keys fmt) →
     ∀ es o key st, runs (response lb rr) es o → as_in su es → rq_state rr = Some key →
       VGet key (Some st) ∈ es → (∀ k, VPurge k false ∉ es) → vs_request st = req →
       (∃ y, o = Ok y) ↔ ∃ c1 cs, creds = c1 :: cs ∧ unexpired su (wc_vc c1)).
Proof.
  intros Hr Hd Hk Ha H1 H2 H3 Hm.
  destruct (presented_fits c Hr lb su n i uri rr x H1 H2 H3 Hm) as
    (id & n1 & i1 & url & req & creds & d & x0 & rest & m & _ & Hn1 & Hq & _ & (m1 & Hm1 & Hreq) & Hdef & Hds & Hm2 & Hf & _ & Hall).
  pose proof (λ cr, found_fits c Hr cx (lb_engine lb) Hd Hk (λ n i t v d H, proj1 (Ha n i t v d H)) su m i1 (id_constraints x0) creds cr Ha) as Hff.
  exists i1, url, req, d, x0, rest, creds, m. split; [done|]. split; [exists m1; split; [lia|done]|].
  do 2 (split; [done|]). split; [lia|]. split; [done|]. split; [intros cr Hcr; exact (proj2 (Hff cr Hf Hcr))|].
  intros -> Hfmt es o key st Hrun Has Hkey Hget Hpu Hst.
  rewrite (Hall es o key st Hrun Has Hkey Hget Hpu Hst). unfold fits_all, unexpired. split.
  - intros (c1 & cs & -> & s & Hs & Hcur & _). exists c1, cs. split; [done|].
    destruct (Hff c1 Hf (elem_of_list_here _ _)) as [(s' & Hs' & <- & _) _]. rewrite (H2 _ _ _ Hs' Hs). exact Hcur.
  - intros (c1 & cs & -> & Hcur). exists c1, cs. split; [done|].
    destruct (Hff c1 Hf (elem_of_list_here _ _)) as [(s & Hs & E & Hful) _]. exists s. split; [done|]. split.
    + unfold current. by rewrite E.
    + rewrite Hds. intros y ->%elem_of_list_singleton. done.
Qed.
Print Assumptions C158_accepted_unless_expired.

Definition run_of {A} (st : gmap string vstate) (orc : list vevent → ∀ x : vcall, vans x) (p : vprog A) : option (outcome error A * list vevent) :=
  match @Prog.run VSig _ 60 st orc [] p with Some (o, _, es) => Some (o, es) | None => None end.
(** The session of C157, with a store that finds what was saved in it, and a verifier. *)
Module Ex.
  Import P_PresentVerify DriveExample HolderExample VerifierExample.
  Definition the_vc : vc := ex_vc "did:holder" None.
  Definition found : wcredential := WCredential "cred1" "did:issuer" the_vc "signed26" 0%Z None None.
  Definition kept : kept_credential := KeptCredential "cred1" "did:issuer" the_vc "signed26" 0%Z None None.
  Definition world : hworld :=
    HWorld (hw_metadata Ex.world) (hw_server Ex.world) (hw_issuer Ex.world) [found] (request_of [employee]) (hw_present Ex.world).
  Definition library : hconfig := hafter world (hserially (map hcall (all_calls Ex.tr))).
  Definition signed : signed_vc :=
    SignedVc "did:issuer#key-1" (VcClaims "did:holder" None "did:issuer" 0%Z "cred1" None the_vc) (Some (ser_vc SerdeExample.ex_cx the_vc)).
  Definition decode_vc (j : string) : option signed_vc := if bool_decide (j = "signed26") then Some signed else None.
  Definition su : surroundings :=
    Surroundings (λ j s, decodes_for library j = Some s) (λ j s, decode_vc j = Some s) (λ t, t = seconds 9).
  Definition orc (es : list vevent) (x : vcall) : vans x :=
    match x as x0 return vans x0 with
    | YDecodeVc j => decode_vc j
    | y => ex_vorc (VWorld (λ _, seconds 9) (decodes_for library)) (map (λ e, Entry 0 e true) es) 0 y
    end.
  Definition asked_store : gmap string vstate := store_after ∅ (c_log (vafter ex_stood (vserially [asks_for [employee]]))).
  Definition run : option (outcome error response_response * list vevent) := run_of asked_store orc (response ex_libs (sent_by library)).
End Ex.
Definition finds_of (c : hconfig) : list (nat * constraints * list wcredential) :=
  omap (λ p : nat * entry HSig, match e_ev p.2 with EExt (EFind f (Some r)) => Some (p.1, f, r) | _ => None end) (imap pair (c_log c)).
Definition verified_of (c : hconfig) : list (string * vc) :=
  omap (λ en : entry HSig, match e_ev en with EExt (EVerifyVc t (Some (v, _))) => Some (t, v) | _ => None end) (c_log c).
Lemma kept_once cx eng (c : hconfig) m f cr k n j b :
  finds_of c = [(m, f, [cr])] → ws_find cx eng (Some f) (ws_run cx [WSave k true] ws_empty) = Ok [k] → kept_as k cr →
  n < m → (∃ cr', made c n j (HX (ESave cr' b)) ∧ kept_as k cr') → kept_by cx eng c.
Proof.
  intros Hf Hk Hkept Hn (cr' & Hs & Hk') m' i f' r [eff Hm].
  assert ((m', f', r) ∈ finds_of c) as Hin.
  { apply elem_of_list_omap. eexists (m', _). split; [apply elem_of_lookup_imap; eexists m', _; split; [reflexivity|exact Hm]|reflexivity]. }
  rewrite Hf in Hin. apply elem_of_list_singleton in Hin. injection Hin as -> -> ->.
  exists [WSave k true], [k]. split; [done|]. split; [constructor; [exact Hkept|constructor]|].
  intros k0 w Hw%elem_of_list_singleton. injection Hw as -> ->. eauto 10.
Qed.
Lemma alike_once cx (c : hconfig) su t v : verified_of c = [(t, v)] → readable_vc v →
  (∃ s, su_vc su t s ∧ vcc_vc (sv_claims s) = v ∧ sv_json s = Some (ser_vc cx v)) → reads_alike cx c su.
Proof.
  intros Hv Hr Hs n i t' v' d [eff Hm].
  assert ((t', v') ∈ verified_of c) as Hin.
  { apply elem_of_list_omap. eexists. split; [exact (elem_of_list_lookup_2 _ _ _ Hm)|reflexivity]. }
  rewrite Hv in Hin. apply elem_of_list_singleton in Hin. injection Hin as -> ->. done.
Qed.
Definition as_ex (e : vevent) : Prop :=
  match e with
  | EExt (WDecodeVp j r) => P_PresentVerify.decodes_for Ex.library j = r
  | EExt (WDecodeVc j r) => Ex.decode_vc j = r
  | EExt (WNow t) => t = seconds 9
  | _ => True
  end.
Lemma as_in_ex es : Forall as_ex es → as_in Ex.su es.
Proof.
  intros H. repeat split; intros; match goal with H1 : _ ∈ es |- _ => apply (proj1 (Forall_forall _ _) H) in H1; simpl in * end; congruence.
Qed.
Lemma ex_kept : kept_by SerdeExample.ex_cx MatcherExample.ex_engine Ex.library.
Proof.
  refine (kept_once _ _ _ 25 (MatcherExample.by_type "EmployeeIDCredential") Ex.found Ex.kept 19 5 true _ _ _ _ _).
  - vm_compute. reflexivity.
  - vm_compute. reflexivity.
  - repeat split.
  - lia.
  - eexists. split; [exists true; vm_compute; reflexivity|repeat split].
Qed.
Lemma the_vc_readable : readable_vc Ex.the_vc.
Proof.
  apply (VcTrips.de_vc_readable SerdeExample.ex_cx (ser_vc SerdeExample.ex_cx Ex.the_vc)). vm_compute. reflexivity.
Qed.
Lemma run_of_runs {A} st orc (p : vprog A) o es r : r = run_of st orc p → r = Some (o, es) → runs p es o.
Proof.
  intros ->. unfold run_of. destruct (Prog.run _ _ _ _ _) as [[[o' st'] es']|] eqn:E; [|done]. intros [= <- <-].
  apply Sched.run_runs in E as (es2 & -> & H). done.
Qed.
Lemma ex_run_of : Ex.run = run_of Ex.asked_store Ex.orc (response VerifierExample.ex_libs (P_PresentVerify.sent_by Ex.library)).
Proof. unfold Ex.run. reflexivity. Qed.
Lemma no_purge (es : list vevent) : forallb (λ e : vevent, match e with EPurge _ false => false | _ => true end) es = true → ∀ k, VPurge k false ∉ es.
Proof. intros H k Hin%elem_of_list_In. rewrite forallb_forall in H. by specialize (H _ Hin). Qed.
Definition ex_events : list vevent := match Ex.run with Some (_, es) => es | None => [] end.
Lemma ex_ran : ∃ y, Ex.run = Some (Ok y, ex_events).
Proof. eexists. vm_compute. reflexivity. Qed.
Lemma ex_as : Forall as_ex ex_events.
Proof. vm_compute. repeat constructor. Qed.
Lemma ex_got : ∃ st, ex_events !! 0 = Some (VGet "uri1" (Some st)) ∧ vs_request st = P_PresentVerify.request_of [P_PresentVerify.employee].
Proof. eexists. split; vm_compute; reflexivity. Qed.
Lemma ex_no_purge : forallb (λ e : vevent, match e with EPurge _ false => false | _ => true end) ex_events = true.
Proof. vm_compute. reflexivity. Qed.
Lemma ex_alike : reads_alike SerdeExample.ex_cx Ex.library Ex.su.
Proof. refine (alike_once _ _ _ "signed26" Ex.the_vc _ the_vc_readable _); [vm_compute; reflexivity|exists Ex.signed; split; [reflexivity|split; reflexivity]]. Qed.
Lemma ex_signs : ∃ q, P_PresentVerify.signed_by Ex.library = Some q ∧
  omap (λ en : entry HSig, match e_ev en with EExt (ESignVp q (Some j)) => Some (q, j) | _ => None end) (c_log Ex.library) = [(q, "nonce3")].
Proof. eexists. split; vm_compute; reflexivity. Qed.
Lemma ex_as_signed : verifies_as_signed Ex.library Ex.su.
Proof. destruct ex_signs as (q & H1 & H2). exact (P_PresentVerify.signed_once Ex.library q H1 H2). Qed.
Lemma ex_sent : ∃ uri x, made Ex.library 37 8 (HX (EPresent uri (P_PresentVerify.sent_by Ex.library) x)).
Proof. eexists _, _, true. vm_compute. reflexivity. Qed.
Lemma ex_state : rq_state (P_PresentVerify.sent_by Ex.library) = Some "uri1".
Proof. vm_compute. reflexivity. Qed.
Example C158_example :
  hreach Ex.library ∧ kept_by SerdeExample.ex_cx (lb_engine VerifierExample.ex_libs) Ex.library ∧ reads_alike SerdeExample.ex_cx Ex.library Ex.su ∧
  verifies_as_signed Ex.library Ex.su ∧ one_credential_per_token Ex.su ∧ finds_first (lb_engine VerifierExample.ex_libs) ∧
  (∃ uri x, made Ex.library 37 8 (HX (EPresent uri (P_PresentVerify.sent_by Ex.library) x))) ∧
  ∃ es y st, runs (response VerifierExample.ex_libs (P_PresentVerify.sent_by Ex.library)) es (Ok y) ∧ as_in Ex.su es ∧
    rq_state (P_PresentVerify.sent_by Ex.library) = Some "uri1" ∧ VGet "uri1" (Some st) ∈ es ∧ (∀ k, VPurge k false ∉ es) ∧
    vs_request st = P_PresentVerify.request_of [P_PresentVerify.employee].
Proof.
  split; [apply HolderExample.hafter_reach|]. split; [exact ex_kept|]. split; [exact ex_alike|]. split; [exact ex_as_signed|].
  split; [intros j s s' H1 H2; cbn [su_vc Ex.su] in *; congruence|]. split; [exact P_PresentVerify.ex_finds_first|]. split; [exact ex_sent|].
  destruct ex_ran as [y Hrun]. destruct ex_got as (st & Hget & Hst). exists ex_events, y, st.
  split; [exact (run_of_runs _ _ _ _ _ _ ex_run_of Hrun)|]. split; [exact (as_in_ex _ ex_as)|]. split; [exact ex_state|].
  split; [exact (elem_of_list_lookup_2 _ _ _ Hget)|]. split; [exact (no_purge _ ex_no_purge)|exact Hst].
Qed.
