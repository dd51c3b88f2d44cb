(** C160: from the issuer's data, by the example wallet, to the verifier. *)
From Coq Require Import Lia.
From Verif Require Import Base Json CoreModel VcModel Prog ExecSpec IssuerTypes IssuerModel IssuerSpec MetaSerde SerdeModel SerdeSpec SerdeTrips VcSerde VcSpec MatcherModel
  VerifierModel VerifierSpec HolderModel HolderSpec HolderProps RecordSerde WalletModel WalletSpec DriveSpec KeepSpec ComposeSpec ComposeFacts.
From Verif Require IssuerPushed P_App P_Wallet P_Drive P_Keep P_Given P_PresentVerify P_Compose ComposeExample DriveExample HolderExample IssuerExample SerdeExample MatcherExample.

(** In a session of the example wallet, with its store and this issuer: each credential in a presentation was signed by the issuer from the data
    of the subject [subj] for whom it had created the offer with the code [g], and the user accepted an offer with that code. *)
Theorem C160_presented_data cx eng st ks w tr (c : hconfig) (ci : iconfig) f n i uri rr x :
  session cx ks (Wallet app_default st) = (w, tr) → hreach c → drives tr c →
  hfresh (c_log c) → (∀ m j, ¬ made c m j (HX (EUuid ""))) →
  dates_read cx → kept_by cx eng c → (∀ m j t v d, made c m j (HX (EVerifyVc t (Some (v, d)))) → readable_vc v) →
  ireach ci → coupled_but_details c ci f → fresh (c_log ci) →
  made c n i (HX (EPresent uri rr x)) →
  ∃ m jwt claims, m < n ∧ made c m i (HX (ESignVp claims (Some jwt))) ∧ rq_vp_token rr = Some [KString jwt] ∧
    ∀ y, y ∈ default [] (vp_credential (vpc_vp claims)) →
    ∃ token k subj ident ds kc create p t0 e0 t1 a esA t2 r o gr g,
      y = KString token ∧
      signed_from ci k token (ds_claims ds) ∧ X (VDataset subj ident (Some ds)) ∈ calls_of k (c_log ci) ∧ ds_pending ds = false ∧
      c_pool ci !! kc = Some (QCreateOffer create, p) ∧ co_subject_id create = Some subj ∧
      X (VGen GAuthCode (pg_code g)) ∈ calls_of kc (c_log ci) ∧
      tr = t0 ++ e0 :: t1 ++ (Accept a, esA) :: t2 ∧
      offer_taken e0 = Some r ∧ (∀ e, e ∈ t1 → offer_taken e = None) ∧
      Call (LOffer o) ∈ e0.2 ∧ Call (LAccept (oa_id r)) ∈ esA ∧
      of_grants o = Some gr ∧ gr_pre_authorized_code gr = Some g.
Proof.
  intros Hses Hr Hd Hf Hne Hdate Hk Hread Hri Hc Hfi Hm.
  destruct (presentation_sent c Hr n i uri rr x Hm) as (id & n1 & i1 & n2 & i2 & url & req & creds & d & x0 & rest & Hqi & Hn & Hq1 & Hs1 & Hq2 & Hs2
    & _ & _ & _ & (mf & Hmf & Hfind) & _ & (m & jwt & claims & kid & m' & Hlm & Hsign & _ & _ & _ & _ & _ & _ & Hcr & Htok & _)).
  exists m, jwt, claims. do 3 (split; [done|]).
  intros y Hy. rewrite Hcr in Hy. apply elem_of_list_fmap in Hy as (cr & -> & Hin).
  destruct (P_Keep.found_saved c Hr cx eng Hdate Hk Hread mf i1 _ creds cr Hfind Hin) as (ms & js & cr' & b & Hms & Hsave & E & _).
  destruct (saved_end_to_end c ci f Hr Hri Hc ms js cr' b Hfi Hsave) as (id' & mt & jt & trq & tok & k & subj & ident & ds & _ & _ & _ & Ht & Hsg & Hds & Hpe & Hgr).
  destruct (P_Drive.C157_token_as_accepted _ _ _ _ _ _ _ _ _ _ Hses Hr Hd Hf Hne Ht) as (t0 & e0 & t1 & a & esA & t2 & kg & esG & t3 & r & o & md & m0 & j0 & gr & g & pin
    & Etr & _ & Hoff & Hno & HLo & HLa & _ & _ & _ & _ & _ & _ & _ & Hgo & Hg & _ & _ & Hgrant & _).
  rewrite E in Hsg. destruct Hgr as (kc & q & p & cfg & ids & Hpool & Hgen & _ & _ & Hmatch).
  rewrite Hgrant in Hmatch. destruct q as [create| | | | | | | | | |]; try done. destruct Hmatch as [Hsub _].
  unfold presented in Hgen. rewrite Hgrant in Hgen.
  eexists (wc_issued cr), k, subj, ident, ds, kc, create, p, t0, e0, t1, a, esA, _, r, o, gr, g.
  do 7 (split; [done|]). split; [exact Etr|]. split; [done|]. split; [intros e He; apply Hno, elem_of_app; by left|]. done.
Qed.
Print Assumptions C160_presented_data.

(** The verifier reads from a token the credential that was signed, and does not take a mobile document for one. *)
Definition reads_as_issued (ci : iconfig) (su : surroundings) : Prop :=
  ∀ k signer jwt,
    (∀ v, X (VSignVc signer v (Some jwt)) ∈ calls_of k (c_log ci) → ∀ s, su_vc su jwt s → sv_claims s = v) ∧
    (∀ l, X (VSignMdl signer l (Some jwt)) ∈ calls_of k (c_log ci) → ∀ s, ¬ su_vc su jwt s).
(** So whatever the verifier reads from a credential in the presentation are data of the subject of an offer that was accepted. *)
Theorem C160_data_read cx eng st ks w tr (c : hconfig) (ci : iconfig) f su n i uri rr x :
  session cx ks (Wallet app_default st) = (w, tr) → hreach c → drives tr c →
  hfresh (c_log c) → (∀ m j, ¬ made c m j (HX (EUuid ""))) →
  dates_read cx → kept_by cx eng c → (∀ m j t v d, made c m j (HX (EVerifyVc t (Some (v, d)))) → readable_vc v) →
  ireach ci → coupled_but_details c ci f → fresh (c_log ci) → reads_as_issued ci su →
  made c n i (HX (EPresent uri rr x)) →
  ∃ m jwt claims, m < n ∧ made c m i (HX (ESignVp claims (Some jwt))) ∧ rq_vp_token rr = Some [KString jwt] ∧
    ∀ token s, KString token ∈ default [] (vp_credential (vpc_vp claims)) → su_vc su token s →
    ∃ did l k subj ident ds kc create p o gr g e esA a,
      vc_subject (vcc_vc (sv_claims s)) = QOne (CredentialSubject (Some did) l) ∧ (∀ z, z ∈ l → z ∈ ds_claims ds) ∧
      X (VDataset subj ident (Some ds)) ∈ calls_of k (c_log ci) ∧
      c_pool ci !! kc = Some (QCreateOffer create, p) ∧ co_subject_id create = Some subj ∧
      X (VGen GAuthCode (pg_code g)) ∈ calls_of kc (c_log ci) ∧ of_grants o = Some gr ∧ gr_pre_authorized_code gr = Some g ∧
      e ∈ tr ∧ Call (LOffer o) ∈ e.2 ∧ (Accept a, esA) ∈ tr ∧ ∃ r, offer_taken e = Some r ∧ Call (LAccept (oa_id r)) ∈ esA.
Proof.
  intros Hses Hr Hd Hf Hne Hdate Hk Hread Hri Hc Hfi Hsu Hm.
  destruct (C160_presented_data _ _ _ _ _ _ _ _ _ _ _ _ _ _ Hses Hr Hd Hf Hne Hdate Hk Hread Hri Hc Hfi Hm) as (m & jwt & claims & H1 & H2 & H3 & Hall).
  exists m, jwt, claims. do 3 (split; [done|]). intros token s Hin Hs.
  destruct (Hall _ Hin) as (token' & k & subj & ident & ds & kc & create & p & t0 & e0 & t1 & a & esA & t2 & r & o & gr & g & E & (l & Hl & Hsg) & Hds & _ & Hp & Hsub & Hgen
    & -> & Hoff & _ & HLo & HLa & Hgr & Hg). injection E as <-.
  destruct Hsg as [(signer & v & did & Hv & Hvs)|(signer & Hv)]; [|by destruct (proj2 (Hsu k signer token) _ Hv s)].
  pose proof (proj1 (Hsu k signer token) _ Hv s Hs) as ->.
  exists did, l, k, subj, ident, ds, kc, create, p, o, gr, g, e0, esA, a. do 8 (split; [done|]).
  split; [apply elem_of_app; right; apply elem_of_list_here|]. split; [done|].
  split; [apply elem_of_app; right; apply elem_of_list_further, elem_of_app; right; apply elem_of_list_here|]. by exists r.
Qed.
Print Assumptions C160_data_read.

(** The session of C159 and the issuer it gets its credential from.  (The issuer authorizes two credentials; the wallet takes from its
    answer only the first.) *)
Definition ex_issuer_side : iconfig :=
  HolderExample.issuer_after IssuerExample.w0 [HolderExample.ex_creates true P_Wallet.two_ids] (c_log P_Keep.Ex.library) [].
Definition answers_but (ci : iconfig) (k : nat) (e : hevent) : Prop :=
  match c_pool ci !! k with Some (q, Ret (Ok r)) => delivered_but_details q r e | _ => False end.
Lemma coupled_at (c : hconfig) (ci : iconfig) k ns : HolderExample.sortedb (map e_who (c_log ci)) = true →
  omap (λ p : nat * entry HSig, if from_issuer (e_ev p.2) then Some p.1 else None) (imap pair (c_log c)) = ns →
  (∀ n, n ∈ ns → ∃ en, c_log c !! n = Some en ∧ answers_but ci (ComposeExample.to_issuer k (c_log c) n) (e_ev en)) →
  coupled_but_details c ci (ComposeExample.to_issuer k (c_log c)).
Proof.
  intros Hs Hns Ha. split.
  - intros n i e [eff Hn] Hf. destruct (Ha n) as (en & Hen & Hat).
    { rewrite <-Hns. apply elem_of_list_omap. eexists (n, _). split; [apply elem_of_lookup_imap; eexists n, _; split; [reflexivity|exact Hn]|]. simpl. by rewrite Hf. }
    rewrite Hn in Hen. injection Hen as <-. unfold answers_but in Hat.
    destruct (c_pool ci !! _) as [[q [[r| |]|]]|] eqn:E; try done. by exists q, r.
  - intros a b i ea eb Hab [ea' Ha'] [eb' Hb] Hfa Hfb. apply ComposeExample.sorted_before; [done|].
    apply Nat.add_lt_mono_l. eapply ComposeExample.filter_take_lt; [exact Ha'|by apply ComposeExample.from_issuer_request|done].
Qed.
Lemma ex_sorted : HolderExample.sortedb (map e_who (c_log ex_issuer_side)) = true.
Proof. vm_compute. reflexivity. Qed.
Lemma ex_answers : omap (λ p : nat * entry HSig, if from_issuer (e_ev p.2) then Some p.1 else None) (imap pair (c_log P_Keep.Ex.library)) = [9; 14].
Proof. vm_compute. reflexivity. Qed.
Lemma ex_token_answer : ∃ en, c_log P_Keep.Ex.library !! 9 = Some en ∧
  answers_but ex_issuer_side (ComposeExample.to_issuer 1 (c_log P_Keep.Ex.library) 9) (e_ev en).
Proof. eexists. split; [vm_compute; reflexivity|]. vm_compute. split; [eexists; split; [reflexivity|repeat split]|repeat split]. Qed.
Lemma ex_credential_answer : ∃ en, c_log P_Keep.Ex.library !! 14 = Some en ∧
  answers_but ex_issuer_side (ComposeExample.to_issuer 1 (c_log P_Keep.Ex.library) 14) (e_ev en).
Proof. eexists. split; [vm_compute; reflexivity|]. vm_compute. split; [eexists; split; [reflexivity|repeat split]|repeat split]. Qed.
Lemma ex_coupled : coupled_but_details P_Keep.Ex.library ex_issuer_side (ComposeExample.to_issuer 1 (c_log P_Keep.Ex.library)).
Proof.
  apply (coupled_at _ _ _ _ ex_sorted ex_answers). intros n Hn. apply elem_of_cons in Hn as [->|Hn]; [exact ex_token_answer|].
  apply elem_of_list_singleton in Hn as ->. exact ex_credential_answer.
Qed.
Lemma ex_fresh_b : IssuerExample.freshb (c_log ex_issuer_side) = true.
Proof. vm_compute. reflexivity. Qed.
(** With C159_example this meets all of the hypotheses. *)
Example C160_example : drives P_Given.Ex.tr P_Keep.Ex.library ∧ kept_by SerdeExample.ex_cx MatcherExample.ex_engine P_Keep.Ex.library ∧
  ireach ex_issuer_side ∧ coupled_but_details P_Keep.Ex.library ex_issuer_side (ComposeExample.to_issuer 1 (c_log P_Keep.Ex.library)) ∧ fresh (c_log ex_issuer_side) ∧
  (∃ uri x, made P_Keep.Ex.library 37 8 (HX (EPresent uri (P_PresentVerify.sent_by P_Keep.Ex.library) x))) ∧
  ∃ d, X (VDataset IssuerExample.ex_subject "EmployeeID_JWT_1" (Some d)) ∈ calls_of 2 (c_log ex_issuer_side).
Proof.
  split; [exact P_Given.ex_drives|]. split; [exact P_Keep.ex_kept|]. split; [apply IssuerExample.after_reach|]. split; [exact ex_coupled|].
  split; [exact (IssuerExample.freshb_fresh _ ex_fresh_b)|]. split; [exact P_Keep.ex_sent|].
  eexists. apply elem_of_list_lookup. exists 5. vm_compute. reflexivity.
Qed.
(** A verifier that reads what this issuer signed. *)
Definition signed_in (ci : iconfig) : list (string * vc_claims) :=
  omap (λ en : entry ISig, match e_ev en with EExt (VSignVc _ v (Some jwt)) => Some (jwt, v) | _ => None end) (c_log ci).
Definition mdls_in (ci : iconfig) : list string :=
  omap (λ en : entry ISig, match e_ev en with EExt (VSignMdl _ _ (Some jwt)) => Some jwt | _ => None end) (c_log ci).
Definition reads_the (ci : iconfig) : surroundings :=
  Surroundings (λ _ _, False) (λ j s, (j, sv_claims s) ∈ signed_in ci) (λ t, t = seconds 9).
Lemma reads_once (ci : iconfig) jwt v : signed_in ci = [(jwt, v)] → mdls_in ci = [] → reads_as_issued ci (reads_the ci).
Proof.
  intros Hs Hm k signer j. split.
  - intros v' Hin s Hs'. cbn [su_vc reads_the] in Hs'. rewrite Hs in Hs'. apply elem_of_list_singleton in Hs'. injection Hs' as -> ->.
    assert ((jwt, v') ∈ signed_in ci) as Hv.
    { apply IssuerPushed.calls_of_entry in Hin as (en & Hen & E). apply elem_of_list_omap. exists en. split; [done|]. by rewrite E. }
    rewrite Hs in Hv. apply elem_of_list_singleton in Hv. by injection Hv as ->.
  - intros l Hin. assert (j ∈ mdls_in ci) as Hv.
    { apply IssuerPushed.calls_of_entry in Hin as (en & Hen & E). apply elem_of_list_omap. exists en. split; [done|]. by rewrite E. }
    rewrite Hm in Hv. by apply elem_of_nil in Hv.
Qed.
Lemma ex_signed : ∃ v, signed_in ex_issuer_side = [("signed26", v)].
Proof. eexists. vm_compute. reflexivity. Qed.
Lemma ex_mdls : mdls_in ex_issuer_side = [].
Proof. vm_compute. reflexivity. Qed.
Example C160_reading : reads_as_issued ex_issuer_side (reads_the ex_issuer_side) ∧ ∃ s, su_vc (reads_the ex_issuer_side) "signed26" s.
Proof.
  destruct ex_signed as [v Hv]. split; [exact (reads_once _ _ _ Hv ex_mdls)|].
  exists (SignedVc "did:issuer#key-1" v None). cbn [su_vc reads_the]. rewrite Hv. apply elem_of_list_here.
Qed.
