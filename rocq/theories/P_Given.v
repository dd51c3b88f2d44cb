(** C159: where the example wallet has what it presents from. *)
From Coq Require Import Lia.
From Verif Require Import Base Json CoreModel VcModel Prog ExecSpec IssuerTypes MetaSerde SerdeModel SerdeSpec SerdeTrips VcSerde VcSpec MatcherModel
  VerifierModel HolderModel HolderSpec HolderProps RecordSerde WalletModel WalletSpec DriveSpec KeepSpec.
From Verif Require P_App P_Wallet P_Drive P_Keep P_PresentVerify DriveExample HolderExample VerifierExample SerdeExample MatcherExample UrlModel.

(** In a session of the example wallet, with its store: each credential in a presentation was in an answer of the issuer of an offer
    that the user had accepted, to a request with the token got for that offer, and was saved before the request was taken up. *)
Theorem C159_presented_as_given cx eng st ks w tr (c : hconfig) n i uri rr x :
  session cx ks (Wallet app_default st) = (w, tr) → hreach c → drives tr c →
  hfresh (c_log c) → (∀ m j, ¬ made c m j (HX (EUuid ""))) →
  dates_read cx → kept_by cx eng c → (∀ m j t v d, made c m j (HX (EVerifyVc t (Some (v, d)))) → readable_vc v) →
  made c n i (HX (EPresent uri rr x)) →
  ∃ m jwt claims mr jr url, m < n ∧ made c m i (HX (ESignVp claims (Some jwt))) ∧ rq_vp_token rr = Some [KString jwt] ∧
    asked c jr (HRequest url) ∧ mr < n ∧ (∃ f creds, made c mr jr (HX (EFind f (Some creds)))) ∧
    ∀ y, y ∈ default [] (vp_credential (vpc_vp claims)) →
    ∃ token t0 e0 t1 a esA t2 r o m0 j0 md m1 j1 q tok m2 j2 cq resp ms js cr b,
      y = KString token ∧
      tr = t0 ++ e0 :: t1 ++ (Accept a, esA) :: t2 ∧
      offer_taken e0 = Some r ∧ (∀ e, e ∈ t1 → offer_taken e = None) ∧
      Call (LOffer o) ∈ e0.2 ∧ Call (LAccept (oa_id r)) ∈ esA ∧
      asked c j0 (HOffer "wallet" "normal_user" o) ∧ made c m0 j0 (HX (EMetadata (of_credential_issuer o) (Some md))) ∧
      m1 < m2 < ms ∧ ms < mr ∧ asked c j1 (HToken (oa_id r)) ∧ made c m1 j1 (HX (EToken q (Some tok))) ∧
      made c m2 j2 (HX (ECredential cq (Some resp))) ∧ contains_token resp token ∧
      cr_access_token cq = trs_access_token tok ∧ cr_credential_issuer cq = is_credential_issuer md ∧
      made c ms js (HX (ESave cr b)) ∧ wc_issued cr = token.
Proof.
  intros Hses Hr Hd Hf Hne Hdate Hk Hread Hm.
  destruct (presentation_sent c Hr n i uri rr x Hm) as (id & n1 & i1 & n2 & i2 & url & req & creds & d & x0 & rest & Hqi & Hn & Hq1 & Hs1 & Hq2 & Hs2
    & _ & _ & _ & (mf & Hmf & Hfind) & _ & (m & jwt & claims & kid & m' & Hlm & Hsign & _ & _ & _ & _ & _ & _ & Hcr & Htok & _)).
  exists m, jwt, claims, mf, i1, url. do 4 (split; [done|]). split; [lia|]. split; [eauto|].
  intros y Hy. rewrite Hcr in Hy. apply elem_of_list_fmap in Hy as (cr & -> & Hin).
  destruct (P_Keep.found_saved c Hr cx eng Hdate Hk Hread mf i1 _ creds cr Hfind Hin) as (ms & js & cr' & b & Hms & Hsave & E & _).
  destruct (P_Drive.C157_saved_as_accepted _ _ _ _ _ _ _ _ _ _ Hses Hr Hd Hf Hne Hsave) as
    (t0 & e0 & t1 & a & esA & t2 & r & o & e & m0 & j0 & md & m1 & j1 & q & tok & m2 & j2 & cq & resp & Etr & Hoff & Hno & HLo & HLa & _ & _ & Hj0 & Hm0 & Hlt
      & Hj1 & Hm1 & Hm2 & Hct & E1 & E2).
  rewrite E in Hct.
  exists (wc_issued cr), t0, e0, t1, a, esA, t2, r, o, m0, j0, md, m1, j1, q, tok, m2, j2, cq, resp, ms, js, cr', b. split_and!; done || lia.
Qed.
Print Assumptions C159_presented_as_given.

(** The session of C157 again, in which the credential that was saved is requested. *)
Module Ex.
  Import SerdeModel SerdeTrips HolderExample P_Wallet DriveExample.
  Definition request : request_answer := RequestAnswer "id22" PRequested
    [KeptCredential "cred1" "did:issuer" (VerifierExample.ex_vc "did:holder" None) "signed26" 0%Z (Some [P_App.Ex.named "Employee ID"]) None].
  Definition ks : list command :=
    [MakeOffer (UrlModel.percent_encode (write ser_offer (ex_offer true two_ids))) (Some Ex.offer); Accept true; Pin "123456" true;
     GetCredentials true true [(P_App.Ex.employee, true)] true; Request "request_uri" (Some request); Authorize (Some PAuthorized); Present true].
  Definition tr : list (command * list effect) := (session SerdeExample.ex_cx ks (Wallet app_default ws_empty)).2.
End Ex.
Lemma ex_calls : (c_pool P_Keep.Ex.library).*1 = map hcall (all_calls Ex.tr).
Proof. vm_compute. reflexivity. Qed.
Lemma ex_sorted : HolderExample.sortedb (map e_who (c_log P_Keep.Ex.library)) = true.
Proof. vm_compute. reflexivity. Qed.
Lemma ex_taken : map (λ e, (DriveExample.is_Some_b (request_taken e), DriveExample.is_Some_b (offer_taken e))) Ex.tr =
  [(false, true); (false, false); (false, false); (false, false); (true, false); (false, false); (false, false)].
Proof. vm_compute. reflexivity. Qed.
Lemma ex_request : ∃ e x, Ex.tr !! 4 = Some e ∧ request_taken e = Some Ex.request ∧ length (all_calls (take 4 Ex.tr)) = 6 ∧
  answered P_Keep.Ex.library 6 (HRequest "request_uri") (Ok (HRRequest x)) ∧ same_request Ex.request x.
Proof.
  eexists _, _. split; [vm_compute; reflexivity|]. split; [reflexivity|]. split; [vm_compute; reflexivity|].
  split; [vm_compute; reflexivity|]. split; [reflexivity|]. split; [reflexivity|]. repeat constructor.
Qed.
Lemma ex_offered : ∃ e x, Ex.tr !! 0 = Some e ∧ offer_taken e = Some DriveExample.Ex.offer ∧
  answered P_Keep.Ex.library 0 (HOffer "wallet" "normal_user" (HolderExample.ex_offer true P_Wallet.two_ids)) (Ok (HROffer x)) ∧ same_offer DriveExample.Ex.offer x.
Proof.
  eexists _, _. split; [reflexivity|]. split; [vm_compute; reflexivity|].
  split; [vm_compute; reflexivity|]. split; [reflexivity|]. split; [reflexivity|]. split; [vm_compute; reflexivity|].
  intros n. cbn [or_offered]. transitivity (n = "EmployeeID_JWT" ∨ n = "Developer_JWT"); [exact (DriveExample.map_two n _ _ _ _)|apply DriveExample.assoc_two].
Qed.
Lemma ex_drives : drives Ex.tr P_Keep.Ex.library.
Proof. exact (DriveExample.drives_of _ _ _ _ _ _ ex_calls ex_sorted ex_taken ex_request ex_offered). Qed.
Lemma ex_uuids : omap uuid_of (c_log P_Keep.Ex.library) = ["id0"; "id22"; "id30"; "id32"].
Proof. vm_compute. reflexivity. Qed.
Lemma ex_fresh : hfresh (c_log P_Keep.Ex.library) ∧ ∀ m j, ¬ made P_Keep.Ex.library m j (HX (EUuid "")).
Proof.
  apply (DriveExample.uuids_fresh _ _ ex_uuids).
  - apply (bool_decide_unpack _). vm_compute. exact I.
  - apply (bool_decide_unpack _). vm_compute. exact I.
Qed.
Example C159_example :
  (∃ w, session SerdeExample.ex_cx Ex.ks (Wallet app_default ws_empty) = (w, Ex.tr)) ∧ hreach P_Keep.Ex.library ∧ drives Ex.tr P_Keep.Ex.library ∧
  hfresh (c_log P_Keep.Ex.library) ∧ (∀ m j, ¬ made P_Keep.Ex.library m j (HX (EUuid ""))) ∧ dates_read SerdeExample.ex_cx ∧
  kept_by SerdeExample.ex_cx MatcherExample.ex_engine P_Keep.Ex.library ∧
  (∀ m j t v d, made P_Keep.Ex.library m j (HX (EVerifyVc t (Some (v, d)))) → readable_vc v) ∧
  (∃ uri x, made P_Keep.Ex.library 37 8 (HX (EPresent uri (P_PresentVerify.sent_by P_Keep.Ex.library) x))) ∧
  ∃ q, P_PresentVerify.signed_by P_Keep.Ex.library = Some q ∧ vp_credential (vpc_vp q) = Some [KString "signed26"].
Proof.
  split; [apply DriveExample.session_snd|]. split; [apply HolderExample.hafter_reach|]. split; [exact ex_drives|].
  split; [exact (proj1 ex_fresh)|]. split; [exact (proj2 ex_fresh)|]. split; [exact SerdeExample.ex_dates|]. split; [exact P_Keep.ex_kept|].
  split; [intros m j t v d H; exact (proj1 (P_Keep.ex_alike m j t v d H))|]. split; [exact P_Keep.ex_sent|].
  eexists. split; [vm_compute; reflexivity|reflexivity].
Qed.
