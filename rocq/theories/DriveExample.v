(** A session of the example wallet with an execution of the library. *)
From Verif Require Import Base Json CoreModel VcModel Prog ExecSpec IssuerTypes MetaSerde MatcherModel VerifierModel HolderModel HolderSpec
  RecordSerde WalletModel WalletSpec DriveSpec DriveFacts.
From Verif Require P_App HolderExample P_Wallet SerdeExample SerdeModel SerdeTrips VerifierExample UrlModel.

(** An offer is accepted, with a PIN, and its token is obtained; then a request is authorized and answered. *)
Module Ex.
  Import SerdeModel SerdeTrips HolderExample P_Wallet.
  Definition offer : offer_answer :=
    OfferAnswer "id0" "http://issuer"
      {["EmployeeID_JWT" := P_App.Ex3.config (Some [P_App.Ex.named "Employee ID"]);
        "Developer_JWT" := P_App.Ex3.config (Some [P_App.Ex.named "Developer"])]}
      (of_grants (ex_offer true two_ids)).
  Definition request : request_answer :=
    RequestAnswer "id22" PRequested
      [KeptCredential "cred1" "did:issuer" (VerifierExample.ex_vc "did:holder" None) "vc" 0%Z (Some [P_App.Ex.named "Employee ID"]) None].
  Definition ks : list command :=
    [MakeOffer (UrlModel.percent_encode (write ser_offer (ex_offer true two_ids))) (Some offer); Accept true; Pin "123456" true;
     GetCredentials true true [(P_App.Ex.employee, true)] true; Request "request_uri" (Some request); Authorize (Some PAuthorized); Present true].
  Definition tr : trace := (session SerdeExample.ex_cx ks (Wallet app_default ws_empty)).2.
  (** The issuer authorizes one credential only. *)
  Definition one_only (r : ireply) : ireply :=
    match r with
    | RToken t => RToken (TokenResponse (trs_access_token t) (trs_expires_in t) (trs_c_nonce t) (trs_c_nonce_expires_in t)
        (map (λ d, AuthorizedDetail (atd_detail d) (take 1 (atd_identifiers d))) <$> (take 1 <$> trs_authorization_details t)))
    | _ => r
    end.
  Definition world : hworld :=
    HWorld (hw_metadata hw0) (hw_server hw0) (λ log q, one_only <$> hw_issuer hw0 log q) (hw_found hw0) (hw_request hw0) (hw_present hw0).
  Definition library : hconfig := hafter world (hserially (map hcall (all_calls tr))).
End Ex.
Definition is_Some_b {A} (o : option A) : bool := match o with Some _ => true | None => false end.
Lemma map_at {A B} (f : A → B) l l' k x : map f l = l' → l !! k = Some x → l' !! k = Some (f x).
Proof. intros <- H. by rewrite list_lookup_fmap, H. Qed.
Lemma assoc_two {A} (n a b : string) (x y : A) : n = a ∨ n = b ↔ is_Some (assoc n [(a, x); (b, y)]).
Proof.
  simpl. destruct (bool_decide_reflect (n = a)) as [?|?]; [split; [by eexists|by left]|].
  destruct (bool_decide_reflect (n = b)) as [?|?]; [split; [by eexists|by right]|]. split; [by intros [?|?]|by intros [? ?]].
Qed.
Lemma map_two {A} (n a b : string) (x y : A) : is_Some (({[a := x; b := y]} : gmap string A) !! n) ↔ n = a ∨ n = b.
Proof.
  rewrite lookup_insert_is_Some'. split.
  - intros [?|[v Hv]]; [by left|right]. by apply lookup_singleton_Some in Hv as [<- _].
  - intros [?|E]; [by left|right]. rewrite E, lookup_singleton. by eexists.
Qed.
Lemma ex_calls : (c_pool Ex.library).*1 = map hcall (all_calls Ex.tr).
Proof. vm_compute. reflexivity. Qed.
Lemma ex_sorted : HolderExample.sortedb (map e_who (c_log Ex.library)) = true.
Proof. vm_compute. reflexivity. Qed.
Lemma ex_taken : map (λ e, (is_Some_b (request_taken e), is_Some_b (offer_taken e))) Ex.tr =
  [(false, true); (false, false); (false, false); (false, false); (true, false); (false, false); (false, false)].
Proof. vm_compute. reflexivity. Qed.
Lemma ex_request : ∃ e x, Ex.tr !! 4 = Some e ∧ request_taken e = Some Ex.request ∧ length (all_calls (take 4 Ex.tr)) = 6 ∧
  answered Ex.library 6 (HRequest "request_uri") (Ok (HRRequest x)) ∧ same_request Ex.request x.
Proof.
  eexists _, _. split; [vm_compute; reflexivity|]. split; [reflexivity|]. split; [vm_compute; reflexivity|].
  split; [vm_compute; reflexivity|]. split; [reflexivity|]. split; [reflexivity|]. repeat constructor.
Qed.
Lemma ex_offered : ∃ e x, Ex.tr !! 0 = Some e ∧ offer_taken e = Some Ex.offer ∧
  answered Ex.library 0 (HOffer "wallet" "normal_user" (HolderExample.ex_offer true P_Wallet.two_ids)) (Ok (HROffer x)) ∧ same_offer Ex.offer x.
Proof.
  eexists _, _. split; [reflexivity|]. split; [vm_compute; reflexivity|].
  split; [vm_compute; reflexivity|]. split; [reflexivity|]. split; [reflexivity|]. split; [vm_compute; reflexivity|].
  intros n. cbn [or_offered]. transitivity (n = "EmployeeID_JWT" ∨ n = "Developer_JWT"); [exact (map_two n _ _ _ _)|apply assoc_two].
Qed.
Lemma drives_of (tr : trace) (c : hconfig) ro rr o t :
  (c_pool c).*1 = map hcall (all_calls tr) → HolderExample.sortedb (map e_who (c_log c)) = true →
  map (λ e, (is_Some_b (request_taken e), is_Some_b (offer_taken e))) tr =
    [(false, true); (false, false); (false, false); (false, false); (true, false); (false, false); (false, false)] →
  (∃ e x, tr !! 4 = Some e ∧ request_taken e = Some rr ∧ length (all_calls (take 4 tr)) = 6 ∧
     answered c 6 (HRequest t) (Ok (HRRequest x)) ∧ same_request rr x) →
  (∃ e x, tr !! 0 = Some e ∧ offer_taken e = Some ro ∧ answered c 0 (HOffer "wallet" "normal_user" o) (Ok (HROffer x)) ∧ same_offer ro x) →
  drives tr c.
Proof.
  intros Hcalls Hsort Htak Hreq Hoff.
  assert (∀ (t1 : trace) e t2, tr = t1 ++ e :: t2 → tr !! length t1 = Some e ∧ t1 = take (length t1) tr) as Hat.
  { intros t1 e t2 ->. split; [by rewrite lookup_app_r, Nat.sub_diag by done|by rewrite take_app]. }
  assert (∀ k e, tr !! k = Some e → (is_Some (request_taken e) → k = 4) ∧ (is_Some (offer_taken e) → k = 0)) as Hk.
  { intros k e He. pose proof (map_at _ _ _ k e Htak He) as Ht. clear -Ht.
    do 7 (destruct k as [|k]; [injection Ht as H1 H2; split; [destruct (request_taken e)|destruct (offer_taken e)]; first [done|by intros [? ?]]|]). done. }
  split; [done| | |].
  - intros i j Hij a b ea eb Ha Hb Ei Ej. destruct (decide (a < b)) as [?|Hge]; [done|].
    assert (e_who eb ≤ e_who ea); [|lia].
    apply (HolderExample.sortedb_le (map e_who (c_log c)) b a); [done| | |lia]; rewrite list_lookup_fmap; [by rewrite Hb|by rewrite Ha].
  - intros t1 e t2 r Htr Ht. destruct (Hat _ _ _ Htr) as [He E]. destruct (Hk _ _ He) as [Hk1 _].
    rewrite (Hk1 (mk_is_Some _ _ Ht)) in *. destruct Hreq as (e' & x & He' & Ht' & Hl & Ha & Hs).
    rewrite He in He'. injection He' as <-. rewrite Ht in Ht'. injection Ht' as ->. rewrite E, Hl. by exists t, x.
  - intros t1 e t2 r Htr Ht. destruct (Hat _ _ _ Htr) as [He E]. destruct (Hk _ _ He) as [_ Hk1].
    rewrite (Hk1 (mk_is_Some _ _ Ht)) in *. destruct Hoff as (e' & x & He' & Ht' & Ha & Hs).
    rewrite He in He'. injection He' as <-. rewrite Ht in Ht'. injection Ht' as ->. rewrite E. eexists _, x. split; [exact Ha|exact Hs].
Qed.
Lemma ex_drives : drives Ex.tr Ex.library.
Proof. exact (drives_of _ _ _ _ _ _ ex_calls ex_sorted ex_taken ex_request ex_offered). Qed.
Lemma uuids_fresh (c : hconfig) l : omap uuid_of (c_log c) = l → NoDup l → "" ∉ l →
  hfresh (c_log c) ∧ ∀ m j, ¬ made c m j (HX (EUuid "")).
Proof.
  intros E Hl Hn. split; [by unfold hfresh; rewrite E|].
  intros m j [eff H]. apply Hn. rewrite <-E. apply elem_of_list_omap. eexists. split; [eapply elem_of_list_lookup_2, H|done].
Qed.
Lemma ex_uuids : omap uuid_of (c_log Ex.library) = ["id0"; "id22"; "id30"; "id32"].
Proof. vm_compute. reflexivity. Qed.
Lemma ex_fresh : hfresh (c_log Ex.library) ∧ ∀ m j, ¬ made Ex.library m j (HX (EUuid "")).
Proof.
  apply (uuids_fresh _ _ ex_uuids).
  - apply (bool_decide_unpack _). vm_compute. exact I.
  - apply (bool_decide_unpack _). vm_compute. exact I.
Qed.
Lemma session_snd cx ks w0 : ∃ w, session cx ks w0 = (w, (session cx ks w0).2).
Proof. destruct (session cx ks w0). by eexists. Qed.
Lemma no_panics (tr : trace) : forallb (λ e, forallb (λ x, match x with Panicked => false | _ => true end) e.2) tr = true →
  ∀ e, e ∈ tr → Panicked ∉ e.2.
Proof.
  rewrite forallb_forall. intros H e He Hp. apply elem_of_list_In, H in He. rewrite forallb_forall in He.
  apply elem_of_list_In, He in Hp. done.
Qed.
Lemma ex_calm : forallb (λ e, forallb (λ x, match x with Panicked => false | _ => true end) e.2) Ex.tr = true.
Proof. vm_compute. reflexivity. Qed.
Definition shows (id : string) (v : option view) : bool :=
  match v with
  | Some v => match v_presentation v with Some pv => is_Some_b (pv_credentials pv !! id) | None => false end
  | None => false
  end.
Lemma shows_some id v : shows id v = true → ∃ v' pv, v = Some v' ∧ v_presentation v' = Some pv ∧ is_Some (pv_credentials pv !! id).
Proof.
  unfold shows. destruct v as [v|]; [|done]. destruct (v_presentation v) as [pv|] eqn:E; [|done]. destruct (pv_credentials pv !! id) eqn:E2; [|done].
  intros _. exists v, pv. rewrite E2. by split_and!.
Qed.
Lemma ex_shows : shows "cred1" (screen (take 5 Ex.tr)) = true.
Proof. vm_compute. reflexivity. Qed.
Lemma ex_token : ∃ n i q x, made Ex.library n i (HX (EToken q (Some x))) ∧ tr_grant q = TGPreAuthorizedCode "code2" (Some "123456").
Proof. eexists 9, 3, _, _. split; [eexists; vm_compute; reflexivity|reflexivity]. Qed.
Lemma ex_presented : ∃ n i uri rr x, made Ex.library n i (HX (EPresent uri rr (Some x))).
Proof. eexists 37, 8, _, _, _. eexists. vm_compute. reflexivity. Qed.
Lemma ex_saved : ∃ n i cr b, made Ex.library n i (HX (ESave cr b)).
Proof. eexists 19, 5, _, _. eexists. vm_compute. reflexivity. Qed.
