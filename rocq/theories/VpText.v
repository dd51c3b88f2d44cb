(** The presentations the wallet signs can be read from what is signed. *)
From Coq Require Import Lia.
From Verif Require Import Base StringSpec Json MatcherModel JsonParse JsonText CoreModel VcModel Prog ProgFacts ExecSpec ExecFacts
  Sched IssuerTypes Sha256 VerifierModel HolderModel HolderSpec HolderFacts HolderExec HolderProps
  SerdeSpec SerdeModel SerdeFacts SerdeTrips SerdeText ErrorModel VcSpec VcSerde VcTrips VcText.
Local Arguments String.append : simpl never.

Lemma consts_asked d : definition_consts d = asked_constants d.
Proof.
  unfold definition_consts, asked_constants. rewrite flat_map_concat_map. f_equal. apply map_ext. intros x.
  by rewrite flat_map_concat_map.
Qed.
Lemma create_vp_shape u h d l v : create_vp u h d l = Ok v →
  vp_context v = [KString "https://www.w3.org/2018/credentials/v1"; KString "https://www.w3.org/2018/credentials/examples/v1"] ∧
  vp_type v = QMany ("VerifiablePresentation" :: asked_constants d) ∧
  vp_proof v = None ∧ vp_credential v = (if l then None else Some (map (λ x, KString (wc_issued x)) l)).
Proof.
  intros H. pose proof (create_vp_ok _ _ _ _ _ H) as (_ & _ & Hc). revert H. unfold create_vp. rewrite consts_asked.
  set (b0 := vpb_holder h _).
  assert (vp_context b0 = [KString "https://www.w3.org/2018/credentials/v1"; KString "https://www.w3.org/2018/credentials/examples/v1"] ∧
    quota_elems (vp_type b0) = ["VerifiablePresentation"] ∧ vp_proof b0 = None ∧ vp_credential b0 = None) as Hb0 by done. clearbody b0.
  set (b1 := fold_left (λ b t, vpb_add_type t b) (asked_constants d) b0).
  assert (vp_context b1 = vp_context b0 ∧ quota_elems (vp_type b1) = quota_elems (vp_type b0) ++ asked_constants d ∧
    vp_proof b1 = vp_proof b0 ∧ vp_credential b1 = vp_credential b0) as Hb1.
  { unfold b1. clear. revert b0. induction (asked_constants d) as [|x r IH]; intros b0; simpl; [by rewrite app_nil_r|].
    destruct (IH (vpb_add_type x b0)) as (-> & E & -> & ->). split; [done|]. split; [|done]. rewrite E. simpl.
    rewrite <-app_assoc. by destruct (vp_type b0). }
  destruct Hb0 as (A1 & A2 & A3 & A4). destruct Hb1 as (B1 & B2 & B3 & B4). rewrite A1 in B1. rewrite A2 in B2. rewrite A3 in B3. rewrite A4 in B4.
  clearbody b1.
  set (b2 := fold_left _ l b1).
  assert (vp_context b2 = vp_context b1 ∧ vp_type b2 = vp_type b1 ∧ vp_proof b2 = vp_proof b1 ∧
    (vp_credential b2 = None ↔ vp_credential b1 = None ∧ l = [])) as (C1 & C2 & C3 & C4).
  { unfold b2. clear. revert b1. induction l as [|x r IH]; intros b1; simpl; [tauto|].
    destruct (IH (vpb_add_credential (KString (wc_issued x)) b1)) as (-> & -> & -> & ->). split_and!; try done. naive_solver. }
  clearbody b2. unfold vpb_build. destruct (Nat.ltb _ _); [done|]. destruct (vp_type b2) as [|ts] eqn:Et; [done|].
  intros [= <-]. rewrite C1, B1, C3, B3. split; [done|]. split.
  - rewrite <-C2 in B2. simpl in B2. by rewrite Et, B2.
  - split; [done|]. destruct l as [|x l]; [by apply C4|]. destruct (vp_credential b2); [simpl in Hc; by rewrite Hc|].
    by destruct (proj1 C4 eq_refl).
Qed.

(** Clock readings are in range: an hour later still fits in 64 bits. *)
Lemma vp_signed_reads cx c n i claims r : hreach c → dates_read cx →
  made c n i (HX (ESignVp claims r)) →
  (∀ m t, m < n → made c m i (HX (ENow t)) → fits 64 (timestamp t) ∧ fits 64 (timestamp (t + seconds 3600))) →
  read (de_vp_claims cx) (write (ser_vp_claims cx) claims) = Some claims.
Proof.
  intros Hr Hcx Hm Ht. destruct (made_says _ Hr _ _ _ Hm) as (q & Hq & id & -> & Hs).
  destruct Hs as (p & d & kid & u & v & t1 & t2 & t3 & Hg & Hst & Hd & Hkid & Hu & Hv & Ht1 & Ht2 & Ht3 & ->).
  apply (past_made _) in Ht1 as (m1 & Hl1 & Hn1), Ht2 as (m2 & Hl2 & Hn2), Ht3 as (m3 & Hl3 & Hn3).
  apply Ht in Hn1 as [F1 _], Hn2 as [F2 _], Hn3 as [_ F3]; [|lia..].
  apply create_vp_shape in Hv as (V1 & V2 & V3 & V4).
  assert (readable_vp v) as Hrv.
  { split; [|split].
    - intros k. rewrite V1. intros [->|[->|[]%elem_of_nil]%elem_of_cons]%elem_of_cons; exact I.
    - intros l x Hl Hx. rewrite Hl in V4. destruct (hp_credentials p) as [|a l']; [done|].
      assert (l = map (λ y, KString (wc_issued y)) (a :: l')) as -> by congruence.
      apply elem_of_list_In, in_map_iff in Hx as (? & ? & _). done.
    - rewrite V3. discriminate. }
  assert (shallow 0 (vp_values v)) as Hsh.
  { unfold vp_values. rewrite V1. cbn [flat_map app]. intros j Hj. exfalso. apply elem_of_list_In, in_flat_map in Hj as (k & Hk & Hj).
    rewrite V4 in Hk. destruct (hp_credentials p) as [|a l']; [done|]. cbn [default] in Hk.
    apply in_map_iff in Hk as (? & <- & _). done. }
  apply (read_write _ _ _ 6); [by apply (fine_vp_claims cx 0)|apply Nat.ltb_lt; reflexivity|]. by apply de_vp_claims_ser.
Qed.
Lemma vp_signed_members cx c n i claims r : hreach c →
  made c n i (HX (ESignVp claims r)) →
  ∃ id i1 url req d creds n1 u kid,
    asked c i (HPresent id) ∧ n1 < n ∧ asked c i1 (HRequest url) ∧ saved c n1 i1 id ∧
    (∃ m, m < n1 ∧ (made c m i1 (HX (EParseRequest url (Some req))) ∨ ∃ jwt, made c m i1 (HX (EDecodeRequest jwt (Some req))))) ∧
    vo_definition req = KObject d ∧
    (∃ m f, m < n1 ∧ made c m i1 (HX (EFind f (Some creds)))) ∧
    (∃ m, m < n ∧ made c m i (HX (EUuid u))) ∧ (∃ m, m < n ∧ made c m i (HX (EKid kid))) ∧
    ∃ holder nbf iat exp, up_to "#" kid holder ∧
    ser_vp_claims cx claims =
    JObj [("iss", JStr holder); ("jti", JStr ("urn:uuid:" +:+ u)); ("aud", JStr (vo_client_id req)); ("nonce", JStr (vo_nonce req));
          ("nbf", nbf); ("iat", iat); ("exp", exp);
          ("vp", JObj ([("@context", JArr [JStr "https://www.w3.org/2018/credentials/v1"; JStr "https://www.w3.org/2018/credentials/examples/v1"]);
                        ("id", JStr ("urn:uuid:" +:+ u));
                        ("type", JArr (map JStr ("VerifiablePresentation" :: asked_constants d)))]
                       ++ (if creds then [] else [("verifiableCredential", JArr (map (λ x, JStr (wc_issued x)) creds))])
                       ++ [("holder", JStr holder)]))].
Proof.
  intros Hr Hm. destruct (made_says _ Hr _ _ _ Hm) as (q & Hq & id & -> & Hs).
  destruct Hs as (p & d & kid & u & v & t1 & t2 & t3 & Hg & Hst & Hd & Hkid & Hu & Hv & _ & _ & _ & ->).
  destruct (pprovenance_get _ Hr _ _ _ _ Hg) as (_ & n1 & Hlt & (i1 & url & Hs1 & Hq1 & Hf & Hfind & Hreq) & _).
  apply past_made in Hkid, Hu.
  pose proof (create_vp_ok _ _ _ _ _ Hv) as (W1 & W2 & W3). apply create_vp_shape in Hv as (V1 & V2 & V3 & V4).
  exists id, i1, url, (hp_request p), d, (hp_credentials p), n1, u, kid.
  do 4 (split; [done|]). split; [exact Hreq|]. split; [done|].
  split; [destruct Hfind as (m & ? & ?); eauto|]. split; [done|]. split; [done|].
  exists (before_char "#" kid). do 3 eexists. split; [apply before_char_up_to|].
  destruct v as [cx' i' ty cr h pf]. simpl in V1, V2, V3, V4, W1, W2. subst.
  unfold ser_vp_claims, vp_claims_from, ser_vp. simpl.
  destruct (hp_credentials p) as [|a l]; [reflexivity|]. simpl. unfold ser_list. simpl. rewrite map_map. reflexivity.
Qed.
