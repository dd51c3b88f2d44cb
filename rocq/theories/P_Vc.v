(** Properties C116-C120: credentials and presentations as JSON. *)
From Verif Require Import Base StringSpec Json MatcherModel JsonParse JsonText CoreModel VcModel Prog ProgFacts ExecSpec ExecFacts
  Sched IssuerTypes ClaimsModel Sha256 IssuerModel IssuerSpec IssuerExample VerifierModel HolderModel HolderSpec
  SerdeSpec SerdeModel SerdeFacts SerdeTrips SerdeText ErrorModel VcSpec VcSerde VcTrips VcText VpText SerdeExample VcExample
  WireSpec WireFacts.
From Verif Require HolderExample VerifierExample.

(** C116.  A credential is read back from its JSON exactly when it is readable: no claim is called
    "id", no object repeats a name, indices fit, and a list of proofs is not empty.  (The dates a
    library writes are read back by it, which is [dates_read].) *)
Theorem C116_credentials_read_back cx v : dates_read cx → de_vc cx (ser_vc cx v) = Some v ↔ readable_vc v.
Proof. exact (vc_read_iff cx v). Qed.
Print Assumptions C116_credentials_read_back.
Theorem C116_presentations_read_back cx p : dates_read cx → de_vp cx (ser_vp cx p) = Some p ↔ readable_vp p.
Proof. exact (vp_read_iff cx p). Qed.
Print Assumptions C116_presentations_read_back.
(** Whatever was read once is read back. *)
Theorem C116_what_was_read cx j v : dates_read cx → de_vc cx j = Some v → de_vc cx (ser_vc cx v) = Some v.
Proof. intros Hd H. apply C116_credentials_read_back; [done|]. exact (de_vc_readable cx j v H). Qed.
Print Assumptions C116_what_was_read.
Theorem C116_presentation_was_read cx j p : dates_read cx → de_vp cx j = Some p → de_vp cx (ser_vp cx p) = Some p.
Proof. intros Hd H. apply C116_presentations_read_back; [done|]. exact (de_vp_readable cx j p H). Qed.
Print Assumptions C116_presentation_was_read.
(** As text too, if the claims are not nested too deep. *)
Theorem C116_text cx n v : dates_read cx → readable_vc v → shallow n (vc_values v) → 3 + n < depth_limit →
  read (de_vc cx) (write (ser_vc cx) v) = Some v.
Proof. exact (vc_text cx n v). Qed.
Print Assumptions C116_text.
Theorem C116_presentation_text cx n p : dates_read cx → readable_vp p → shallow n (vp_values p) → 5 + n < depth_limit →
  read (de_vp cx) (write (ser_vp cx) p) = Some p.
Proof. exact (vp_text cx n p). Qed.
Print Assumptions C116_presentation_text.
(** With a claim called "id", a credential about someone with an identifier is not read at all. *)
Theorem C116_every_credential_refuted cx v i m :
  vc_subject v = QOne (CredentialSubject (Some i) m) → "id" ∈ keys m → de_vc cx (ser_vc cx v) = None.
Proof. exact (vc_clash cx v i m). Qed.
Print Assumptions C116_every_credential_refuted.
Definition ex_credential_vc : vc :=
  VC [KString "https://www.w3.org/2018/credentials/v1"; KObject (JObj [("@vocab", JStr "https://example.org/")])]
    (Some "https://example.org/1") (QMany ["VerifiableCredential"; "EmployeeIDCredential"])
    (Some (KObject (QMany [LangValue "Employee" (Some "en") (Some Ltr); LangValue "Mitarbeiter" (Some "de") None])))
    None (KObject "https://issuer") (QMany [CredentialSubject (Some "did:a") [("email", JStr "a@b.c"); ("age", JNum "42")];
                                       CredentialSubject None [("address", JObj [("lines", JArr [JStr "1"; JNull])])]])
    (Some 7%Z) (Some 8%Z) (Some (QOne (CredentialStatus None Suspension 3 "https://list" (Some 2%N))))
    (Some (QMany [IntegrityProof (Some "c")])).
Example C116_example :
  dates_read ex_cx ∧ readable_vc ex_credential_vc ∧ shallow 2 (vc_values ex_credential_vc) ∧
  read (de_vc ex_cx) (write (ser_vc ex_cx) ex_credential_vc) = Some ex_credential_vc ∧
  de_vc ex_cx (ser_vc ex_cx (VC [] None (QOne "") None None (KString "") (QOne (CredentialSubject (Some "a") [("id", JStr "b")]))
    None None None None)) = None.
Proof.
  assert (∀ j : json, j ∈ vc_values ex_credential_vc → jnumbers j ∧ jdepth j ≤ 2) as Hs.
  { intros j Hj. apply elem_of_list_In in Hj. vm_compute in Hj.
    repeat destruct Hj as [<-|Hj]; try done; split; try (vm_compute; repeat split; lia); vm_compute; repeat constructor. }
  split; [apply ex_dates|]. split; [|split; [exact Hs|split; vm_compute; reflexivity]].
  apply (C116_credentials_read_back ex_cx); [apply ex_dates|]. vm_compute. reflexivity.
Qed.

(** C117.  Every credential the issuer signs can be read from the text of what is signed, if what
    its provider gave for it can be written and read. *)
Theorem C117_signed_credentials_read_back_partial (c : iconfig) cx n m en signer v jwt :
  ireach c → dates_read cx → 4 + n < depth_limit →
  c_log c !! m = Some en → e_ev en = X (VSignVc signer v jwt) →
  readable_answers n (calls_of (e_who en) (take m (c_log c))) →
  read (de_vc_claims cx) (write (ser_vc_claims cx) v) = Some v.
Proof. exact (signed_reads c cx n m en signer v jwt). Qed.
Print Assumptions C117_signed_credentials_read_back_partial.
(** But an issuer whose data has a claim called "id" signs and hands out credentials that cannot be
    read. *)
Theorem C117_every_dataset_refuted : ∃ (c : iconfig) n en signer v jwt r resp,
  ireach c ∧ c_log c !! n = Some en ∧ e_ev en = X (VSignVc signer v (Some jwt)) ∧
  answered c (e_who en) (QCredential r) (Ok (RCredential resp)) ∧ crs_response resp = CRCredential (KString jwt) ∧
  ∀ cx, read (de_vc_claims cx) (write (ser_vc_claims cx) v) = None.
Proof.
  destruct numbered_unreadable as (n & en & signer & v & jwt & r & resp & H).
  exists numbered_run, n, en, signer, v, jwt, r, resp. split; [exact numbered_reach|exact H].
Qed.
Print Assumptions C117_every_dataset_refuted.
Definition c117_run : iconfig :=
  after w0 (serially [QCreateOffer (ex_create ByVal); QToken (ex_token_pre "code2" (Some "123456"));
                      QCredential (ex_credential "token13" "EmployeeID_JWT_1" "nonce14")]).
Lemma c117_reach : ireach c117_run.
Proof. exact (after_reach w0 _). Qed.
Example C117_example : ireach c117_run ∧ ∃ en v jwt,
  c_log c117_run !! 26 = Some en ∧ e_ev en = X (VSignVc ex_iss v jwt) ∧
  readable_answers 0 (calls_of (e_who en) (take 26 (c_log c117_run))) ∧
  cs_claims <$> quota_elems (vc_subject (vcc_vc v)) = [ex_dataset].
Proof.
  split; [apply after_reach|]. eexists _, _, _. split; [vm_compute; reflexivity|]. split; [reflexivity|]. split; [|reflexivity].
  eassert (calls_of 2 (take 26 (c_log c117_run)) = _) as E by (vm_compute; reflexivity).
  cbn [e_who]. rewrite E. clear E. intros e He. apply elem_of_list_In in He. cbn [In] in He.
  repeat destruct He as [<-|He]; try done; try (split; [discriminate|reflexivity]).
  cbn [ds_claims]. split; [set_solver|]. split.
  - simpl. split; [|done]. apply (bool_decide_unpack _). by vm_compute.
  - intros j Hj. simpl in Hj. apply elem_of_list_In in Hj. repeat destruct Hj as [<-|Hj]; done.
Qed.

(** C118.  What is signed for a credential has exactly these members, from the metadata of the
    issuer that signs, the dataset, the status and the clock. *)
Theorem C118_signed_members q p h signer v jwt h' cx :
  path (ihandler q) (h ++ X (VSignVc signer v jwt) :: h') p →
  ∃ iss did type subj id ds claims status date,
    X (VIssuer signer (Some iss)) ∈ h ∧ X (VDataset subj id (Some ds)) ∈ h ∧ (∀ x, x ∈ claims → x ∈ ds_claims ds) ∧
    X (VStatus subj "credential_identifier" (Some status)) ∈ h ∧ X (VNow date) ∈ h ∧
    credential_document ser_int (is_credential_issuer iss) did type claims (option_map (ser_quota ser_status) status) date
      (ser_vc_claims cx v).
Proof. exact (signed_members q p h signer v jwt h' cx). Qed.
Print Assumptions C118_signed_members.
(** So in every credential the time before which it must not be accepted is [null], which RFC 7519
    does not allow: it is a number or left out. *)
Theorem C118_members_are_left_out_refuted : ∃ (c : iconfig) m en signer v jwt,
  ireach c ∧ c_log c !! m = Some en ∧ e_ev en = X (VSignVc signer v (Some jwt)) ∧
  ∀ cx, ∃ top doc, ser_vc_claims cx v = JObj top ∧ ("nbf", JNull) ∈ top ∧ ("vc", JObj doc) ∈ top ∧ ("validFrom", JNull) ∈ doc.
Proof.
  exists c117_run. eexists 26, _, _, _, _. split; [apply after_reach|]. split; [vm_compute; reflexivity|]. split; [reflexivity|].
  intros cx. eexists _, _. split; [reflexivity|]. split; [right; left|]. split.
  - do 5 right. unfold ser_vc. left.
  - cbn [vc_valid_from vc_name vc_description app some_entry]. do 7 right. left.
Qed.
Print Assumptions C118_members_are_left_out_refuted.
(** The members of a status are not named as the Bitstring Status List specification names them; *)
Theorem C118_status_names_refuted s : ∃ m, ser_status s = JObj m ∧
  ∀ k, k ∈ keys m → k ∈ ["id"; "type"; "status_purpose"; "status_list_index"; "status_list_credential"; "status_size"].
Proof. exact (status_names s). Qed.
Print Assumptions C118_status_names_refuted.
(** and a credential with a status that does name them so is not read. *)
Theorem C118_standard_status_refuted cx m purpose index credential :
  lookups "credentialStatus" m = [standard_status purpose index credential] → de_vc cx (JObj m) = None.
Proof. exact (standard_vc_unread cx m purpose index credential). Qed.
Print Assumptions C118_standard_status_refuted.
(** The members of any credential and presentation, with their values. *)
Theorem C118_credential_values cx v : exactly
  [("@context", Some (ser_list (ser_kind (λ j, j)) (vc_context v))); ("id", Some (null_or JStr (vc_id v)));
   ("type", Some (ser_quota JStr (vc_type v))); ("name", option_map ser_lang_string (vc_name v));
   ("description", option_map ser_lang_string (vc_description v)); ("issuer", Some (ser_kind ser_issuer_id (vc_issuer v)));
   ("credentialSubject", Some (ser_quota ser_subject (vc_subject v))); ("validFrom", Some (null_or (ser_date cx) (vc_valid_from v)));
   ("validUntil", option_map (ser_date cx) (vc_valid_until v)); ("credentialStatus", option_map (ser_quota ser_status) (vc_status v));
   ("proof", option_map (ser_quota ser_integrity) (vc_proof v))] (ser_vc cx v).
Proof. exact_members. Qed.
Print Assumptions C118_credential_values.
Theorem C118_presentation_values cx p : exactly
  [("@context", Some (ser_list (ser_kind (λ j, j)) (vp_context p))); ("id", option_map JStr (vp_id p));
   ("type", Some (ser_quota JStr (vp_type p))); ("verifiableCredential", option_map (ser_list (ser_kind (ser_vc cx))) (vp_credential p));
   ("holder", option_map JStr (vp_holder p)); ("proof", option_map (ser_quota ser_integrity) (vp_proof p))] (ser_vp cx p).
Proof. exact_members. Qed.
Print Assumptions C118_presentation_values.
Theorem C118_language_values v : exactly
  [("@value", Some (JStr (lv_value v))); ("@language", option_map JStr (lv_language v));
   ("@direction", option_map ser_direction (lv_direction v))] (ser_lang_value v).
Proof. exact_members. Qed.
Print Assumptions C118_language_values.
Example C118_example : ∃ en p h', c_log c117_run !! 26 = Some en ∧
  path (ihandler (QCredential (ex_credential "token13" "EmployeeID_JWT_1" "nonce14")))
    (calls_of (e_who en) (take 26 (c_log c117_run)) ++ e_ev en :: h') p.
Proof.
  eexists. assert (c_log c117_run !! 26 = Some _) as E by (vm_compute; reflexivity).
  destruct (pos_path _ _ _ _ _ c117_reach E) as (q & p & es2 & Hq & Hp).
  exists p, es2. split; [exact E|].
  assert (fst <$> c_pool c117_run !! 2 = Some (QCredential (ex_credential "token13" "EmployeeID_JWT_1" "nonce14"))) as F
    by (vm_compute; reflexivity).
  cbn [e_who] in Hq. rewrite Hq in F. injection F as <-. exact Hp.
Qed.

(** C119.  The issuer that is read is the one that is written, and not another; *)
Theorem C119_issuer_is_as_written_partial cx m v : de_vc cx (JObj m) = Some v →
  (lookups "issuer" m = [] ∧ vc_issuer v = KString "") ∨
  (∃ s, lookups "issuer" m = [JStr s] ∧ vc_issuer v = KString s) ∨
  (∃ o, lookups "issuer" m = [JObj o] ∧
     ((lookups "id" o = [] ∧ vc_issuer v = KObject "") ∨ ∃ s, lookups "id" o = [JStr s] ∧ vc_issuer v = KObject s)).
Proof. exact (vc_read_issuer cx m v). Qed.
Print Assumptions C119_issuer_is_as_written_partial.
(** but any object at all is read as a credential, one with no issuer, type or subject, if it has
    none of a credential's members. *)
Theorem C119_mandatory_members_refuted cx m :
  (∀ k, k ∈ keys m →
     k ∉ ["@context"; "id"; "type"; "name"; "description"; "issuer"; "credentialSubject"; "validFrom"; "validUntil";
          "credentialStatus"; "proof"]) →
  ∃ v, de_vc cx (JObj m) = Some v ∧ vc_issuer v = KString "" ∧ vc_type v = QOne "" ∧ vc_context v = [] ∧
    vc_subject v = QOne (CredentialSubject None []).
Proof. intros H. exists vc_default. split; [exact (vc_anything cx m H)|]. repeat split; reflexivity. Qed.
Print Assumptions C119_mandatory_members_refuted.
Example C119_example cx : de_vc cx (JObj [("hello", JStr "world")]) = Some vc_default ∧
  vc_issuer <$> de_vc cx (JObj [("issuer", JObj [("id", JStr "did:a")])]) = Some (KObject "did:a").
Proof. split; reflexivity. Qed.

(** C120.  Every presentation the wallet signs can be read from the text of what is signed, *)
Theorem C120_signed_presentations_read_back cx (c : hconfig) n i claims r : hreach c → dates_read cx →
  made c n i (HX (ESignVp claims r)) →
  (∀ m t, m < n → made c m i (HX (ENow t)) → fits 64 (timestamp t) ∧ fits 64 (timestamp (t + seconds 3600))) →
  read (de_vp_claims cx) (write (ser_vp_claims cx) claims) = Some claims.
Proof. exact (vp_signed_reads cx c n i claims r). Qed.
Print Assumptions C120_signed_presentations_read_back.
(** and has exactly these members, from the verifier's request, the credentials found for it and
    the wallet's key. *)
Theorem C120_signed_members cx (c : hconfig) n i claims r : hreach c →
  made c n i (HX (ESignVp claims r)) →
  ∃ id i1 url req d creds n1 u kid,
    asked c i (HPresent id) ∧ n1 < n ∧ asked c i1 (HRequest url) ∧ saved c n1 i1 id ∧
    (∃ m, m < n1 ∧ (made c m i1 (HX (EParseRequest url (Some req))) ∨ ∃ jwt, made c m i1 (HX (EDecodeRequest jwt (Some req))))) ∧
    vo_definition req = KObject d ∧
    (∃ m f, m < n1 ∧ made c m i1 (HX (EFind f (Some creds)))) ∧
    (∃ m, m < n ∧ made c m i (HX (EUuid u))) ∧ (∃ m, m < n ∧ made c m i (HX (EKid kid))) ∧
    ∃ holder nbf iat exp, up_to "#" kid holder ∧
    ser_vp_claims cx claims =
    JObj [("iss", JStr holder); ("jti", JStr ("urn:uuid:" +:+ u)); ("aud", JStr (vo_client_id req)); ("nonce", JStr (vo_nonce req));
          ("nbf", nbf); ("iat", iat); ("exp", exp);
          ("vp", JObj ([("@context", JArr [JStr "https://www.w3.org/2018/credentials/v1"; JStr "https://www.w3.org/2018/credentials/examples/v1"]);
                        ("id", JStr ("urn:uuid:" +:+ u));
                        ("type", JArr (map JStr ("VerifiablePresentation" :: asked_constants d)))]
                       ++ (if creds then [] else [("verifiableCredential", JArr (map (λ x, JStr (wc_issued x)) creds))])
                       ++ [("holder", JStr holder)]))].
Proof. exact (vp_signed_members cx c n i claims r). Qed.
Print Assumptions C120_signed_members.
(** Any constant a filter asks for becomes a type of the presentation, not only types. *)
Definition by_email : input_descriptor :=
  InputDescriptor "employee" None None None
    (Constraints (Some [Field ["$.credentialSubject.email"] (Some (Filter "string" (FConst "normal.user@example.com"))) None])).
Definition email_run : hconfig :=
  HolderExample.hafter (HolderExample.HWorld ex_issuer ex_server (λ _ _, None) [HolderExample.ex_wcredential "vc"]
      (HolderExample.ex_vprequest [by_email]) (λ _ _, Some (ResponseResponse None None)))
    (HolderExample.hserially [HRequest "request_uri"; HConsent "id1"; HPresent "id1"]).
Theorem C120_types_are_types_refuted : ∃ (c : hconfig) n i claims jwt,
  hreach c ∧ made c n i (HX (ESignVp claims (Some jwt))) ∧
  vp_type (vpc_vp claims) = QMany ["VerifiablePresentation"; "normal.user@example.com"].
Proof.
  exists email_run. eexists 15, 2, _, _. split; [apply HolderExample.hafter_reach|].
  split; [exists true; vm_compute; reflexivity|reflexivity].
Qed.
Print Assumptions C120_types_are_types_refuted.
Example C120_example : hreach email_run ∧ ∃ claims jwt,
  made email_run 15 2 (HX (ESignVp claims (Some jwt))) ∧
  read (de_vp_claims ex_cx) (write (ser_vp_claims ex_cx) claims) = Some claims.
Proof.
  split; [apply HolderExample.hafter_reach|]. eexists _, _. split; [exists true; vm_compute; reflexivity|]. vm_compute. reflexivity.
Qed.
