(** The request macros: C137. *)
From Verif Require Import Base Json MatcherModel JsonParse CoreModel VcModel Prog IssuerTypes SerdeModel
  MacroModel MacroSpec MacroFacts MacroJson.

(** C137.  What compiles, and the request it builds: *)
Theorem C137_offer_iff imported m r : create_offer_macro imported m = Some r ↔ offer_written imported m r.
Proof. exact (create_offer_macro_iff imported m r). Qed.
Print Assumptions C137_offer_iff.
Theorem C137_authorization_built m r : authorization_macro m = Some r → authorization_written m r.
Proof. exact (authorization_macro_built m r). Qed.
Print Assumptions C137_authorization_built.
Theorem C137_authorization_compiles m r : authorization_written m r → is_Some (authorization_macro m).
Proof. exact (authorization_macro_compiles m r). Qed.
Print Assumptions C137_authorization_compiles.
Theorem C137_token_iff m r : token_macro m = Some r ↔ token_written m r.
Proof. exact (token_macro_iff m r). Qed.
Print Assumptions C137_token_iff.
Theorem C137_credential_iff m r : credential_macro m = Some r ↔ credential_written m r.
Proof. exact (credential_macro_iff m r). Qed.
Print Assumptions C137_credential_iff.
(** so that a misspelt member is never passed over in silence. *)
Theorem C137_unknown m k : k ∈ keys m →
  (∀ b, is_Some (create_offer_macro b m) →
     k ∈ ["credential_issuer"; "subject_id"; "credential_configuration_ids"; "grant_types"; "tx_code_required"; "send_type"]) ∧
  (is_Some (authorization_macro m) →
     k ∈ ["credential_issuer"; "response_type"; "client_id"; "redirect_uri"; "state"; "code_challenge"; "code_challenge_method";
          "authorization_details"; "scope"; "resource"; "subject_id"; "wallet_issuer"; "user_hint"; "issuer_state"]) ∧
  (is_Some (token_macro m) →
     k ∈ ["credential_issuer"; "client_id"; "grant_type"; "authorization_details"; "pre-authorized_code"; "tx_code"; "code";
          "redirect_uri"; "code_verifier"]) ∧
  (is_Some (credential_macro m) →
     k ∈ ["credential_issuer"; "access_token"; "proof"; "credential_identifier"; "format"; "credential_definition"]).
Proof.
  intros Hk. split; [|split; [|split]].
  - intros b [r H]. apply create_offer_macro_iff in H as [Ho _]. by apply Ho.
  - intros [r H]. apply authorization_macro_built in H as [Ho _]. by apply Ho.
  - intros [r H]. apply token_macro_iff in H as [Ho _]. apply Ho in Hk.
    revert Hk. destruct (tr_grant r); simpl; rewrite !elem_of_cons, elem_of_nil; tauto.
  - intros [r H]. apply credential_macro_iff in H as [Ho _]. apply Ho in Hk.
    revert Hk. destruct (cr_credential r); simpl; rewrite !elem_of_cons, elem_of_nil; tauto.
Qed.
Print Assumptions C137_unknown.

(** What is built is what is read from the same text as JSON, under conditions: *)
Theorem C137_offer_json_partial imported m r b t : create_offer_macro imported m = Some r → unrepeated (MObj m) →
  says m "tx_code_required" b → says m "send_type" (MSend t) →
  de_create_offer (as_json (MObj m)) = Some r.
Proof. intros H Hu. exact (offer_json imported m r b t H (proj1 (unrepeated_obj m Hu))). Qed.
Print Assumptions C137_offer_json_partial.
Theorem C137_authorization_json_partial strict m r : authorization_macro m = Some r → unrepeated (MObj m) → plain_details m →
  required a_text "response_type" m "code" → required a_text "code_challenge_method" m "S256" →
  de_authorization_request strict (as_json (MObj m)) = Some (ARObject r).
Proof. exact (authorization_json strict m r). Qed.
Print Assumptions C137_authorization_json_partial.
Theorem C137_token_json_partial m r : token_macro m = Some r → unrepeated (MObj m) → plain_details m →
  de_token_request (as_json (MObj m)) = Some r.
Proof. exact (token_json m r). Qed.
Print Assumptions C137_token_json_partial.
Theorem C137_credential_json_partial m r : credential_macro m = Some r → unrepeated (MObj m) →
  (∀ d, says m "credential_definition" (MObj d) → unsaid d "@context" ∧ unsaid d "credentialSubject") →
  de_credential_request (as_json (MObj m)) = Some r.
Proof. exact (credential_json m r). Qed.
Print Assumptions C137_credential_json_partial.
(** Of a member given twice the last counts, and the order of the members does not matter. *)
Theorem C137_last i k v a b : k ∈ keys b →
  create_offer_macro i (a ++ (k, v) :: b) = create_offer_macro i (a ++ b) ∧
  authorization_macro (a ++ (k, v) :: b) = authorization_macro (a ++ b) ∧
  token_macro (a ++ (k, v) :: b) = token_macro (a ++ b) ∧
  credential_macro (a ++ (k, v) :: b) = credential_macro (a ++ b).
Proof.
  intros H. apply (alike_twice k v a b) in H.
  split; [by apply offer_macro_alike|]. split; [by apply authorization_macro_alike|]. split; [by apply token_macro_alike|by apply credential_macro_alike].
Qed.
Print Assumptions C137_last.
Theorem C137_order i m m' : NoDup (keys m) → Permutation m m' →
  create_offer_macro i m = create_offer_macro i m' ∧ authorization_macro m = authorization_macro m' ∧
  token_macro m = token_macro m' ∧ credential_macro m = credential_macro m'.
Proof.
  intros Hn H. apply (alike_permutation m m' Hn) in H.
  split; [by apply offer_macro_alike|]. split; [by apply authorization_macro_alike|]. split; [by apply token_macro_alike|by apply credential_macro_alike].
Qed.
Print Assumptions C137_order.

(** ** Examples, from crates/macro-tests/tests and the documentation of the macros *)
Definition offer_text : mfields :=
  [("credential_issuer", MText false "http://vercre.io"); ("credential_configuration_ids", MArr [MStr "EmployeeID_JWT"]);
   ("subject_id", MText false "normal_user"); ("grant_types", MArr [MStr "urn:ietf:params:oauth:grant-type:pre-authorized_code"]);
   ("tx_code_required", MBool true); ("send_type", MSend ByVal)].
Example offer_text_built : create_offer_macro false offer_text =
  Some (CreateOfferRequest "http://vercre.io" (Some "normal_user") ["EmployeeID_JWT"] (Some [PreAuthorizedCode]) true ByVal).
Proof. vm_compute. reflexivity. Qed.
Fixpoint onceb (v : mvalue) : bool :=
  match v with
  | MArr l => forallb onceb l
  | MObj m => bool_decide (NoDup (keys m)) &&
      (fix go (m : list (string * mvalue)) := match m with [] => true | (_, v) :: r => onceb v && go r end) m
  | _ => true
  end.
Lemma onceb_unrepeated v : onceb v = true → unrepeated v.
Proof.
  induction v as [| | |l IH|m IH| |] using mvalue_ind'; intros H; try (by constructor).
  - constructor. intros v Hv. rewrite Forall_forall in IH. apply IH; [done|]. simpl in H. rewrite forallb_forall in H.
    apply H. by apply elem_of_list_In.
  - cbn [onceb] in H. apply andb_true_iff in H as [Hn H]. apply bool_decide_eq_true in Hn. constructor; [done|]. clear Hn.
    induction m as [|[k' v'] m IHm]; intros k v Hv; [by apply elem_of_nil in Hv|].
    apply andb_true_iff in H as [Hv' H]. apply Forall_cons in IH as [IHv IH].
    apply elem_of_cons in Hv as [[= -> ->]|Hv]; [by apply IHv|]. by apply (IHm IH H k).
Qed.
Example offer_text_met : unrepeated (MObj offer_text) ∧ says offer_text "tx_code_required" (MBool true) ∧
  says offer_text "send_type" (MSend ByVal).
Proof. split; [by apply onceb_unrepeated|]. split; by apply assoc_says. Qed.

Definition authorization_text (details : list mvalue) : mfields :=
  [("credential_issuer", MText false "http://vercre.io"); ("response_type", MStr "code"); ("client_id", MText false "96bfb9cb");
   ("redirect_uri", MStr "http://localhost:3000/callback"); ("state", MStr "1234"); ("code_challenge", MText true "c2hhMjU2");
   ("code_challenge_method", MStr "S256"); ("authorization_details", MArr details); ("subject_id", MText false "normal_user");
   ("wallet_issuer", MText false "http://vercre.io")].
Definition detail_text : mvalue :=
  MObj [("type", MStr "openid_credential"); ("credential_configuration_id", MStr "EmployeeID_JWT");
        ("credential_definition", MObj [("credentialSubject", MObj [("given_name", MObj []); ("address", MObj [("street", MObj [])])])])].
Definition format_text : mvalue :=
  MObj [("type", MStr "openid_credential"); ("format", MStr "jwt_vc_json");
        ("credential_definition", MObj [("type", MArr [MStr "VerifiableCredential"; MStr "EmployeeIDCredential"]); ("credentialSubject", MObj [])])].
Definition detail_built : authorization_detail :=
  AuthorizationDetail (ByConfigurationId "EmployeeID_JWT" (Some (PCW3c (CredentialDefinition None None
    (Some [("given_name", CEntry None); ("address", CSet [("street", CEntry None)])]))))) None.
Definition format_built : authorization_detail :=
  AuthorizationDetail (ByFormat (FJwtVcJson (CredentialDefinition None (Some ["VerifiableCredential"; "EmployeeIDCredential"]) (Some [])))) None.
Definition authorization_built (details : list authorization_detail) : request_object :=
  RequestObject "http://vercre.io" RTCode "96bfb9cb" (Some "http://localhost:3000/callback") (Some "1234") "c2hhMjU2" S256
    (Some details) None "normal_user" None.
Example authorization_text_built : authorization_macro (authorization_text [detail_text]) = Some (authorization_built [detail_built]).
Proof. vm_compute. reflexivity. Qed.
Example format_text_built : authorization_macro (authorization_text [format_text]) = Some (authorization_built [format_built]).
Proof. vm_compute. reflexivity. Qed.
Lemma plain_empty : plain_claim (MObj []).
Proof. constructor. intros k v H. by apply elem_of_nil in H. Qed.
Lemma says_of m k v : assoc k (into_map m) = Some v → says m k v.
Proof. apply assoc_says. Qed.
Ltac in_list H := repeat (apply elem_of_cons in H as [[= -> ->]|H]); [..|by apply elem_of_nil in H].
Lemma detail_text_plain : plain_detail detail_text.
Proof.
  eexists. split; [reflexivity|]. split; [exists (MStr "openid_credential"); split; [by apply says_of|by left]|].
  split; [by apply assoc_unsaid|]. split; [by apply assoc_unsaid|]. intros d Hd. apply assoc_says in Hd. injection Hd as <-.
  eexists. split; [reflexivity|]. split; [by apply assoc_unsaid|]. intros c Hc. apply assoc_says in Hc. injection Hc as <-.
  eexists. split; [reflexivity|]. intros k v Hin. in_list Hin; [apply plain_empty|]. constructor. intros k v Hin. in_list Hin.
  split; [|apply plain_empty]. intros Hin. by repeat (apply elem_of_cons in Hin as [?|Hin]; [done|]); apply elem_of_nil in Hin.
Qed.
Example authorization_text_met : unrepeated (MObj (authorization_text [detail_text])) ∧ plain_details (authorization_text [detail_text]) ∧
  required a_text "response_type" (authorization_text [detail_text]) "code" ∧
  required a_text "code_challenge_method" (authorization_text [detail_text]) "S256".
Proof.
  split; [by apply onceb_unrepeated|]. split.
  - intros l Hl v Hv. apply assoc_says in Hl. injection Hl as <-. apply elem_of_list_singleton in Hv as ->. apply detail_text_plain.
  - split; [exists (MStr "code")|exists (MStr "S256")]; (split; [by apply says_of|by left]).
Qed.

Definition token_text (details : list mvalue) : mfields :=
  [("credential_issuer", MText false "http://vercre.io"); ("client_id", MText false "96bfb9cb"); ("grant_type", MStr "authorization_code");
   ("code", MText false "ABCDEF"); ("code_verifier", MText false "ABCDEF12345"); ("authorization_details", MArr details)].
Definition token_detail_text : mvalue :=
  MObj [("type", MStr "openid_credential"); ("credential_configuration_id", MStr "EmployeeID_JWT")].
Example token_text_built : token_macro (token_text [token_detail_text]) =
  Some (TokenRequest "http://vercre.io" (Some "96bfb9cb") (TGAuthorizationCode "ABCDEF" None (Some "ABCDEF12345"))
    (Some [AuthorizationDetail (ByConfigurationId "EmployeeID_JWT" None) None])).
Proof. vm_compute. reflexivity. Qed.
Example pre_authorized_text_built : token_macro
    [("credential_issuer", MText false "http://vercre.io"); ("client_id", MText false "96bfb9cb");
     ("grant_type", MStr "urn:ietf:params:oauth:grant-type:pre-authorized_code"); ("pre-authorized_code", MText false "ABCDEF");
     ("tx_code", MStr "1234")] =
  Some (TokenRequest "http://vercre.io" (Some "96bfb9cb") (TGPreAuthorizedCode "ABCDEF" (Some "1234")) None).
Proof. vm_compute. reflexivity. Qed.
Example token_text_met : unrepeated (MObj (token_text [token_detail_text])) ∧ plain_details (token_text [token_detail_text]).
Proof.
  split; [by apply onceb_unrepeated|]. intros l Hl v Hv. apply assoc_says in Hl. injection Hl as <-. apply elem_of_list_singleton in Hv as ->.
  eexists. split; [reflexivity|]. split; [exists (MStr "openid_credential"); split; [by apply says_of|by left]|].
  split; [by apply assoc_unsaid|]. split; [by apply assoc_unsaid|]. intros d Hd. by apply assoc_says in Hd.
Qed.

Definition credential_text (definition : mfields) : mfields :=
  [("credential_issuer", MText false "http://vercre.io"); ("access_token", MText false "AVCDEF12345"); ("format", MStr "jwt_vc_json");
   ("credential_definition", MObj definition); ("proof", MObj [("proof_type", MStr "jwt"); ("jwt", MText false "eyJhbGci")])].
Example credential_text_built :
  credential_macro (credential_text [("type", MArr [MStr "VerifiableCredential"; MStr "EmployeeIDCredential"])]) =
  Some (CredentialRequest "http://vercre.io" "AVCDEF12345"
    (CIFormat (FJwtVcJson (CredentialDefinition None (Some ["VerifiableCredential"; "EmployeeIDCredential"]) None))) (Some (PSingle "eyJhbGci"))).
Proof. vm_compute. reflexivity. Qed.
Example credential_text_met :
  let m := credential_text [("type", MArr [MStr "VerifiableCredential"; MStr "EmployeeIDCredential"])] in
  unrepeated (MObj m) ∧ ∀ d, says m "credential_definition" (MObj d) → unsaid d "@context" ∧ unsaid d "credentialSubject".
Proof.
  split; [by apply onceb_unrepeated|]. intros d Hd. apply assoc_says in Hd. injection Hd as <-. split; by apply assoc_unsaid.
Qed.
(** The one call in the code itself, vercre-holder/src/issuance/credentials.rs 220-229: whatever the
    values, it builds the request with which the model of the wallet asks. *)
Theorem C137_wallet issuer token id jwt o1 o2 o3 o4 :
  credential_macro [("credential_issuer", MText o1 issuer); ("access_token", MText o2 token); ("credential_identifier", MText o3 id);
    ("proof", MObj [("proof_type", MStr "jwt"); ("jwt", MText o4 jwt)])] =
  Some (CredentialRequest issuer token (CIIdentifier id) (Some (PSingle jwt))).
Proof. by destruct o1, o2, o3, o4. Qed.
Print Assumptions C137_wallet.

(** ** Where the two differ *)

(** Two grant types, or two authorization details, never compile: the code written for them is not
    separated by commas. *)
Theorem C137_two_grants_refuted imported m a b l : says m "grant_types" (MArr (a :: b :: l)) → create_offer_macro imported m = None.
Proof.
  intros H. destruct (create_offer_macro imported m) as [r|] eqn:E; [|done]. exfalso.
  apply create_offer_macro_iff in E as (_ & _ & _ & _ & _ & Hg & _). destruct (co_grant_types r) as [g|].
  - destruct Hg as (v & Hv & [[-> _]|(x & c & -> & _)]); apply (says_fun _ _ _ _ H) in Hv; congruence.
  - by apply (says_unsaid _ _ _ H).
Qed.
Print Assumptions C137_two_grants_refuted.
Theorem C137_two_details_refuted m a b l : says m "authorization_details" (MArr (a :: b :: l)) →
  authorization_macro m = None ∧ token_macro m = None.
Proof.
  intros H. split.
  - destruct (authorization_macro m) as [r|] eqn:E; [|done]. exfalso.
    apply authorization_macro_built in E as (_ & _ & _ & _ & _ & _ & _ & _ & _ & _ & Hd & _). destruct (ro_authorization_details r).
    + destruct Hd as (v & Hv & [[-> _]|(x & c & -> & _)]); apply (says_fun _ _ _ _ H) in Hv; congruence.
    + by apply (says_unsaid _ _ _ H).
  - destruct (token_macro m) as [r|] eqn:E; [|done]. exfalso.
    apply token_macro_iff in E as (_ & _ & _ & _ & Hd). destruct (tr_authorization_details r).
    + destruct Hd as (v & Hv & [[-> _]|(x & c & -> & _)]); apply (says_fun _ _ _ _ H) in Hv; congruence.
    + by apply (says_unsaid _ _ _ H).
Qed.
Print Assumptions C137_two_details_refuted.
Definition with_member (k : string) (v : mvalue) (m : mfields) : mfields := map (λ kv, if bool_decide (kv.1 = k) then (k, v) else kv) m.
Example two_grants_read : is_Some (de_create_offer (as_json (MObj (with_member "grant_types"
  (MArr [MStr "urn:ietf:params:oauth:grant-type:pre-authorized_code"; MStr "authorization_code"]) offer_text)))).
Proof. vm_compute. by eexists. Qed.
Example two_details_read : is_Some (de_authorization_request true (as_json (MObj (authorization_text [detail_text; format_text])))).
Proof. vm_compute. by eexists. Qed.
(** The texts of a send type are not those of JSON: the JSON text gives the other one, without a
    word, and the text the macro knows is not JSON's. *)
Theorem C137_send_type_refuted :
  create_offer_macro false (with_member "send_type" (MStr "ByRef") offer_text) =
    Some (CreateOfferRequest "http://vercre.io" (Some "normal_user") ["EmployeeID_JWT"] (Some [PreAuthorizedCode]) true ByVal) ∧
  de_create_offer (as_json (MObj (with_member "send_type" (MStr "ByRef") offer_text))) =
    Some (CreateOfferRequest "http://vercre.io" (Some "normal_user") ["EmployeeID_JWT"] (Some [PreAuthorizedCode]) true ByRef) ∧
  is_Some (create_offer_macro false (with_member "send_type" (MStr "by_ref") offer_text)) ∧
  de_create_offer (as_json (MObj (with_member "send_type" (MStr "by_ref") offer_text))) = None.
Proof. split; [vm_compute; reflexivity|]. split; [vm_compute; reflexivity|]. split; [vm_compute; by eexists|vm_compute; reflexivity]. Qed.
Print Assumptions C137_send_type_refuted.
(** Leaving the send type out, as the documentation of the macro does, needs [SendType] in scope. *)
Theorem C137_send_type_scope_refuted m : unsaid m "send_type" → create_offer_macro false m = None.
Proof.
  intros H. destruct (create_offer_macro false m) as [r|] eqn:E; [|done]. exfalso.
  apply create_offer_macro_iff in E as (_ & _ & _ & _ & _ & _ & _ & [(v & Hv & _)|(_ & E & _)]); [|done].
  by apply (says_unsaid _ _ _ Hv).
Qed.
Print Assumptions C137_send_type_scope_refuted.
(** Any response type is the code, and any method S256. *)
Theorem C137_code_s256 m r : authorization_macro m = Some r → ro_code_challenge_method r = S256 ∧ ro_response_type r = RTCode.
Proof. intros H. by apply authorization_macro_built in H as (_ & _ & _ & ? & _ & _ & _ & _ & _ & ? & _). Qed.
Print Assumptions C137_code_s256.
Theorem C137_method_refuted :
  authorization_macro (with_member "code_challenge_method" (MStr "plain") (authorization_text [detail_text])) =
    Some (authorization_built [detail_built]) ∧
  de_authorization_request false (as_json (MObj (with_member "code_challenge_method" (MStr "plain") (authorization_text [detail_text])))) = None ∧
  authorization_macro (with_member "response_type" (MStr "vp_token") (authorization_text [detail_text])) =
    Some (authorization_built [detail_built]) ∧
  ∃ r, de_authorization_request false (as_json (MObj (with_member "response_type" (MStr "vp_token") (authorization_text [detail_text])))) =
    Some (ARObject r) ∧ ro_response_type r ≠ RTCode.
Proof.
  split; [vm_compute; reflexivity|]. split; [vm_compute; reflexivity|]. split; [vm_compute; reflexivity|].
  eexists. split; [vm_compute; reflexivity|done].
Qed.
Print Assumptions C137_method_refuted.
(** Inside an authorization detail what is not known is passed over: locations, claims, the context,
    misspelt members. *)
Theorem C137_detail_unknown k v d m : k ∉ ["type"; "credential_configuration_id"; "format"; "credential_definition"] →
  macro_detail (MObj m) = Some d → is_Some (macro_detail (MObj ((k, v) :: m))) ∧
  ∀ d', macro_detail (MObj ((k, v) :: m)) = Some d' → detail_written (MObj m) d'.
Proof.
  intros Hk H.
  assert (Hs : ∀ n w, n ≠ k → says ((k, v) :: m) n w ↔ says m n w).
  { intros n w Hn. split.
    - intros ([|[]] & b & E & Hb); simplify_eq/=. by eexists _, _.
    - intros (a & b & -> & Hb). by exists ((k, v) :: a), b. }
  assert (Hu : ∀ n, n ≠ k → unsaid ((k, v) :: m) n ↔ unsaid m n).
  { intros n Hn. unfold unsaid. simpl. rewrite not_elem_of_cons. tauto. }
  assert (HR : ∀ A (P : mvalue → A → Prop) n a, n ≠ k → required P n ((k, v) :: m) a ↔ required P n m a).
  { intros A P n a Hn. split; intros (w & Hw & ?); exists w; (split; [|done]); by apply Hs. }
  assert (HO : ∀ A (P : mvalue → A → Prop) n o, n ≠ k → optional P n ((k, v) :: m) o ↔ optional P n m o).
  { intros A P n [a|] Hn; [by apply HR|by apply Hu]. }
  rewrite !not_elem_of_cons in Hk. destruct Hk as (K1 & K2 & K3 & K4 & _).
  assert (HW : ∀ d', detail_written (MObj ((k, v) :: m)) d' ↔ detail_written (MObj m) d').
  { intros d'. split; intros (m' & [= <-] & (t & Ht & Htt) & Hl & Hd); eexists; (split; [reflexivity|]);
      (split; [exists t; split; [by apply Hs|done]|]); (split; [done|]).
    - destruct (ad_credential d') as [id p|[]]; try done.
      + destruct Hd as [Hid Hp]. split; [by apply HR in Hid|]. by apply HO in Hp.
      + destruct Hd as (H1 & H2 & H3 & H4). split; [by apply Hu in H1|]. split; [by apply Hs in H2|]. split; [by apply HR in H3|done].
    - destruct (ad_credential d') as [id p|[]]; try done.
      + destruct Hd as [Hid Hp]. split; [by apply HR|]. by apply HO.
      + destruct Hd as (H1 & H2 & H3 & H4). split; [by apply Hu|]. split; [by apply Hs|]. split; [by apply HR|done]. }
  split.
  - eapply macro_detail_compiles, HW. by apply macro_detail_built.
  - intros d' Hd'. by apply HW, macro_detail_built.
Qed.
Print Assumptions C137_detail_unknown.
Example locations_dropped :
  let v := MObj [("locations", MArr [MStr "http://vercre.io"]); ("type", MStr "openid_credential"); ("credential_configuration_id", MStr "EmployeeID_JWT")] in
  macro_detail v = Some (AuthorizationDetail (ByConfigurationId "EmployeeID_JWT" None) None) ∧
  de_detail (as_json v) = Some (AuthorizationDetail (ByConfigurationId "EmployeeID_JWT" None) (Some ["http://vercre.io"])).
Proof. split; vm_compute; reflexivity. Qed.
(** What JSON takes for a property of a claim is another claim, *)
Theorem C137_mandatory_refuted :
  macro_claim (MObj [("mandatory", MBool true)]) = CSet [("mandatory", CEntry None)] ∧
  de_claim (as_json (MObj [("mandatory", MBool true)])) = Some (CEntry (Some true)).
Proof. split; vm_compute; reflexivity. Qed.
Print Assumptions C137_mandatory_refuted.
(** a type given by an expression is not looked at, *)
Theorem C137_type_refuted :
  macro_detail (MObj [("type", MText false "payment"); ("credential_configuration_id", MStr "EmployeeID_JWT")]) =
    Some (AuthorizationDetail (ByConfigurationId "EmployeeID_JWT" None) None) ∧
  de_detail (as_json (MObj [("type", MText false "payment"); ("credential_configuration_id", MStr "EmployeeID_JWT")])) = None.
Proof. split; vm_compute; reflexivity. Qed.
Print Assumptions C137_type_refuted.
(** and [token_request!] cannot ask for claims: it does not compile with a definition beside the
    identifier of a configuration, nor with any claim, although JSON is read. *)
Theorem C137_token_claims_refuted m d dm k c : says m "authorization_details" (MArr [MObj d]) →
  says d "credential_definition" (MObj dm) →
  (∃ v, says d "credential_configuration_id" v) ∨ (∃ cs, says dm "credentialSubject" (MObj ((k, c) :: cs))) →
  token_macro m = None.
Proof.
  intros Hd Hdm H. destruct (token_macro m) as [r|] eqn:E; [|done]. exfalso.
  apply token_macro_iff in E as (_ & _ & _ & _ & Ha). destruct (tr_authorization_details r) as [l|]; [|by apply (says_unsaid _ _ _ Hd)].
  destruct Ha as (v & Hv & [[-> _]|(x & a & -> & _ & d' & -> & _ & _ & Hc)]); apply (says_fun _ _ _ _ Hd) in Hv; [done|]. injection Hv as <-.
  destruct (ad_credential a) as [id p|[f| | | |]]; try done.
  - destruct Hc as (_ & Hu & _). by apply (says_unsaid _ _ _ Hdm).
  - destruct Hc as (Hu & _ & (x & Hx & xm & -> & _ & _ & Hs) & _). apply (says_fun _ _ _ _ Hdm) in Hx. injection Hx as <-.
    destruct H as [[v Hv]|[cs Hcs]]; [by apply (says_unsaid _ _ _ Hv)|].
    destruct (cd_subject f) as [s|]; [|by apply (says_unsaid _ _ _ Hcs)].
    destruct Hs as (v & Hv & -> & _). by apply (says_fun _ _ _ _ Hcs) in Hv.
Qed.
Print Assumptions C137_token_claims_refuted.
Example token_claims_read : is_Some (de_token_request (as_json (MObj (token_text [detail_text])))) ∧ token_macro (token_text [detail_text]) = None.
Proof. split; [vm_compute; by eexists|vm_compute; reflexivity]. Qed.
(** [credential_request!] leaves the claims asked for out, without a word. *)
Theorem C137_subject_refuted :
  let m := credential_text [("type", MArr [MStr "VerifiableCredential"]); ("credentialSubject", MObj [("given_name", MObj [])])] in
  credential_macro m = Some (CredentialRequest "http://vercre.io" "AVCDEF12345"
    (CIFormat (FJwtVcJson (CredentialDefinition None (Some ["VerifiableCredential"]) None))) (Some (PSingle "eyJhbGci"))) ∧
  de_credential_request (as_json (MObj m)) = Some (CredentialRequest "http://vercre.io" "AVCDEF12345"
    (CIFormat (FJwtVcJson (CredentialDefinition None (Some ["VerifiableCredential"]) (Some [("given_name", CEntry None)])))) (Some (PSingle "eyJhbGci"))).
Proof. split; vm_compute; reflexivity. Qed.
Print Assumptions C137_subject_refuted.
(** A code without a verifier is read from JSON, and does not compile. *)
Theorem C137_verifier_refuted m : says m "grant_type" (MStr "authorization_code") → unsaid m "code_verifier" → token_macro m = None.
Proof.
  intros Hg Hu. destruct (token_macro m) as [r|] eqn:E; [|done]. exfalso.
  apply token_macro_iff in E as (_ & _ & _ & H & _). destruct (tr_grant r).
  - destruct H as (_ & _ & _ & v & _ & w & Hw & _). by apply (says_unsaid _ _ _ Hw).
  - destruct H as (H & _). by apply (says_fun _ _ _ _ Hg) in H.
Qed.
Print Assumptions C137_verifier_refuted.
