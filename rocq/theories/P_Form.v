(** C147-C149: forms, as the examples send and read them. *)
From Verif Require Import Base Json CoreModel VcModel Prog Sched IssuerTypes MatcherModel VerifierModel VerifierSpec HolderModel HolderSpec SerdeModel SerdeSpec QueryModel DifSerde
  DifExec FormModel FormFacts ServiceModel ServiceSpec ServiceFacts.
From Verif Require HolderExample SerdeExample P_Service P_Dif.

(** ** C147: presentations *)

(** Of a response only the state can be sent in a form: with a token or a submission nothing is sent. *)
Theorem C147_state_only cx rr s : form_write (ser_response_request cx rr) = Some s →
  rq_vp_token rr = None ∧ rq_submission rr = None ∧ form_read (de_response_request cx) s = Some rr.
Proof.
  destruct rr as [[l|] [b|] k]; intros H; try (exfalso; by destruct k).
  split; [done|]. split; [done|]. destruct k as [k|].
  - destruct (form_read_write (de_response_request cx) [("state", JStr k)] [("state", k)] eq_refl) as (t & E1 & E2).
    unfold ser_response_request in H. simpl rq_vp_token in H. simpl rq_submission in H. simpl rq_state in H.
    change (form_write (JObj [("state", JStr k)]) = Some s) in H. rewrite E1 in H. injection H as <-. rewrite E2. done.
  - injection H as <-. done.
Qed.
Print Assumptions C147_state_only.
(** So the wallet's presentations are never sent: writing the form fails, for every one of them. *)
Theorem C147_unsent_refuted cx (c : hconfig) n i uri rr x : hreach c → made c n i (HX (EPresent uri rr x)) →
  form_write (ser_response_request cx rr) = None.
Proof.
  intros Hr Hm. destruct (presented_shape c n i uri rr x Hr Hm) as (jwt & sub & Ht & _).
  destruct (form_write (ser_response_request cx rr)) as [s|] eqn:E; [|done].
  apply C147_state_only in E as [E _]. congruence.
Qed.
Print Assumptions C147_unsent_refuted.
(** And whatever is posted to the verifier is no answer to any request: a form has no presentation in it. *)
Theorem C147_unread_refuted cx s rr : form_read (de_response_request cx) s = Some rr →
  ∀ lb su req, ¬ acceptable lb su req rr.
Proof.
  intros H lb su req (l & vps & doc & subm & def & Hl & _). unfold form_read, de_response_request in H. cbn [obj] in H.
  destruct (opt _ "vp_token" _) as [o|] eqn:Ho; [|done]. apply list_unread in Ho as [-> _].
  destruct (opt _ "presentation_submission" _); [|done]. destruct (opt _ "state" _); [|done]. by injection H as <-.
Qed.
Print Assumptions C147_unread_refuted.
Example C147_example : hreach P_Dif.ex_presented ∧ (∃ n uri rr x, made P_Dif.ex_presented n 2 (HX (EPresent uri rr x)) ∧
    form_write (ser_response_request SerdeExample.ex_cx rr) = None) ∧
  form_write (ser_response_request SerdeExample.ex_cx (ResponseRequest None None (Some "a b&c"))) = Some "state=a+b%26c" ∧
  form_read (de_response_request SerdeExample.ex_cx) "state=a+b%26c" = Some (ResponseRequest None None (Some "a b&c")) ∧
  form_read (de_response_request SerdeExample.ex_cx) "vp_token=eyJ.e30.sig&state=abc" = None.
Proof.
  split; [apply HolderExample.hafter_reach|]. split.
  { exists 16. eexists _, _, _. split; [exists true; vm_compute; reflexivity|vm_compute; reflexivity]. }
  split; [vm_compute; reflexivity|]. split; vm_compute; reflexivity.
Qed.

(** ** C148: token requests *)

(** A token request can be sent in a form, and then is read as it was, exactly when it has no authorization details. *)
Theorem C148_sent r : match form_write (ser_token_request r) with
  | Some s => tr_authorization_details r = None ∧ form_read de_token_request s = Some r
  | None => is_Some (tr_authorization_details r)
  end.
Proof.
  destruct r as [i c g [d|]].
  { unfold ser_token_request, form_write. cbn [tr_credential_issuer tr_client_id tr_grant tr_authorization_details some_entry].
    rewrite (form_parts_bad _ "authorization_details" (ser_list ser_detail d)); [by eexists| |done].
    rewrite !elem_of_app. do 3 right. apply elem_of_list_here. }
  set (l := (if bool_decide (i = "") then [] else [("credential_issuer", i)]) ++ match c with Some c => [("client_id", c)] | None => [] end
    ++ match g with
       | TGAuthorizationCode code ru cv => [("grant_type", "authorization_code"); ("code", code)]
           ++ match ru with Some x => [("redirect_uri", x)] | None => [] end ++ match cv with Some x => [("code_verifier", x)] | None => [] end
       | TGPreAuthorizedCode code tx => [("grant_type", pre_authorized_name); ("pre-authorized_code", code)]
           ++ match tx with Some x => [("tx_code", x)] | None => [] end
       end).
  assert (∃ m, ser_token_request (TokenRequest i c g None) = JObj m ∧ form_parts m = Some l) as (m & -> & Hm).
  { unfold ser_token_request. cbn [tr_credential_issuer tr_client_id tr_grant tr_authorization_details]. eexists. split; [reflexivity|].
    unfold l, str_entry. case_bool_decide; destruct c, g as [code [ru|] [cv|]|code [tx|]]; reflexivity. }
  destruct (form_read_write de_token_request m l Hm) as (s & -> & E). split; [done|]. rewrite E. clear.
  unfold l. case_bool_decide as Hi; [subst i|]; destruct c, g as [code [ru|] [cv|]|code [tx|]]; reflexivity.
Qed.
Print Assumptions C148_sent.
(** The claim that any token request can be sent fails, and the issuer reads none that has details in it. *)
Theorem C148_details_refuted s r v : form_read de_token_request s = Some r → ("authorization_details", v) ∉ form_pairs s.
Proof.
  intros H. unfold form_read, de_token_request in H. cbn [obj] in H.
  destruct (dflt _ _ _ _); [|done]. destruct (opt de_str "client_id" _); [|done]. destruct (de_token_grant _); [|done].
  destruct (opt _ "authorization_details" _) eqn:Ho; [|done]. apply list_unread in Ho as [_ Ho]. exact (Ho v).
Qed.
Print Assumptions C148_details_refuted.
Definition ex_token : token_request :=
  TokenRequest "http://localhost:8080" (Some "96bfb9cb") (TGAuthorizationCode "a+b/c=" (Some "http://localhost:3000/callback") (Some "verifier")) None.
Example C148_example :
  form_write (ser_token_request ex_token) = Some
    "credential_issuer=http%3A%2F%2Flocalhost%3A8080&client_id=96bfb9cb&grant_type=authorization_code&code=a%2Bb%2Fc%3D&redirect_uri=http%3A%2F%2Flocalhost%3A3000%2Fcallback&code_verifier=verifier" ∧
  form_write (ser_token_request (TokenRequest "" None (TGPreAuthorizedCode "ABC" None) (Some []))) = None ∧
  form_read de_token_request "grant_type=authorization_code&code=ABC&authorization_details=%5B%5D" = None.
Proof. split; [vm_compute; reflexivity|]. split; vm_compute; reflexivity. Qed.

(** ** C149: back to [/auth] after the login *)

(** A login that succeeds sends the browser back to [/auth] with a request that was once made there; *)
Theorem C149_location c i host user password t l : sreach c → answered c i (WLogin host user password t) (Ok (Redirect l)) →
  ∃ j host' r, received c j (WAuth host' r) ∧ l = "http://" +:+ host +:+ "/auth?" +:+ authorization_query r.
Proof. exact (login_location c i host user password t l). Qed.
Print Assumptions C149_location.
(** and a request without authorization details or ampersands is then read as it was. *)
Theorem C149_read_back r : ro_authorization_details r = None → Forall (λ s, has_char "&" s = false) (request_texts r) →
  auth_form (authorization_query (ARObject r)) = Some (ARObject r).
Proof. exact (auth_form_round r). Qed.
Print Assumptions C149_read_back.
(** But a request with authorization details is not read, so that after the login there is no going on. *)
Theorem C149_details_refuted r d : ro_authorization_details r = Some d → auth_form (authorization_query (ARObject r)) = None.
Proof. exact (details_query r d). Qed.
Print Assumptions C149_details_refuted.
(** Nor can a wallet get there with authorization details in any other way of writing them. *)
Theorem C149_unread_refuted q r v : auth_form q = Some r → ("authorization_details", v) ∉ form_pairs q.
Proof.
  intros H Hin. unfold auth_form, form_read, de_authorization_request in H. cbn [obj] in H.
  rewrite (read_keys_details _ v) in H; [done|].
  apply (elem_of_list_fmap_1 (λ kv : string * string, (kv.1, JStr kv.2))) in Hin. exact Hin.
Qed.
Print Assumptions C149_unread_refuted.
Definition ex_request (uri : string) (details : option (list authorization_detail)) : request_object :=
  RequestObject "http://localhost:8080" RTCode "96bfb9cb" (Some uri) (Some "a b+c") "challenge" S256 details (Some "EmployeeIDCredential")
    "normal_user" None.
Example C149_example :
  ro_authorization_details (ex_request "http://localhost:3000/callback?x=1" None) = None ∧
  Forall (λ s, has_char "&" s = false) (request_texts (ex_request "http://localhost:3000/callback?x=1" None)) ∧
  authorization_query (ARObject (ex_request "http://localhost:3000/callback?x=1" None)) =
    "credential_issuer=http%3A%2F%2Flocalhost%3A8080&response_type=code&client_id=96bfb9cb&redirect_uri=http%3A%2F%2Flocalhost%3A3000%2Fcallback%3Fx=1&state=a%20b%2Bc&code_challenge=challenge&code_challenge_method=S256&scope=EmployeeIDCredential&subject_id=normal_user" ∧
  (* an ampersand in the address the client named *)
  auth_form (authorization_query (ARObject (ex_request "http://localhost:3000/callback?x=1&issuer_state=y" None))) ≠
    Some (ARObject (ex_request "http://localhost:3000/callback?x=1&issuer_state=y" None)).
Proof.
  split; [done|]. split; [repeat constructor|]. split; [vm_compute; reflexivity|]. vm_compute. discriminate.
Qed.
