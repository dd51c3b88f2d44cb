(** C141-C144: the issuer as a web service (examples/issuer). *)
From Verif Require Import Base Json CoreModel VcModel Prog ProgFacts ExecFacts Sched IssuerTypes ErrorModel ServiceModel ServiceSpec ServiceFacts.

(** ** C141: whom the service authorizes *)

(** The library is asked to authorize a subject only for a request that names the subject and where to go back to, and
    the subject is either the user whose password was sent, with a token that the service had handed out, or is itself a
    token that the service had handed out. *)
Theorem C141_subjects c n i r o : sreach c → passed c n i (QAuthorize r) o →
  ∃ host object, received c i (WAuth host (ARObject object)) ∧ r = ARObject object ∧ ro_subject_id object ≠ "" ∧
    is_Some (ro_redirect_uri object) ∧
    (token_of_auth c n (ro_subject_id object) ∨
     (ro_subject_id object = "normal_user" ∧
      ∃ j host' t, received c j (WLogin host' "normal_user" "password" t) ∧ token_of_auth c n t)).
Proof. exact (authorized c n i r o). Qed.
Print Assumptions C141_subjects.
(** So, as long as tokens are not taken for subjects, there is no authorization without the password. *)
Theorem C141_password c n i object o : sreach c → passed c n i (QAuthorize (ARObject object)) o →
  ¬ token_of_auth c n (ro_subject_id object) → logged_in c (ro_subject_id object).
Proof.
  intros Hr H Hn. destruct (authorized c n i _ o Hr H) as (host & ob & _ & [= <-] & _ & _ & [Ht|(-> & j & h & t & Hj & _)]); [done|].
  by exists j, h, t.
Qed.
Print Assumptions C141_password.

Module Example.
  Definition details : list authorization_detail := [].
  Definition object (issuer subject : string) (uri state : option string) : request_object :=
    RequestObject issuer RTCode "96bfb9cb" uri state "challenge" S256 (Some details) None subject None.
  Definition request (subject : string) : authorization_request :=
    ARObject (object "http://localhost:8080" subject (Some "http://localhost:3000/callback") (Some "af0ifjsldkj")).
  Definition response : authorization_response := AuthorizationResponse "CODE" (Some "af0ifjsldkj") "http://localhost:3000/callback".
  (** Tokens are numbered by the calls made so far; the library authorizes everybody, and answers other requests with an error. *)
  Definition orc (log : list (entry SSig)) (_ : nat) (x : scall) : sans x :=
    match x with
    | XCsrf => String (ascii_of_nat (65 + length log)) "oken"
    | XLibrary (QAuthorize _) => Ok (RAuthorize response)
    | XLibrary _ => Err (InvalidRequest "no")
    end.
  (** Somebody asks for an authorization, is shown a form, and puts the token in place of the subject. *)
  Definition no_login : option sconfig :=
    exec whandler ∅ orc [Arrive (WAuth "localhost:8080" (request "somebody")); Finish 0 9;
                         Arrive (WAuth "localhost:8080" (request "Boken")); Finish 1 9] (Config [] []).
  (** Somebody logs in; then somebody else asks, naming the user. *)
  Definition login : option sconfig :=
    exec whandler ∅ orc [Arrive (WAuth "localhost:8080" (request "normal_user")); Finish 0 9;
                         Arrive (WLogin "localhost:8080" "normal_user" "password" "Boken"); Finish 1 9;
                         Arrive (WAuth "attacker:666" (request "normal_user")); Finish 2 9] (Config [] []).
  Definition pushed : option sconfig :=
    exec whandler ∅ orc [Arrive (WAuth "localhost:8080" (request "normal_user")); Finish 0 9;
                         Arrive (WLogin "localhost:8080" "normal_user" "password" "Boken"); Finish 1 9;
                         Arrive (WPar "localhost:8080" (object "" "normal_user" None None)); Finish 2 9;
                         Arrive (WLogin "localhost:8080" "normal_user" "password" "Hoken"); Finish 3 9;
                         Arrive (WPar "localhost:8080" (object "" "Hoken" None None)); Finish 4 9;
                         Arrive (WAuth "localhost:8080" (ARUri "urn:ietf:params:oauth:request_uri:1")); Finish 5 9] (Config [] []).
  Lemma reached (x : option sconfig) c l : x = exec whandler ∅ orc l (Config [] []) → x = Some c → sreach c.
  Proof. intros ->. apply exec_reachable. constructor. Qed.
End Example.

(** The claim that the service authorizes only people who logged in fails: a token serves as a subject. *)
Theorem C141_refuted : ∃ c n i object o, sreach c ∧ passed c n i (QAuthorize (ARObject object)) o ∧
  ∀ user, ¬ logged_in c user.
Proof.
  destruct Example.no_login as [c|] eqn:H; [|by vm_compute in H].
  exists c, 4, 1, (Example.object "http://localhost:8080" "Boken" (Some "http://localhost:3000/callback") (Some "af0ifjsldkj")), (Ok (RAuthorize Example.response)).
  split; [by eapply Example.reached|].
  vm_compute in H. injection H as <-. split; [by eexists|].
  intros user (i & host & t & p & Hp). by destruct i as [|[|i]].
Qed.
Print Assumptions C141_refuted.
(** With the password sent once, by anybody, requests from everywhere are served. *)
Example C141_example : ∃ c, Example.login = Some c ∧ sreach c ∧
  passed c 7 2 (QAuthorize (Example.request "normal_user")) (Ok (RAuthorize Example.response)) ∧
  logged_in c "normal_user" ∧ token_of_auth c 7 "Boken" ∧
  answered c 2 (WAuth "attacker:666" (Example.request "normal_user")) (Ok (Redirect "http://localhost:3000/callback?code=CODE")).
Proof.
  destruct Example.login as [c|] eqn:H; [|by vm_compute in H].
  exists c. split; [done|]. split; [by eapply Example.reached|].
  vm_compute in H. injection H as <-. split; [by eexists|]. split; [by exists 1, "localhost:8080", "Boken"; eexists|].
  split; [|done]. exists 1, 0, "localhost:8080", (Example.request "normal_user"). split; [lia|]. split; by eexists.
Qed.

(** A login that succeeds spends its token: nothing is found under it from some step of the login on, unless it is kept again. *)
Theorem C141_token_spent c i host user password t l : sreach c → answered c i (WLogin host user password t) (Ok (Redirect l)) →
  (∀ n j k eff, c_log c !! n ≠ Some (Entry j (SPurge k false) eff)) →
  ∃ n ev eff, c_log c !! n = Some (Entry i ev eff) ∧
    ∀ m j v eff', n < m → c_log c !! m = Some (Entry j (SGet (auth_key t) (Some v)) eff') →
      ∃ a i' v' x b, n < a < m ∧ c_log c !! a = Some (Entry i' (SPut (auth_key t) v' x b) true).
Proof. exact (token_spent c i host user password t l). Qed.
Print Assumptions C141_token_spent.
Example C141_spent_example : ∃ c l, Example.login = Some c ∧ sreach c ∧
  answered c 1 (WLogin "localhost:8080" "normal_user" "password" "Boken") (Ok (Redirect l)) ∧
  ∀ n j k eff, c_log c !! n ≠ Some (Entry j (SPurge k false) eff).
Proof.
  destruct Example.login as [c|] eqn:H; [|by vm_compute in H].
  exists c. eexists. split; [done|]. split; [by eapply Example.reached|].
  vm_compute in H. injection H as <-. split; [reflexivity|]. intros n j k eff Hn.
  do 12 (destruct n as [|n]; [discriminate Hn|]). destruct n; discriminate Hn.
Qed.

(** ** C142: pushed requests *)

(** The library gets a pushed request only when the subject it names is a token that the service had handed out for
    another pushed request. *)
Theorem C142_subjects c n i object o : sreach c → passed c n i (QPar object) o → token_of_par c n (ro_subject_id object).
Proof.
  intros Hr H. destruct (pushed c n i object o Hr H) as (host & ob & _ & -> & _ & Ht). done.
Qed.
Print Assumptions C142_subjects.
(** So a user who logs in never gets to push a request: a login is good for [/auth] only. *)
Theorem C142_refuted c n i object o : sreach c → passed c n i (QPar object) o →
  (∀ m j, ¬ drawn c m j "normal_user") → ro_subject_id object ≠ "normal_user".
Proof.
  intros Hr H Hd He. apply (C142_subjects c n i object o Hr) in H as (m & j & _ & _ & _ & Hm & _). rewrite He in Hm. by apply (Hd m j).
Qed.
Print Assumptions C142_refuted.
(** Nor does the form that is shown for a pushed request let anybody in: a login that succeeds has a token from [/auth],
    or the user's name in its place. *)
Theorem C142_login c i host user password t l : sreach c → answered c i (WLogin host user password t) (Ok (Redirect l)) →
  token_of_auth c (length (c_log c)) t ∨ t = "normal_user".
Proof.
  intros Hr Ha. destruct (login_redirects c i host user password t l Hr Ha) as [v Hv].
  apply (auth_found c _ i t v Hr) in Hv as [?|[-> _]]; auto.
Qed.
Print Assumptions C142_login.
(** And the address that the library gives for a pushed request is of no use: [/auth] refuses it by panicking. *)
Theorem C142_uri c i host uri r : sreach c → answered c i (WAuth host (ARUri uri)) r → r = Panic "should be an object request".
Proof.
  intros Hr Ha. apply (answered_path c i _ r Hr) in Ha. unfold runs in Ha. destruct (calls_of _ _); [|done]. by injection Ha.
Qed.
Print Assumptions C142_uri.
Example C142_example : ∃ c, Example.pushed = Some c ∧ sreach c ∧ logged_in c "normal_user" ∧
  answered c 2 (WPar "localhost:8080" (Example.object "" "normal_user" None None)) (Ok (LoginForm "Hoken")) ∧
  answered c 3 (WLogin "localhost:8080" "normal_user" "password" "Hoken") (Ok (Unauthorized "invalid csrf_token")) ∧
  passed c 11 4 (QPar (Example.object "http://localhost:8080" "Hoken" None None)) (Err (InvalidRequest "no")) ∧
  answered c 5 (WAuth "localhost:8080" (ARUri "urn:ietf:params:oauth:request_uri:1")) (Panic "should be an object request").
Proof.
  destruct Example.pushed as [c|] eqn:H; [|by vm_compute in H].
  exists c. split; [done|]. split; [by eapply Example.reached|].
  vm_compute in H. injection H as <-. split; [by exists 1, "localhost:8080", "Boken"; eexists|]. repeat (split; [done|]).
  split; [by eexists|done].
Qed.

(** ** C143: the issuer and the access token *)

(** Whatever a body says, the library is given the issuer that the host is, and the bearer's token; the rest of the body
    is passed on as it is. *)
Theorem C143_host c n i q o w : sreach c → passed c n i q o → received c i w → (∀ host r, w ≠ WAuth host r) →
  names_issuer q = Some ("http://" +:+ web_host w) ∧ access_token q = web_bearer w ∧
  ∃ b, web_body w = Some b ∧ nameless q = nameless b.
Proof.
  intros Hr H Hw Ha. destruct (passed_path c n i q o Hr H) as (w' & es2 & p & Hw' & Hp).
  rewrite (received_once c i w w' Hw Hw') in *. apply lib_path in Hp. destruct w'; try (by destruct (Ha host r));
    try (destruct Hp as (H1 & H2 & H3 & _); simpl in H1, H2, H3 |- *; by eauto); [|done].
  destruct Hp as (-> & _ & _). simpl. unfold hosted, at_host. eauto.
Qed.
Print Assumptions C143_host.
(** All but [/auth], which passes on what the client says, and ignores the host. *)
Theorem C143_refuted c n i q o host object : sreach c → passed c n i q o → received c i (WAuth host (ARObject object)) →
  names_issuer q = Some (ro_credential_issuer object).
Proof.
  intros Hr H Hw. destruct (passed_path c n i q o Hr H) as (w' & es2 & p & Hw' & Hp).
  rewrite <-(received_once c i _ w' Hw Hw') in Hp. apply lib_path in Hp as (-> & _). done.
Qed.
Print Assumptions C143_refuted.
Definition posted : credential_request := CredentialRequest "http://elsewhere" "forged" (CIIdentifier "EmployeeID") None.
Example C143_example : ∃ c, 
  exec whandler ∅ Example.orc [Arrive (WCredential "localhost:8080" "ABC" posted); Finish 0 9] (Config [] []) = Some c ∧ sreach c ∧
  passed c 0 0 (QCredential (CredentialRequest "http://localhost:8080" "ABC" (CIIdentifier "EmployeeID") None)) (Err (InvalidRequest "no")).
Proof.
  destruct (exec _ _ _ _ _) as [c|] eqn:H; [|by vm_compute in H]. exists c. split; [done|].
  split; [by eapply Example.reached|]. vm_compute in H. injection H as <-. by eexists.
Qed.
Example C143_auth_example : ∃ c, Example.login = Some c ∧ sreach c ∧
  passed c 7 2 (QAuthorize (Example.request "normal_user")) (Ok (RAuthorize Example.response)) ∧
  received c 2 (WAuth "attacker:666" (Example.request "normal_user")).
Proof.
  destruct Example.login as [c|] eqn:H; [|by vm_compute in H].
  exists c. split; [done|]. split; [by eapply Example.reached|].
  vm_compute in H. injection H as <-. split; by eexists.
Qed.

(** ** C144: the answers *)

(** What the library gives is what the client gets, as JSON; an error is the error's JSON. *)
Theorem C144_answers c n i q o w r : sreach c → passed c n i q o → answered c i w r → (∀ host x, w ≠ WAuth host x) →
  match o with
  | Ok v => r = Ok (OkJson v)
  | Err e => r = Ok (ServerFault (error_json (error_of e)))
  | Panic why => r = Panic why
  end.
Proof.
  intros Hr H Ha Hw. destruct (passed_answered c n i q o w r Hr H Ha) as (h & h' & Hrun).
  apply result_path in Hrun; [|done]. subst. by destruct o.
Qed.
Print Assumptions C144_answers.
(** But the status is that of a fault of the server, whatever the error: also where RFC 6749 (5.2) asks for 400. *)
Theorem C144_status_refuted c n i q e w r : sreach c → passed c n i q (Err e) → answered c i w (Ok r) → (∀ host x, w ≠ WAuth host x) →
  status r = 500.
Proof.
  intros Hr H Ha Hw. pose proof (C144_answers c n i q (Err e) w (Ok r) Hr H Ha Hw) as E. simpl in E. by injection E as ->.
Qed.
Print Assumptions C144_status_refuted.
(** After [/auth] the client is sent back to the address it named, with the code, or with the error. *)
Theorem C144_redirect c n i q o host object r : sreach c → passed c n i q o → answered c i (WAuth host (ARObject object)) r →
  ∃ uri, ro_redirect_uri object = Some uri ∧
  match o with
  | Ok (RAuthorize v) => r = Ok (Redirect (uri +:+ "?code=" +:+ ar_code v))
  | Ok _ => ∃ why, r = Panic why
  | Err e => r = Ok (Redirect (uri +:+ "?" +:+ error_query (error_of e)))
  | Panic why => r = Panic why
  end.
Proof.
  intros Hr H Ha. destruct (passed_answered c n i q o _ r Hr H Ha) as (h & h' & Hrun). by apply authorize_result in Hrun.
Qed.
Print Assumptions C144_redirect.
(** But not with the state it sent, as RFC 6749 (4.1.2) asks: requests that differ in the state get the same address. *)
Theorem C144_state_refuted c1 n1 i1 q1 v1 host1 object1 r1 c2 n2 i2 q2 v2 host2 object2 r2 :
  sreach c1 → passed c1 n1 i1 q1 (Ok (RAuthorize v1)) → answered c1 i1 (WAuth host1 (ARObject object1)) r1 →
  sreach c2 → passed c2 n2 i2 q2 (Ok (RAuthorize v2)) → answered c2 i2 (WAuth host2 (ARObject object2)) r2 →
  ro_redirect_uri object1 = ro_redirect_uri object2 → ar_code v1 = ar_code v2 →
  r1 = r2 ∧ ∃ location, r1 = Ok (Redirect location).
Proof.
  intros Hr1 H1 Ha1 Hr2 H2 Ha2 Hu Hc.
  destruct (C144_redirect c1 n1 i1 q1 _ host1 object1 r1 Hr1 H1 Ha1) as (u1 & E1 & ->).
  destruct (C144_redirect c2 n2 i2 q2 _ host2 object2 r2 Hr2 H2 Ha2) as (u2 & E2 & ->).
  rewrite Hu, E2 in E1. injection E1 as ->. rewrite Hc. eauto.
Qed.
Print Assumptions C144_state_refuted.
Example C144_example : ∃ c, Example.login = Some c ∧ sreach c ∧
  passed c 7 2 (QAuthorize (Example.request "normal_user")) (Ok (RAuthorize Example.response)) ∧
  answered c 2 (WAuth "attacker:666" (Example.request "normal_user")) (Ok (Redirect "http://localhost:3000/callback?code=CODE")).
Proof.
  destruct C141_example as (c & H1 & H2 & H3 & _ & _ & H4). exact (ex_intro _ c (conj H1 (conj H2 (conj H3 H4)))).
Qed.
