(** A concrete world for examples: metadata, answers of the provider, and requests.  Used
    only to show that the hypotheses of the theorems are met by real executions and as
    witnesses of refutations. *)
From stdpp Require Import pretty.
From Verif Require Import Base Json CoreModel VcModel Prog ProgFacts ExecSpec Sched IssuerTypes
  ClaimsModel Sha256 IssuerModel IssuerSpec.

Notation iconfig := (config ISig irequest (outcome error ireply)).
Notation ireach := (reachable ihandler ∅).

Definition ex_iss : string := "http://issuer".
Definition ex_subject : string := "normal_user".
Definition ex_redirect : string := "http://localhost:3000/callback".
Definition ex_verifier : string := "ABCDEFGHIJKLMNOPQRSTUVWXYZabcdefghijklmnopqrs".

Definition ex_claims : claimset :=
  [("email", CEntry (Some true)); ("family_name", CEntry (Some true)); ("given_name", CEntry None)].
Definition ex_employee : credential_configuration :=
  CredentialConfiguration
    (FJwtVcJson (CredentialDefinition None (Some ["VerifiableCredential"; "EmployeeIDCredential"])
       (Some ex_claims)))
    (Some "EmployeeIDCredential") (Some ["jwt"])
    (Some [CredentialDisplay "Employee ID" (Some "en-NZ") (Some "Staff card")]).
Definition ex_developer : credential_configuration :=
  CredentialConfiguration
    (FJwtVcJson (CredentialDefinition None (Some ["VerifiableCredential"; "DeveloperCredential"])
       None)) (Some "DeveloperCredential") None None.
Definition ex_licence : credential_configuration :=
  CredentialConfiguration (FIsoMdl "org.iso.18013.5.1.mDL" None) None (Some ["jwt"]) None.
Definition ex_issuer : issuer :=
  Issuer ex_iss None
    [("EmployeeID_JWT", ex_employee); ("Developer_JWT", ex_developer); ("Licence_mDL", ex_licence)].
Definition ex_server : server :=
  Server (Some ["openid"; "email"]) [RTCode] (Some [AuthorizationCode; PreAuthorizedCode])
    (Some [S256]) None true.
Definition ex_client : client :=
  Client (Some [ex_redirect]) (Some [AuthorizationCode; PreAuthorizedCode]) (Some [RTCode])
    (Some "openid email").
Definition ex_dataset : list (string * json) :=
  [("email", JStr "normal.user@example.com"); ("family_name", JStr "Person"); ("given_name", JStr "Normal")].

(** What differs between examples. *)
Record world : Type := World {
  w_issuer : string → issuer;       (* metadata by issuer id *)
  w_server : server;
  w_clock : nat → Z;                (* clock, by the length of the log *)
  w_pending : nat → bool;           (* is the dataset pending, by the length of the log *)
  w_tx : string;                    (* the next transaction code *)
}.
Definition w0 : world :=
  World (λ _, ex_issuer) ex_server (λ n, seconds (Z.of_nat n)) (λ _, false) "123456".

(** The provider: every generator gives a new string, the client is always [ex_client], a
    proof JWT is its own nonce, unless it is "forged". *)
Definition ex_orc (w : world) (log : list (entry ISig)) (who : nat) (x : icall) : ians x :=
  let n := length log in
  match x with
  | XNow => w_clock w n
  | XGen GAuthCode => "code" +:+ pretty n
  | XGen GTxCode => w_tx w
  | XGen GUriToken => "uri" +:+ pretty n
  | XGen GToken => "token" +:+ pretty n
  | XGen GNonce => "nonce" +:+ pretty n
  | XGen GNotificationId => "note" +:+ pretty n
  | XGen GTransactionId => "txn" +:+ pretty n
  | XOrder k => seq 0 k
  | XIssuer id => Some (w_issuer w id)
  | XServer _ _ => Some (w_server w)
  | XClient _ => Some ex_client
  | XRegister c => Some c
  | XAuthorize _ config => Some [config +:+ "_1"; config +:+ "_2"]
  | XDataset _ _ => Some (Dataset ex_dataset (w_pending w n))
  | XStatus _ _ => Some None
  | XSigner _ => true
  | XDecodeProof jwt =>
      if bool_decide (jwt = "forged") then None
      else Some (ProofJwt true (Some jwt) (Some "did:key:holder#key-1"))
  | XSignVc _ _ => Some ("signed" +:+ pretty n)
  | XSignMdl _ _ => Some ("signed" +:+ pretty n)
  end.

(** The configuration reached by a script from the empty store. *)
Definition after (w : world) (l : list (act (Q := irequest))) : iconfig :=
  default (Config [] []) (exec ihandler ∅ (ex_orc w) l (Config [] [])).
Lemma after_reach w l : ireach (after w l).
Proof.
  unfold after. destruct (exec _ _ _ _ _) as [c|] eqn:E; simpl; [|apply reach_init].
  eapply exec_reachable; [apply reach_init|exact E].
Qed.
(** One request after the other. *)
Definition serially (l : list irequest) : list (act (Q := irequest)) :=
  concat (imap (λ i q, [Arrive q; Finish i 60]) l).

(** One program alone, on store [st]. *)
Definition solo {A} (w : world) (st : gmap string state) (p : iprog A)
  : option (outcome error A * list ievent) :=
  match @run ISig _ 60 st (λ es, ex_orc w (map (λ e, Entry 0 e true) es) 0) [] p with
  | Some (o, _, es) => Some (o, es)
  | None => None
  end.
Lemma solo_runs {A} w st (p : iprog A) o es : solo w st p = Some (o, es) → runs p es o.
Proof.
  unfold solo. destruct (run _ _ _ _ _) as [[[o' st'] es']|] eqn:E; [|done].
  intros [= <- <-]. apply run_runs in E as (es2 & -> & H). done.
Qed.

(** Deciding the hypotheses of the theorems on concrete logs. *)
Definition freshb (log : list (entry ISig)) : bool :=
  bool_decide (NoDup (omap generated log)) &&
  forallb (λ s, bool_decide (":"%char ∉ list_ascii_of_string s)) (omap generated log).
Lemma freshb_fresh log : freshb log = true → fresh log.
Proof.
  unfold freshb, fresh. rewrite andb_true_iff, bool_decide_eq_true, forallb_forall.
  intros [H1 H2]. split; [done|]. intros s Hs. apply elem_of_list_In, H2 in Hs.
  by apply bool_decide_eq_true in Hs.
Qed.

Definition pos_of {S} (i : nat) (log : list (entry S)) : list nat :=
  omap (λ p : nat * entry S, if bool_decide (e_who p.2 = i) then Some p.1 else None)
    (imap (λ n e, (n, e)) log).
Definition beforeb {S} (log : list (entry S)) (i j : nat) : bool :=
  forallb (λ a, forallb (λ b, Nat.ltb a b) (pos_of j log)) (pos_of i log).
Lemma pos_of_elem {S} i (log : list (entry S)) n :
  n ∈ pos_of i log ↔ ∃ e, log !! n = Some e ∧ e_who e = i.
Proof.
  unfold pos_of. rewrite elem_of_list_omap. split.
  - intros ([m e] & Hin & H). apply elem_of_lookup_imap in Hin as (m' & e' & [= -> ->] & Hl).
    simpl in H. case_bool_decide; [|done]. simplify_eq. eauto.
  - intros (e & Hl & Hw). exists (n, e). split.
    + apply elem_of_lookup_imap. eauto.
    + simpl. by rewrite bool_decide_true.
Qed.
Lemma beforeb_before {S} (log : list (entry S)) i j : beforeb log i j = true ↔ before log i j.
Proof.
  unfold beforeb, before. rewrite forallb_forall. split.
  - intros H a b ea eb Ha Hb Hea Heb.
    assert (Hpa : a ∈ pos_of i log) by (apply pos_of_elem; eauto).
    assert (Hpb : b ∈ pos_of j log) by (apply pos_of_elem; eauto).
    apply elem_of_list_In, H in Hpa. rewrite forallb_forall in Hpa.
    apply elem_of_list_In, Hpa in Hpb. by apply Nat.ltb_lt in Hpb.
  - intros H a Ha. apply elem_of_list_In, pos_of_elem in Ha as (ea & Ha & Hea).
    apply forallb_forall. intros b Hb. apply elem_of_list_In, pos_of_elem in Hb as (eb & Hb & Heb).
    apply Nat.ltb_lt. eauto.
Qed.

(** ** Requests *)

Definition ex_create (s : send_type) : create_offer_request :=
  CreateOfferRequest ex_iss (Some ex_subject) ["EmployeeID_JWT"; "Developer_JWT"]
    (Some [PreAuthorizedCode; AuthorizationCode]) true s.
Definition ex_ro : request_object :=
  RequestObject ex_iss RTCode "client" (Some ex_redirect) (Some "state") (code_challenge ex_verifier)
    S256 (Some [AuthorizationDetail (ByConfigurationId "EmployeeID_JWT" None) None])
    (Some "DeveloperCredential") ex_subject None.
Definition ex_token_pre (code : string) (tx : option string) : token_request :=
  TokenRequest ex_iss (Some "client") (TGPreAuthorizedCode code tx) None.
Definition ex_token_code (code verifier : string) : token_request :=
  TokenRequest ex_iss (Some "client") (TGAuthorizationCode code (Some ex_redirect) (Some verifier)) None.
Definition ex_credential (token identifier proof : string) : credential_request :=
  CredentialRequest ex_iss token (CIIdentifier identifier) (Some (PSingle proof)).
