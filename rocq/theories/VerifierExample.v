(** A concrete world for the verifier, used for examples and as witnesses of refutations. *)
From stdpp Require Import pretty.
From Verif Require Import Base Json CoreModel VcModel Prog ProgFacts ExecSpec Sched IssuerTypes
  MatcherModel MatcherSpec MatcherExample VerifierModel VerifierSpec.

Notation vconfig := (config VSig vrequest (outcome error vreply)).

(** ** The library of MatcherExample selects parts of documents *)

Lemma part_refl j : part j j.
Proof. destruct j; simpl; auto. Qed.
Lemma part_arr j x l : x ∈ l → part j x → part j (JArr l).
Proof.
  intros Hx Hp. simpl. right. induction Hx as [y l|y z l _ IH]; [by left|]. right. by apply IH.
Qed.
Lemma part_obj j x k m : (k, x) ∈ m → part j x → part j (JObj m).
Proof.
  intros Hx Hp. simpl. right. induction m as [|[k' y] m IH]; [by apply elem_of_nil in Hx|].
  apply elem_of_cons in Hx as [[= -> ->]|Hx]; [by left|]. right. by apply IH.
Qed.
Lemma assoc_elem {A} k (m : list (string * A)) x : assoc k m = Some x → (k, x) ∈ m.
Proof.
  induction m as [|[k' y] m IH]; simpl; [done|]. case_bool_decide as H.
  - intros [= ->]. subst. by left.
  - intros Hx. right. by apply IH.
Qed.
Lemma follow_part l v j : j ∈ follow l v → part j v.
Proof.
  revert v. induction l as [|[s|n] l IH]; intros v; simpl.
  - intros ->%elem_of_list_singleton. apply part_refl.
  - destruct v as [|?|?|?|?|m]; try (by intros ?%elem_of_nil).
    destruct (assoc s m) as [x|] eqn:Hx; [|by intros ?%elem_of_nil].
    intros H. eapply part_obj; [by apply assoc_elem|by apply IH].
  - destruct v as [|?|?|?|a|?]; try (by intros ?%elem_of_nil).
    destruct (a !! n) as [x|] eqn:Hx; [|by intros ?%elem_of_nil].
    intros H. eapply part_arr; [by eapply elem_of_list_lookup_2|by apply IH].
Qed.
Lemma ex_selects_parts : selects_parts ex_engine.
Proof.
  intros p doc ns j. simpl. unfold ex_query. destruct p as [|a p]; [done|].
  destruct a as [[] [] [] [] [] [] [] []]; try done.
  destruct (parse_segments _ p) as [l|]; [|done]. intros [= <-]. apply follow_part.
Qed.

(** ** The world *)

Definition ex_libs : libs := Libs ex_engine (λ _, JObj []) (λ _, JObj []).

(** Credentials: the token, who signed it, whom it names as issuer and subject, until when
    it is valid. *)
Definition ex_vc (subject : string) (until : option Z) : vc :=
  VC [] (Some "cred1") (QMany ["VerifiableCredential"; "EmployeeIDCredential"]) None None (KString "did:issuer")
     (QOne (CredentialSubject (Some subject) [("employeeId", JStr "1234567890")])) None until None None.
Definition ex_signed (kid subject : string) (until : option Z) : signed_vc :=
  SignedVc kid (VcClaims subject None "did:issuer" 0%Z "cred1" None (ex_vc subject until)) (Some ex_credential).
(** A credential of two types. *)
Definition ex_diploma : json :=
  JObj [("id", JStr "cred2");
        ("type", JArr [JStr "VerifiableCredential"; JStr "EmployeeIDCredential"; JStr "DiplomaCredential"])].
Definition ex_decode_vc (jwt : string) : option signed_vc :=
  if bool_decide (jwt = "vc") then Some (ex_signed "did:issuer#key-1" "did:holder" None)
  else if bool_decide (jwt = "vc-until-100") then Some (ex_signed "did:issuer#key-1" "did:holder" (Some (seconds 100)))
  else if bool_decide (jwt = "vc-long") then Some (ex_signed "did:issuer#key-1" "did:holder" (Some (seconds 200000)))
  else if bool_decide (jwt = "vc-by-mallory") then Some (ex_signed "did:mallory#key-1" "did:holder" None)
  else if bool_decide (jwt = "diploma") then
    Some (SignedVc "did:issuer#key-1" (sv_claims (ex_signed "did:issuer#key-1" "did:holder" None)) (Some ex_diploma))
  else None.

(** A presentation of the credential with this token. *)
Definition ex_vp (holder : option string) (proof : option string) (token : string) : vp :=
  VP [] None (QOne "VerifiablePresentation") (Some [KString token]) holder
     (option_map (λ c, QOne (IntegrityProof (Some c))) proof).
Definition ex_claims_vp (holder aud nonce token : string) : signed_vp :=
  SignedVp (holder +:+ "#key-1") (VpClaims holder "" aud nonce 0%Z 0%Z 3600%Z (ex_vp (Some holder) None token)).

Record vworld : Type := VWorld {
  vw_clock : nat → Z;                                (* by the length of the log *)
  vw_vp : string → option signed_vp;
}.
Definition ex_vorc (w : vworld) (log : list (entry VSig)) (who : nat) (x : vcall) : vans x :=
  let n := length log in
  match x with
  | YNow => vw_clock w n
  | YGen GvUriToken => "uri" +:+ pretty n
  | YGen GvNonce => "nonce" +:+ pretty n
  | YGen GvDefinitionId => "def" +:+ pretty n
  | YVerifier _ => Some (JObj [("client_id", JStr "http://verifier"); ("client_name", JStr "A verifier")])
  | YSigner _ => true
  | YSign _ _ => Some ("signed" +:+ pretty n)
  | YDecodeVp jwt => vw_vp w jwt
  | YDecodeVc jwt => ex_decode_vc jwt
  | YParseVc _ => true
  end.

Definition vafter (w : vworld) (l : list (act (Q := vrequest))) : vconfig :=
  default (Config [] []) (exec (vhandler ex_libs) ∅ (ex_vorc w) l (Config [] [])).
Lemma vafter_reach w l : reachable (vhandler ex_libs) ∅ (vafter w l).
Proof.
  unfold vafter. destruct (exec _ _ _ _ _) as [c|] eqn:E; simpl; [|apply reach_init].
  eapply exec_reachable; [apply reach_init|exact E].
Qed.
Definition vserially (l : list vrequest) : list (act (Q := vrequest)) :=
  concat (imap (λ i q, [Arrive q; Finish i 60]) l).
Definition vsolo {A} (w : vworld) (st : gmap string vstate) (p : vprog A)
  : option (outcome error A * list vevent) :=
  match @run VSig _ 60 st (λ es, ex_vorc w (map (λ e, Entry 0 e true) es) 0) [] p with
  | Some (o, _, es) => Some (o, es)
  | None => None
  end.
Lemma vsolo_runs {A} w st (p : vprog A) o es : vsolo w st p = Some (o, es) → runs p es o.
Proof.
  unfold vsolo. destruct (run _ _ _ _ _) as [[[o' st'] es']|] eqn:E; [|done].
  intros [= <- <-]. apply run_runs in E as (es2 & -> & H). done.
Qed.
Definition vfreshb (log : list (entry VSig)) : bool := bool_decide (NoDup (omap vgenerated log)).
Lemma vfreshb_vfresh log : vfreshb log = true → vfresh log.
Proof. apply bool_decide_eq_true. Qed.

(** ** Requests *)

Definition ex_descriptor (id : string) : input_descriptor :=
  InputDescriptor id (Some "Employee ID") None (Some [("jwt_vc_json", ClaimFormat None None)])
    (by_type "EmployeeIDCredential").
Definition ex_create_request (f : device_flow) : create_request_request :=
  CreateRequestRequest "http://verifier" "To verify employment" [ex_descriptor "employee"] f.
Definition ex_submission (def_id : string) : presentation_submission :=
  PresentationSubmission "sub" def_id
    [DescriptorMap "other" "jwt_vp_json" "$" (PathNested "jwt_vc_json" "$.nothing");
     DescriptorMap "employee" "jwt_vp_json" "$" (PathNested "jwt_vc_json" "$.verifiableCredential[0]")].
Definition ex_response (vps : list (kind vp)) : response_request :=
  ResponseRequest (Some vps) (Some (ex_submission "def0")) (Some "uri1").

(** Tokens "good", "late", "long", "stolen", "mallory" and "elsewhere" are signed presentations
    that answer the nonce of the first request created. *)
Definition ex_decode_vp (jwt : string) : option signed_vp :=
  if bool_decide (jwt = "good") then Some (ex_claims_vp "did:holder" "http://verifier/post" "nonce3" "vc")
  else if bool_decide (jwt = "late") then Some (ex_claims_vp "did:holder" "http://verifier/post" "nonce3" "vc-until-100")
  else if bool_decide (jwt = "long") then Some (ex_claims_vp "did:holder" "http://verifier/post" "nonce3" "vc-long")
  else if bool_decide (jwt = "mallory") then Some (ex_claims_vp "did:holder" "http://verifier/post" "nonce3" "vc-by-mallory")
  else if bool_decide (jwt = "stolen") then Some (ex_claims_vp "did:thief" "http://verifier/post" "nonce3" "vc")
  else if bool_decide (jwt = "elsewhere") then Some (ex_claims_vp "did:holder" "http://other" "nonce3" "vc")
  else if bool_decide (jwt = "old") then Some (ex_claims_vp "did:holder" "http://verifier/post" "nonce0" "vc")
  else None.
Definition vw0 : vworld := VWorld (λ n, seconds (Z.of_nat n)) ex_decode_vp.
(** The same, a day later after the first request. *)
Definition vw_slow : vworld :=
  VWorld (λ n, if Nat.ltb n 6 then 0%Z else seconds 86400) ex_decode_vp.

(** A world where the clock stands at 9 seconds, as a description of what is signed, and
    the store after the first request. *)
Definition ex_stood : vworld := VWorld (λ _, seconds 9) ex_decode_vp.
Definition ex_surroundings : surroundings :=
  Surroundings (λ j s, ex_decode_vp j = Some s) (λ j s, ex_decode_vc j = Some s) (λ t, t = seconds 9).
Definition ex_stored : gmap string vstate :=
  store_after ∅ (c_log (vafter ex_stood (vserially [VCreate (ex_create_request CrossDevice)]))).
