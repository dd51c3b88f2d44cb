(** Concrete credentials and presentations, as JSON. *)
From Verif Require Import Base StringSpec Json MatcherModel JsonParse JsonText CoreModel VcModel Prog ProgFacts ExecSpec ExecFacts
  Sched IssuerTypes ClaimsModel Sha256 IssuerModel IssuerSpec IssuerExample
  SerdeSpec SerdeModel SerdeFacts SerdeTrips SerdeText ErrorModel VcSpec VcSerde VcTrips VcText SerdeExample.

(** A provider whose employees have a number called "id". *)
Definition numbered : list (string * json) := [("id", JStr "E-1234"); ("email", JStr "normal.user@example.com")].
Definition numbered_orc (log : list (entry ISig)) (who : nat) (x : icall) : ians x :=
  match x with
  | XDataset _ _ => Some (Dataset numbered false)
  | x => ex_orc w0 log who x
  end.
Definition numbered_run : iconfig :=
  default (Config [] []) (exec ihandler ∅ numbered_orc
    (serially [QCreateOffer (ex_create ByVal); QToken (ex_token_pre "code2" (Some "123456"));
               QCredential (ex_credential "token13" "EmployeeID_JWT_1" "nonce14")]) (Config [] [])).
Lemma numbered_reach : ireach numbered_run.
Proof.
  unfold numbered_run. destruct (exec _ _ _ _ _) as [c|] eqn:E; simpl; [|apply reach_init].
  eapply exec_reachable; [apply reach_init|exact E].
Qed.
Lemma numbered_unreadable :
  ∃ n en signer v jwt r resp,
    c_log numbered_run !! n = Some en ∧ e_ev en = X (VSignVc signer v (Some jwt)) ∧
    answered numbered_run (e_who en) (QCredential r) (Ok (RCredential resp)) ∧ crs_response resp = CRCredential (KString jwt) ∧
    ∀ cx, read (de_vc_claims cx) (write (ser_vc_claims cx) v) = None.
Proof.
  eexists 26, _, _, _, _, _, _. split; [vm_compute; reflexivity|]. split; [reflexivity|].
  split; [vm_compute; reflexivity|]. split; [reflexivity|].
  intros cx. eapply (vc_claims_clash_text cx 0).
  - reflexivity.
  - by left.
  - intros j. cbn. intros [->|[->|[]%elem_of_nil]%elem_of_cons]%elem_of_cons; split; (exact I || reflexivity).
  - apply Nat.ltb_lt; reflexivity.
Qed.
