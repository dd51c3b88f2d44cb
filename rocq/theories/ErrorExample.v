(** Errors the issuer answers with, as the client sees them. *)
From Coq Require Import Lia.
From Verif Require Import Base StringSpec Json MatcherModel JsonParse JsonText CoreModel VcModel Prog ProgFacts ExecSpec ExecFacts
  Sched IssuerTypes ClaimsModel Sha256 IssuerModel IssuerSpec IssuerWp IssuerExec IssuerExample
  SerdeSpec SerdeModel SerdeFacts ErrorModel ErrorFacts.
From Verif Require UrlModel.

Definition scoped (s : string) : request_object :=
  RequestObject ex_iss RTCode "client" (Some ex_redirect) (Some "state") (code_challenge ex_verifier)
    S256 None (Some s) ex_subject None.
Definition scope_run (s : string) : iconfig := after w0 (serially [QAuthorize (ARObject (scoped s))]).
Lemma scope_reach s : ireach (scope_run s).
Proof. exact (after_reach w0 (serially [QAuthorize (ARObject (scoped s))])). Qed.

Definition with_quote : string := String "x" q.
Definition with_member : string := "x" +:+ q +:+ "," +:+ q +:+ "error" +:+ q +:+ ":" +:+ q +:+ "access_denied" +:+ q
  +:+ "," +:+ q +:+ "y" +:+ q +:+ ":" +:+ q.
Definition unsupported (s : string) : error := InvalidScope ("scope item " +:+ s +:+ " is unsupported").
Lemma quote_answered : answered (scope_run with_quote) 0 (QAuthorize (ARObject (scoped with_quote))) (Err (unsupported with_quote)).
Proof. vm_compute. reflexivity. Qed.
Lemma member_answered : answered (scope_run with_member) 0 (QAuthorize (ARObject (scoped with_member))) (Err (unsupported with_member)).
Proof. vm_compute. reflexivity. Qed.
Lemma quote_null : error_json (error_of (unsupported with_quote)) = JNull.
Proof. vm_compute. reflexivity. Qed.
Lemma quote_query : error_query (error_of (unsupported with_quote)) = "".
Proof. vm_compute. reflexivity. Qed.
Lemma member_code : ∃ r, error_json (error_of (unsupported with_member)) = JObj (("error", JStr "access_denied") :: r).
Proof. eexists. vm_compute. reflexivity. Qed.
Lemma quote_lost : ∃ c a t,
  ireach c ∧ answered c 0 (QAuthorize a) (Err (InvalidScope t)) ∧
  error_json (error_of (InvalidScope t)) = JNull ∧ error_query (error_of (InvalidScope t)) = "".
Proof.
  exists (scope_run with_quote), (ARObject (scoped with_quote)), ("scope item " +:+ with_quote +:+ " is unsupported").
  split; [apply (scope_reach with_quote)|]. split; [exact quote_answered|]. split; [exact quote_null|exact quote_query].
Qed.
Lemma member_injected : ∃ c a t d,
  ireach c ∧ answered c 0 (QAuthorize a) (Err (InvalidScope t)) ∧
  error_json (error_of (InvalidScope t)) = JObj (("error", JStr "access_denied") :: d).
Proof.
  destruct member_code as (d & H).
  exists (scope_run with_member), (ARObject (scoped with_member)), ("scope item " +:+ with_member +:+ " is unsupported"), d.
  split; [apply (scope_reach with_member)|]. split; [exact member_answered|exact H].
Qed.

Lemma pending_unserialized z : error_serialize (PendingError z) = None.
Proof. unfold error_serialize, read. rewrite pending_parse. reflexivity. Qed.
Lemma proof_query h n z : plain h → plain n → fits 64 z →
  error_query (ProofError h n z) = "error=invalid_proof&error_description=" +:+ UrlModel.percent_encode h +:+
    "&c_nonce=" +:+ UrlModel.percent_encode n +:+ "&c_nonce_expires_in=" +:+ UrlModel.percent_encode (int_text z).
Proof.
  intros Hh Hn Hz. unfold error_query, error_serialize, read. rewrite proof_parse by done.
  unfold de_oid_error. cbn [obj]. unfold req, opt. simpl lookups. cbn [de_str]. 
  rewrite de_int_ser by done. unfold ser_int. cbn match.
  assert (UrlModel.ss_out (UrlModel.ser (UrlModel.UStruct (oid_fields (OidError "invalid_proof" h None (Some n) (Some z))))
    (UrlModel.SerState "" 0)) = "error=invalid_proof&error_description=" +:+ h +:+ "&c_nonce=" +:+ n +:+
      "&c_nonce_expires_in=" +:+ int_text z) as E.
  { simpl. rewrite !append_assoc. rewrite !append_cons, !append_nil. reflexivity. }
  unfold UrlModel.url_to_string. rewrite E. by rewrite !encode_app.
Qed.
