(** Properties C107-C108: errors as the client sees them. *)
From Verif Require Import Base StringSpec Json MatcherModel JsonParse CoreModel VcModel Prog ProgFacts ExecSpec ExecFacts
  Sched IssuerTypes ClaimsModel Sha256 IssuerModel IssuerSpec IssuerWp IssuerExec IssuerExample
  SerdeSpec SerdeModel ErrorSpec ErrorModel ErrorFacts ErrorExample.
From Verif Require UrlModel.

(** C107.  As JSON, an error has its code and its description, when the description needs no
    escaping; *)
Theorem C107_described_errors_partial d t : plain t →
  error_json (Described d t) = JObj [("error", JStr (described_code d)); ("error_description", JStr t)].
Proof. exact (described_json d t). Qed.
Print Assumptions C107_described_errors_partial.
Theorem C107_proof_errors_partial h n z : plain h → plain n →
  error_json (ProofError h n z) =
  JObj [("error", JStr "invalid_proof"); ("error_description", JStr h); ("c_nonce", JStr n); ("c_nonce_expires_in", ser_int z)].
Proof. exact (proof_json h n z). Qed.
Print Assumptions C107_proof_errors_partial.
Theorem C107_pending_errors z :
  error_json (PendingError z) = JObj [("error", JStr "issuance_pending"); ("interval", ser_int z)].
Proof. exact (pending_json z). Qed.
Print Assumptions C107_pending_errors.
(** and the codes tell the kinds of errors apart. *)
Theorem C107_codes_differ d d' : described_code d = described_code d' → d = d'.
Proof. exact (described_code_inj d d'). Qed.
Print Assumptions C107_codes_differ.
(** Each error of the issuer is reported under its own code, with what goes with it; *)
Theorem C107_issuer_errors_partial e : Forall plain (texts e) →
  error_json (error_of e) = JObj (reported ser_int e).
Proof. exact (issuer_error_json e). Qed.
Print Assumptions C107_issuer_errors_partial.
(** so two errors reported alike are the same error. *)
Theorem C107_errors_told_apart_partial e e' : Forall plain (texts e) → Forall plain (texts e') →
  error_json (error_of e) = error_json (error_of e') → e = e'.
Proof. exact (issuer_error_json_inj e e'). Qed.
Print Assumptions C107_errors_told_apart_partial.
(** A client that asks for a scope with a quotation mark in it gets no error at all: [null], and
    an empty query string; *)
Theorem C107_errors_are_reported_refuted : ∃ c a t,
  ireach c ∧ answered c 0 (QAuthorize a) (Err (InvalidScope t)) ∧
  error_json (error_of (InvalidScope t)) = JNull ∧ error_query (error_of (InvalidScope t)) = "".
Proof. exact quote_lost. Qed.
Print Assumptions C107_errors_are_reported_refuted.
(** and whoever writes the scope of a request can choose the code that is reported for it. *)
Theorem C107_code_is_the_issuers_refuted : ∃ c a t d,
  ireach c ∧ answered c 0 (QAuthorize a) (Err (InvalidScope t)) ∧
  error_json (error_of (InvalidScope t)) = JObj (("error", JStr "access_denied") :: d).
Proof. exact member_injected. Qed.
Print Assumptions C107_code_is_the_issuers_refuted.
Example C107_example : plain "Invalid transaction id (try again!)" ∧
  error_json (error_of (InvalidTransactionId "Invalid transaction id (try again!)")) =
  JObj [("error", JStr "invalid_transaction_id"); ("error_description", JStr "Invalid transaction id (try again!)")].
Proof. split; vm_compute; reflexivity. Qed.

(** C108.  As a query string, an error is its code and its encoded description, *)
Theorem C108_described_errors_partial d t : plain t →
  error_query (Described d t) = "error=" +:+ described_code d +:+ "&error_description=" +:+ UrlModel.percent_encode t.
Proof. exact (described_query d t). Qed.
Print Assumptions C108_described_errors_partial.
(** with the new nonce, for a proof that was refused, *)
Theorem C108_proof_errors_partial h n z : plain h → plain n → fits 64 z →
  error_query (ProofError h n z) = "error=invalid_proof&error_description=" +:+ UrlModel.percent_encode h +:+
    "&c_nonce=" +:+ UrlModel.percent_encode n +:+ "&c_nonce_expires_in=" +:+ UrlModel.percent_encode (int_text z).
Proof. exact (proof_query h n z). Qed.
Print Assumptions C108_proof_errors_partial.
(** and this under the code that belongs to the issuer's error, *)
Theorem C108_issuer_errors_partial e t : texts e = [t] → plain t →
  error_query (error_of e) = "error=" +:+ code_of e +:+ "&error_description=" +:+ UrlModel.percent_encode t.
Proof. exact (issuer_error_query e t). Qed.
Print Assumptions C108_issuer_errors_partial.
(** but nothing for issuance that is pending, which cannot be serialized either. *)
Theorem C108_pending_errors_refuted z : error_query (PendingError z) = "" ∧ error_serialize (PendingError z) = None.
Proof. exact (conj (pending_query z) (pending_unserialized z)). Qed.
Print Assumptions C108_pending_errors_refuted.
Example C108_example :
  error_query (error_of (InvalidGrant "code has expired")) = "error=invalid_grant&error_description=code%20has%20expired".
Proof. vm_compute. reflexivity. Qed.
