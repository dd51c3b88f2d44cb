(** The issuer's answers to credential requests as JSON: C132. *)
From Verif Require Import Base Json MatcherModel JsonParse JsonText CoreModel VcModel Prog ExecSpec Sched IssuerTypes IssuerModel IssuerSpec
  VerifierModel HolderModel ComposeSpec SerdeSpec SerdeModel SerdeTrips VcSpec VcSerde WireSpec AnswerSerde AnswerSpec AnswerFacts.
From Verif Require IssuerExample SerdeExample.

(** C132.  Every answer the issuer gives to a credential request or a deferred one, in every execution,
    is read by the wallet as it was given, unless the clock jumps by more than an [i64] of seconds; *)
Theorem C132_answers_read cx (c : iconfig) i q rep resp : dates_read cx → ireach c → answered c i q (Ok rep) →
  (rep = RCredential resp ∨ rep = RDeferred resp) → (∀ n, crs_c_nonce_expires_in resp = Some n → fits 64 n) →
  read (de_answer cx) (write (ser_answer cx) (to_wallet resp)) = Some (to_wallet resp).
Proof. exact (issuer_answers cx c i q rep resp). Qed.
Print Assumptions C132_answers_read.
(** so are answers of any other issuer with this library, if credentials that are not strings are readable
    and not nested too deep; *)
Theorem C132_text cx n r : dates_read cx → readable_reply r →
  (∀ v, KObject v ∈ answer_credentials (wr_response r) → shallow n (vc_values v)) → 5 + n < depth_limit →
  read (de_answer cx) (write (ser_answer cx) r) = Some r.
Proof. exact (answer_text cx n r). Qed.
Print Assumptions C132_text.
Theorem C132_read_back_iff cx r : dates_read cx → de_answer cx (ser_answer cx r) = Some r ↔ readable_reply r.
Proof. exact (answer_read_iff cx r). Qed.
Print Assumptions C132_read_back_iff.
(** with members in any order and with any others in between; *)
Theorem C132_any_order cx r m0 m extra : dates_read cx → readable_reply r → ser_answer cx r = JObj m0 → m0 ++ extra ≡ₚ m →
  (∀ k, k ∈ keys extra → k ∉ ["credential"; "credentials"; "transaction_id"; "c_nonce"; "c_nonce_expires_in"; "notification_id"]) →
  de_answer cx (JObj m) = Some r.
Proof. exact (answer_any cx r m0 m extra). Qed.
Print Assumptions C132_any_order.
(** it has these members, with these values, and no others: one for what is given, *)
Theorem C132_members cx r : exactly
  [("credential", match wr_response r with WRCredential k => Some (ser_kind (ser_vc cx) k) | _ => None end);
   ("credentials", match wr_response r with WRCredentials l => Some (ser_list (ser_kind (ser_vc cx)) l) | _ => None end);
   ("transaction_id", match wr_response r with WRTransactionId t => Some (JStr t) | _ => None end);
   ("c_nonce", option_map JStr (wr_c_nonce r)); ("c_nonce_expires_in", option_map ser_int (wr_c_nonce_expires_in r));
   ("notification_id", option_map JStr (wr_notification_id r))] (ser_answer cx r).
Proof. exact (answer_members cx r). Qed.
Print Assumptions C132_members.
(** An answer with a transaction to wait for and, further on, credentials is not refused: it is read
    as if the credentials were not there, whatever they are. *)
Theorem C132_both_refuted cx t m m' r :
  de_answer cx (JObj (("transaction_id", JStr t) :: m)) = Some r →
  (∀ k, k ∉ ["credential"; "credentials"; "transaction_id"] → lookups k m' = lookups k m) →
  wr_response r = WRTransactionId t ∧ de_answer cx (JObj (("transaction_id", JStr t) :: m')) = Some r.
Proof.
  unfold de_answer. cbn [obj]. simpl first_of. intros H Hm. cbn match in *.
  assert (∀ A (d : json → option A) k, k ∉ answer_names → k ≠ "transaction_id" →
    opt d k (("transaction_id", JStr t) :: m') = opt d k (("transaction_id", JStr t) :: m)) as Ho.
  { intros A d k Hk Hne. unfold opt. rewrite !SerdeFacts.lookups_ne by done. by rewrite (Hm k Hk). }
  rewrite !Ho by (unfold answer_names; set_solver). split; [|exact H].
  unfold de_answer_type in H. cbn [de_str] in H. rewrite !bool_decide_false in H by done.
  destruct (opt de_str "c_nonce" _); [|done]. destruct (opt (de_int 64) _ _); [|done]. destruct (opt de_str _ _); [|done].
  by injection H as <-.
Qed.
Print Assumptions C132_both_refuted.

(** A credential and a deferral, both as text, and an answer with both. *)
Example C132_example : ∃ c resp,
  ireach c ∧ answered c 2 (QCredential (IssuerExample.ex_credential "token13" "EmployeeID_JWT_1" "nonce14")) (Ok (RCredential resp)) ∧
  dates_read SerdeExample.ex_cx ∧ (∀ n, crs_c_nonce_expires_in resp = Some n → fits 64 n) ∧
  write (ser_answer SerdeExample.ex_cx) (to_wallet resp)
    = "{""credential"":""signed26"",""c_nonce"":""nonce28"",""c_nonce_expires_in"":596,""notification_id"":""note31""}" ∧
  read (de_answer SerdeExample.ex_cx) "{""notification_id"":null,""transaction_id"":""t"",""credential"":17}"
    = Some (WResponse (WRTransactionId "t") None None None).
Proof.
  eexists (IssuerExample.after IssuerExample.w0 (IssuerExample.serially [QCreateOffer (IssuerExample.ex_create ByVal);
    QToken (IssuerExample.ex_token_pre "code2" (Some "123456"));
    QCredential (IssuerExample.ex_credential "token13" "EmployeeID_JWT_1" "nonce14")])), _.
  split; [apply IssuerExample.after_reach|]. split; [vm_compute; reflexivity|]. split; [exact SerdeExample.ex_dates|].
  split; [intros n [= <-]; vm_compute; split; [discriminate|reflexivity]|]. split; vm_compute; reflexivity.
Qed.
