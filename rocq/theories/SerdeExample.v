(** Concrete cases for the wire formats. *)
From Coq Require Import Lia DecimalString.
From Verif Require Import Base StringSpec Json MatcherModel JsonParse JsonText JsonDeep CoreModel VcModel Prog ProgFacts ExecSpec ExecFacts
  Sched IssuerTypes ClaimsModel Sha256 IssuerModel IssuerSpec IssuerWp IssuerExec IssuerExample
  SerdeSpec SerdeModel SerdeFacts SerdeTrips SerdeText SerdeStore SerdeRequest SerdeProps.

(** Dates as a count of seconds, credentials not kept. *)
Definition ex_cx : codecs :=
  Codecs int_text (λ s, match NilZero.int_of_string s with Some d => Some (Z.of_int d) | None => None end)
    (λ _, JNull) (λ _, None).
Lemma ex_dates : dates_read ex_cx.
Proof. intros t. simpl. by rewrite int_text_inv, DecimalZ.of_to. Qed.

(** Claims nested [n] deep, and a request for them. *)
Fixpoint nested (n : nat) : claim := match n with 0 => CEntry None | S n => CSet [("a", nested n)] end.
Definition deep_set (n : nat) : claimset :=
  [("email", CEntry None); ("family_name", CEntry None); ("a", nested n)].
Definition deep_request (n : nat) : request_object :=
  RequestObject ex_iss RTCode "client" (Some ex_redirect) (Some "state") (code_challenge ex_verifier)
    S256 (Some [AuthorizationDetail (ByConfigurationId "EmployeeID_JWT"
      (Some (PCW3c (CredentialDefinition None None (Some (deep_set n)))))) None])
    None ex_subject None.
Lemma nested_readable n : readable_claim (nested n).
Proof.
  induction n as [|n IH]; [done|]. simpl. split; [done|]. split; [apply NoDup_singleton|]. split; [|done]. split; [|done].
  unfold reserved. set_solver.
Qed.
Lemma deep_readable n : readable_request (deep_request n).
Proof.
  intros l d [= <-] ->%elem_of_list_singleton. intros l [= <-]. split; [simpl; apply (bool_decide_unpack _); by vm_compute|].
  intros k c [[= -> ->]|[[= -> ->]|[= -> ->]%elem_of_list_singleton]%elem_of_cons]%elem_of_cons; [done|done|].
  apply nested_readable.
Qed.
Lemma nested_depth n : claim_depth (nested n) = S n.
Proof. induction n as [|n IH]; [done|]. cbn. rewrite IH. unfold list_max. simpl. lia. Qed.
Lemma deep_claims n c : c ∈ details_claims (ro_authorization_details (deep_request n)) → claims_depth c = S n.
Proof. intros ->%elem_of_list_singleton. cbn. rewrite nested_depth. lia. Qed.

(** The request for claims nested [n] deep, pushed. *)
Definition deep_run (n : nat) : iconfig := after w0 (serially [QPar (deep_request n)]).
Lemma deep_reach n : ireach (deep_run n).
Proof. exact (after_reach w0 (serially [QPar (deep_request n)])). Qed.
(** The issuer answers it with a [request_uri], and saves what cannot be read. *)
Lemma deep_saved : ∃ en k v x, c_log (deep_run 119) !! 6 = Some en ∧ e_ev en = Put k v x true ∧
  ∃ e, s_stage v = PushedAuthorization (deep_request 119) e.
Proof.
  eexists _, _, _, _. split; [vm_compute; reflexivity|]. split; [reflexivity|]. eexists. vm_compute. reflexivity.
Qed.
Lemma deep_answered : ∃ i resp, answered (deep_run 119) i (QPar (deep_request 119)) (Ok (RPar resp)).
Proof. exists 0. eexists. vm_compute. reflexivity. Qed.
Lemma deep_state_depth cx v e : s_stage v = PushedAuthorization (deep_request 119) e → jdepth (ser_state cx v) = depth_limit.
Proof. destruct v as [su st x]. simpl. intros ->. destruct su; vm_compute; reflexivity. Qed.
Lemma deep_unread cx v e : s_stage v = PushedAuthorization (deep_request 119) e →
  read (de_state cx) (write (ser_state cx) v) = None.
Proof.
  intros H. unfold read, write. rewrite parse_json_deep; [done| |].
  - apply state_numbers. intros c Hc. congruence.
  - by rewrite (deep_state_depth cx v e).
Qed.
Lemma deep_read : read de_request (write ser_request (deep_request 119)) = Some (deep_request 119).
Proof. apply request_text; [apply deep_readable|]. intros c Hc. apply deep_claims in Hc. lia. Qed.
Lemma deep_claims_lost : ∃ r c,
  read de_request (write ser_request r) = Some r ∧
  ireach c ∧ (∃ p, c_pool c = [(QPar r, p)]) ∧ (∃ i resp, answered c i (QPar r) (Ok (RPar resp))) ∧
  ∃ n en k v x, c_log c !! n = Some en ∧ e_ev en = Put k v x true ∧
    ∀ cx, read (de_state cx) (write (ser_state cx) v) = None.
Proof.
  exists (deep_request 119), (deep_run 119). split; [apply deep_read|]. split; [exact (deep_reach 119)|].
  split; [eexists; vm_compute; reflexivity|]. split; [apply deep_answered|].
  destruct deep_saved as (en & k & v & x & H1 & H2 & e & H3). exists 6, en, k, v, x. split; [done|]. split; [done|].
  intros cx. by apply (deep_unread cx v e).
Qed.

(** A request one level less deep is saved and read. *)
Lemma shallow_put : ∃ en k v x, c_log (deep_run 118) !! 6 = Some en ∧ e_ev en = Put k v x true.
Proof. eexists _, _, _, _. split; [vm_compute; reflexivity|]. reflexivity. Qed.
Lemma shallow_pool : ∃ p, c_pool (deep_run 118) = [(QPar (deep_request 118), p)].
Proof. eexists. vm_compute. reflexivity. Qed.
Lemma shallow_saved : ∃ en k v x, c_log (deep_run 118) !! 6 = Some en ∧ e_ev en = Put k v x true ∧
  read (de_state ex_cx) (write (ser_state ex_cx) v) = Some v.
Proof.
  destruct shallow_put as (en & k & v & x & H1 & H2). exists en, k, v, x. split; [done|]. split; [done|].
  refine (saved_text ex_cx (deep_run 118) ex_dates (deep_reach 118) _ 6 en k v x true H1 H2).
  destruct shallow_pool as (p0 & ->).
  intros i q p. destruct i as [|i]; [|done]. intros [= <- <-]. split.
  - exists (ser_request (deep_request 118)). apply de_request_ser, deep_readable.
  - intros l Hl. apply deep_claims in Hl. lia.
Qed.
