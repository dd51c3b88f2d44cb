(** Properties C62-C64: generated values. *)
From Verif Require Import Base Json CoreModel VcModel Prog ProgFacts ExecSpec Sched IssuerTypes
  ClaimsModel Sha256 IssuerModel IssuerSpec IssuerOffer IssuerWp IssuerExec IssuerToken AuthorizeSpec IssuerAuthorize IssuerExample
  GenModel GenSpec GenFacts GenIssuer.

(** C62.  Every generated verifier has the form that RFC 7636 asks for, *)
Theorem C62_verifier_form v :
  is_code_verifier v → 43 ≤ String.length v ≤ 128 ∧ every_char verifier_char v.
Proof. exact (verifier_form v). Qed.
Print Assumptions C62_verifier_form.
(** and one is generated whatever is drawn; *)
Theorem C62_always_generated len draws :
  43 ≤ len ≤ 128 → drawn len pkce_chars draws →
  ∃ v, random_string draws pkce_chars = Some v ∧ is_code_verifier v.
Proof. exact (verifier_generated len draws). Qed.
Print Assumptions C62_always_generated.
(** the challenge has the form that the issuer asks for, *)
Theorem C62_challenge_form v :
  String.length (code_challenge v) = 43 ∧ every_char url_safe (code_challenge v).
Proof. exact (challenge_form v). Qed.
Print Assumptions C62_challenge_form.
(** so no authorization request is refused because of it, direct or pushed, *)
Theorem C62_accepted_at_authorization a v es e :
  (∀ r, resolves a es r → ro_code_challenge r = code_challenge v) →
  runs (authorize a) es (Err e) → e ≠ InvalidRequest "code_challenge must be between 43 and 128 characters".
Proof. exact (authorize_challenge a v es e). Qed.
Print Assumptions C62_accepted_at_authorization.
Theorem C62_accepted_when_pushed r v es e :
  ro_code_challenge r = code_challenge v →
  runs (par r) es (Err e) → e ≠ InvalidRequest "code_challenge must be between 43 and 128 characters".
Proof. exact (par_challenge r v es e). Qed.
Print Assumptions C62_accepted_when_pushed.
(** and, in any execution, redeeming the code with the verifier is not refused because of
    the verifier. *)
Theorem C62_accepted_at_redemption (c : iconfig) i j a resp r u v o :
  ireach c → fresh (c_log c) →
  answered c i (QAuthorize a) (Ok (RAuthorize resp)) →
  (∀ ro, asked_by c a ro → ro_code_challenge ro = code_challenge v) →
  answered c j (QToken r) o → tr_grant r = TGAuthorizationCode (ar_code resp) u (Some v) →
  ∀ e, o = Err e → e ≠ AccessDenied "`code_verifier` is missing" ∧ e ≠ AccessDenied "`code_verifier` is invalid".
Proof. exact (redeemed c i j a resp r u v o). Qed.
Print Assumptions C62_accepted_at_redemption.

(** A generated verifier; and an execution in which the pair is used, and the code then
    used again (and refused for another reason). *)
Definition c62_draws : list nat := replicate 40 0 ++ [1; 27; 62; 65].
Definition c62_world : iconfig :=
  after w0 (serially [QAuthorize (ARObject ex_ro); QToken (ex_token_code "code8" ex_verifier);
                      QToken (ex_token_code "code8" ex_verifier)]).
Example C62_example :
  (∃ v, random_string c62_draws pkce_chars = Some v ∧ is_code_verifier v ∧
     v = "AAAAAAAAAAAAAAAAAAAAAAAAAAAAAAAAAAAAAAAABb-_") ∧
  ireach c62_world ∧ fresh (c_log c62_world) ∧
  (∃ resp, answered c62_world 0 (QAuthorize (ARObject ex_ro)) (Ok (RAuthorize resp)) ∧ ar_code resp = "code8") ∧
  (∀ ro, asked_by c62_world (ARObject ex_ro) ro → ro_code_challenge ro = code_challenge ex_verifier) ∧
  (∃ t, answered c62_world 1 (QToken (ex_token_code "code8" ex_verifier)) (Ok (RToken t))) ∧
  (∃ e, answered c62_world 2 (QToken (ex_token_code "code8" ex_verifier)) (Err e)).
Proof.
  split.
  { eexists. split; [vm_compute; reflexivity|]. split; [|reflexivity].
    exists 44, c62_draws. split; [unfold pkce_min_len, pkce_max_len; lia|]. split; [|vm_compute; reflexivity].
    split; [reflexivity|]. apply Forall_forall. vm_compute. repeat constructor. }
  split; [apply after_reach|]. split; [apply freshb_fresh; vm_compute; reflexivity|].
  split; [eexists; split; vm_compute; reflexivity|].
  split; [intros ro [[= <-]|(? & ? & ? & [=] & _)]; vm_compute; reflexivity|].
  split; eexists; vm_compute; reflexivity.
Qed.

(** C63. *)
Theorem C63_code_fits_the_offer r es resp o g spec :
  runs (create_offer r) es (Ok resp) → offer_given r resp es o →
  pre_grant o = Some g → pg_tx_code g = Some spec →
  (∀ s, X (VGen GTxCode s) ∈ es → is_tx_code s) →
  ∃ code, cor_tx_code resp = Some code ∧ tc_input_mode spec = Some "numeric" ∧
    tc_length spec = Some (Z.of_nat (String.length code)) ∧ every_char digit code.
Proof. exact (offered_spec r es resp o g spec). Qed.
Print Assumptions C63_code_fits_the_offer.
Example C63_example : ∃ es resp o g spec,
  runs (create_offer (ex_create ByVal)) es (Ok resp) ∧ offer_given (ex_create ByVal) resp es o ∧
  pre_grant o = Some g ∧ pg_tx_code g = Some spec ∧ (∀ s, X (VGen GTxCode s) ∈ es → is_tx_code s).
Proof.
  eexists _, _, _, _, _. split; [apply (solo_runs w0 ∅); vm_compute; reflexivity|].
  split; [reflexivity|]. split; [reflexivity|]. split; [reflexivity|].
  intros s Hin.
  repeat (apply elem_of_cons in Hin as [Hin|Hin];
    [first [discriminate Hin | injection Hin as ->; exists [1;2;3;4;5;6]; split; [split; [reflexivity|]|vm_compute; reflexivity];
       apply Forall_forall; vm_compute; repeat constructor]|]).
  by apply elem_of_nil in Hin.
Qed.

(** C64.  Codes, tokens, nonces and identifiers can stand in a URL, *)
Theorem C64_token_form s : is_random_token s → String.length s = 43 ∧ every_char url_safe s.
Proof. exact (token_form s). Qed.
Print Assumptions C64_token_form.
(** have no colon (which is what freshness asks of them apart from being different), *)
Theorem C64_no_colon s : is_random_token s → ":"%char ∉ list_ascii_of_string s.
Proof. intros H. exact (safe_no_colon s (proj2 (token_form s H))). Qed.
Print Assumptions C64_no_colon.
(** and nothing of what was drawn is lost: different draws give different texts. *)
Theorem C64_nothing_lost draws draws' rnd rnd' :
  drawn state_len safe_chars draws → drawn state_len safe_chars draws' →
  random_string draws safe_chars = Some rnd → random_string draws' safe_chars = Some rnd' →
  base64url (bytes_of_string rnd) = base64url (bytes_of_string rnd') → draws = draws'.
Proof. exact (token_keeps draws draws' rnd rnd'). Qed.
Print Assumptions C64_nothing_lost.
Example C64_example : ∃ s, is_random_token s.
Proof.
  eexists. exists (replicate 31 72 ++ [5]). eexists. split.
  - split; [reflexivity|]. apply Forall_forall. vm_compute. repeat constructor.
  - split; vm_compute; reflexivity.
Qed.
