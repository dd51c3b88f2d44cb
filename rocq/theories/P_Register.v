(** Dynamic client registration: C135. *)
From Verif Require Import Base StringSpec Json CoreModel VcModel Prog ProgFacts ExecSpec ExecFacts Sched IssuerTypes
  ClaimsModel Sha256 IssuerModel IssuerSpec IssuerWp IssuerExec IssuerExample RegisterFacts.

(** C135.  Exactly these requests are answered, with exactly what the provider registered, and the
    metadata that is registered is that of the request: *)
Theorem C135_registered_iff_partial r es o cl : runs (register r) es o →
  (o = Ok cl ↔ ∃ st, es = [Get (rr_access_token r) (Some st); X (VRegister (rr_client_metadata r) (Some cl))]).
Proof. exact (register_iff r es o cl). Qed.
Print Assumptions C135_registered_iff_partial.
(** so that in every execution who registers a client knows something the issuer made up, *)
Theorem C135_token_partial (c : iconfig) i r cl :
  ireach c → answered c i (QRegister r) (Ok (RRegister cl)) →
  (∃ tok en, en ∈ c_log c ∧ rr_access_token r = "urn:ietf:params:oauth:request_uri:" +:+ tok ∧
     e_ev en = X (VGen GUriToken tok)) ∨
  (∃ g en, en ∈ c_log c ∧ g ≠ GTxCode ∧ g ≠ GNonce ∧ e_ev en = X (VGen g (rr_access_token r))).
Proof. exact (register_token c i r cl). Qed.
Print Assumptions C135_token_partial.

(** but it need not be an access token.  The code in an offer will do, when no access token was ever
    made, *)
Definition reg_code_world : iconfig :=
  after w0 (serially [QCreateOffer (ex_create ByVal); QRegister (RegistrationRequest ex_iss "code2" ex_client)]).
Theorem C135_offer_code_refuted : ∃ (c : iconfig) i r cl,
  ireach c ∧ fresh (c_log c) ∧ answered c i (QRegister r) (Ok (RRegister cl)) ∧
  (∀ en s, en ∈ c_log c → e_ev en ≠ X (VGen GToken s)).
Proof.
  eexists reg_code_world, 1, (RegistrationRequest ex_iss "code2" ex_client), _.
  split; [apply after_reach|]. split; [apply freshb_fresh; vm_compute; reflexivity|]. split; [vm_compute; reflexivity|].
  intros en s Hen He.
  assert (forallb (λ e : entry ISig, match e_ev e with EExt (VGen GToken _) => false | _ => true end) (c_log reg_code_world) = true)
    as Hf by (vm_compute; reflexivity).
  rewrite forallb_forall in Hf. apply elem_of_list_In, Hf in Hen. by rewrite He in Hen.
Qed.
Print Assumptions C135_offer_code_refuted.
(** and so will the identifier of an authorization request that was only pushed; *)
Definition reg_par_world : iconfig :=
  after w0 (serially [QPar ex_ro; QRegister (RegistrationRequest ex_iss "urn:ietf:params:oauth:request_uri:uri3" ex_client)]).
Theorem C135_pushed_request_refuted : ∃ (c : iconfig) i r cl resp,
  ireach c ∧ fresh (c_log c) ∧ length (c_pool c) = 2 ∧ answered c 0 (QPar ex_ro) (Ok (RPar resp)) ∧
  rr_access_token r = pr_request_uri resp ∧ answered c i (QRegister r) (Ok (RRegister cl)).
Proof.
  eexists reg_par_world, 1, (RegistrationRequest ex_iss "urn:ietf:params:oauth:request_uri:uri3" ex_client), _, _.
  split; [apply after_reach|]. split; [apply freshb_fresh; vm_compute; reflexivity|]. split; [vm_compute; reflexivity|].
  split; [vm_compute; reflexivity|]. split; [reflexivity|]. vm_compute; reflexivity.
Qed.
Print Assumptions C135_pushed_request_refuted.
(** and an access token with which credentials are refused because it has expired still registers clients. *)
Definition reg_late : world :=
  World (λ _, ex_issuer) ex_server (λ n, if Nat.ltb n 18 then 0%Z else minutes 60) (λ _, false) "123456".
Definition reg_late_world : iconfig :=
  after reg_late (serially [QCreateOffer (ex_create ByVal); QToken (ex_token_pre "code2" (Some "123456"));
    QCredential (ex_credential "token13" "EmployeeID_JWT_1" "nonce14");
    QRegister (RegistrationRequest ex_iss "token13" ex_client)]).
Theorem C135_expired_token_refuted : ∃ (c : iconfig) i j rc e r cl st t,
  ireach c ∧ fresh (c_log c) ∧ before (c_log c) i j ∧
  rr_access_token r = cr_access_token rc ∧ is_token (c_log c) (rr_access_token r) ∧
  answered c i (QCredential rc) (Err e) ∧ X (VNow t) ∈ calls_of i (c_log c) ∧
  answered c j (QRegister r) (Ok (RRegister cl)) ∧ Get (rr_access_token r) (Some st) ∈ calls_of j (c_log c) ∧
  (s_expires_at st < t)%Z.
Proof.
  eexists reg_late_world, 2, 3, (ex_credential "token13" "EmployeeID_JWT_1" "nonce14"), _,
    (RegistrationRequest ex_iss "token13" ex_client), _, _, (minutes 60).
  split; [apply after_reach|]. split; [apply freshb_fresh; vm_compute; reflexivity|].
  split; [apply beforeb_before; vm_compute; reflexivity|]. split; [reflexivity|].
  split. { exists (Entry 1 (X (VGen GToken "token13")) true). split; [|done]. apply elem_of_list_lookup. exists 13. vm_compute. reflexivity. }
  split; [vm_compute; reflexivity|].
  split. { apply elem_of_list_lookup. exists 2. vm_compute. reflexivity. }
  split; [vm_compute; reflexivity|].
  split. { apply elem_of_list_lookup. exists 0. vm_compute. reflexivity. }
  vm_compute. reflexivity.
Qed.
Print Assumptions C135_expired_token_refuted.
(** A registration with an access token, as it should be. *)
Example C135_example : ∃ c, ireach c ∧ is_token (c_log c) "token13" ∧
  answered c 2 (QRegister (RegistrationRequest ex_iss "token13" ex_client)) (Ok (RRegister ex_client)).
Proof.
  exists (after w0 (serially [QCreateOffer (ex_create ByVal); QToken (ex_token_pre "code2" (Some "123456"));
    QRegister (RegistrationRequest ex_iss "token13" ex_client)])).
  split; [apply after_reach|]. split; [|vm_compute; reflexivity].
  exists (Entry 1 (X (VGen GToken "token13")) true). split; [|done]. apply elem_of_list_lookup. exists 13. vm_compute. reflexivity.
Qed.
