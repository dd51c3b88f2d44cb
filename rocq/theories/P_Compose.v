(** C77, C90 and C91: the wallet and the issuer together. *)
From Verif Require Import Base Json CoreModel VcModel Prog ProgFacts ExecSpec ExecFacts Sched Sha256 IssuerTypes
  IssuerModel IssuerSpec MatcherModel VerifierModel HolderModel HolderSpec HolderProps ComposeSpec IssuerGrant
  ComposeFacts HolderExample ComposeExample P_Wallet.
From Verif Require IssuerExample.
Import IssuerExample.

(** C90.  The data that are fetched belong to the subject of the grant behind the access token, who
    was authorized for this credential when the grant was made. *)
Theorem C90_data_of_the_granted_subject (c : iconfig) i subj id d :
  ireach c → X (VDataset subj id d) ∈ calls_of i (c_log c) →
  ∃ q p at_ st tok j r pj, c_pool c !! i = Some (q, p) ∧ bearer q = Some at_ ∧
    Get at_ (Some st) ∈ calls_of i (c_log c) ∧ s_stage st = Validated tok ∧
    c_pool c !! j = Some (QToken r, pj) ∧ X (VGen GToken (tk_access_token tok)) ∈ calls_of j (c_log c) ∧
    (fresh (c_log c) → is_token (c_log c) at_ → tk_access_token tok = at_) ∧
    granted_to c r subj id.
Proof. exact (dataset_granted c i subj id d). Qed.
Print Assumptions C90_data_of_the_granted_subject.

(** The wallet [happy] of P_Wallet.v and the issuer it talks to. *)
Definition issuer_of (tx : bool) (c : hconfig) : iconfig := issuer_after w0 [ex_creates tx two_ids] (c_log c) [].
Example C90_example : ireach (issuer_of true happy) ∧ ∃ d,
  X (VDataset ex_subject "EmployeeID_JWT_1" d) ∈ calls_of 2 (c_log (issuer_of true happy)).
Proof.
  split; [apply after_reach|]. eexists. apply elem_of_list_lookup. exists 5. vm_compute. reflexivity.
Qed.

(** C91.  From the credential in the wallet back to the subject. *)
Theorem C91_saved_credentials_are_the_subjects (c : hconfig) (ci : iconfig) f n i cr b :
  hreach c → ireach ci → coupled c ci f → fresh (c_log ci) → made c n i (HX (ESave cr b)) →
  ∃ id m j tr tok k subj ident ds, asked c i (HSave id) ∧ m < n ∧ token_call_for c j id ∧
    made c m j (HX (EToken tr (Some tok))) ∧
    signed_from ci k (wc_issued cr) (ds_claims ds) ∧
    X (VDataset subj ident (Some ds)) ∈ calls_of k (c_log ci) ∧ ds_pending ds = false ∧
    granted_to ci tr subj ident.
Proof. intros Hr Hri Hc. exact (saved_end_to_end c ci f Hr Hri (coupled_details _ _ _ Hc) n i cr b). Qed.
Print Assumptions C91_saved_credentials_are_the_subjects.
(** With the authorization code flow this is the subject that the wallet named. *)
Theorem C91_subject_the_wallet_named (c : hconfig) (ci : iconfig) f m j tr tok code u v subj ident :
  hreach c → ireach ci → coupled c ci f → fresh (c_log ci) →
  made c m j (HX (EToken tr (Some tok))) → tr_grant tr = TGAuthorizationCode code u v →
  granted_to ci tr subj ident →
  ∃ m' req resp, m' < m ∧ made c m' j (HX (EAuthorization req (Some resp))) ∧ ro_subject_id req = subj.
Proof. intros Hr Hri Hc. exact (authorized_subject c ci f Hr Hri (coupled_details _ _ _ Hc) m j tr tok code u v subj ident). Qed.
Print Assumptions C91_subject_the_wallet_named.

Lemma happy_coupled : coupled happy (issuer_of true happy) (to_issuer 1 (c_log happy)).
Proof. apply checked_coupled; [vm_compute; reflexivity|]. vm_compute. repeat split. Qed.
Example C91_example : hreach happy ∧ ireach (issuer_of true happy) ∧
  coupled happy (issuer_of true happy) (to_issuer 1 (c_log happy)) ∧ fresh (c_log (issuer_of true happy)) ∧
  ∃ n cr, made happy n 5 (HX (ESave cr true)).
Proof.
  split; [apply hafter_reach|]. split; [apply after_reach|]. split; [apply happy_coupled|].
  split; [apply freshb_fresh; vm_compute; reflexivity|]. eexists 19, _, true. vm_compute. reflexivity.
Qed.
Lemma happy_code_coupled : coupled happy_code (issuer_of false happy_code) (to_issuer 1 (c_log happy_code)).
Proof. apply checked_coupled; [vm_compute; reflexivity|]. vm_compute. repeat split. Qed.
Example C91_example_code : hreach happy_code ∧ ireach (issuer_of false happy_code) ∧
  coupled happy_code (issuer_of false happy_code) (to_issuer 1 (c_log happy_code)) ∧
  fresh (c_log (issuer_of false happy_code)) ∧
  ∃ tr tok code u v, made happy_code 9 2 (HX (EToken tr (Some tok))) ∧ tr_grant tr = TGAuthorizationCode code u v.
Proof.
  split; [apply hafter_reach|]. split; [apply after_reach|]. split; [apply happy_code_coupled|].
  split; [apply freshb_fresh; vm_compute; reflexivity|].
  eexists _, _, _, _, _. split; [exists true; vm_compute; reflexivity|reflexivity].
Qed.

(** C77.  With this issuer, a call for several credentials does not get them.  Once it was given a
    credential, its next request is refused, as it has the nonce the first one used up; ... *)
Theorem C77_second_request_refused (c : hconfig) (ci : iconfig) f a b i qa ra qb rb :
  hreach c → ireach ci → coupled c ci f → fresh (c_log ci) → proofs_needed ci → decodes_one_way ci →
  made c a i (HX (ECredential qa (Some ra))) → credentials_in ra ≠ [] →
  made c b i (HX (ECredential qb rb)) → a < b → rb = None.
Proof. intros Hr Hri Hc. exact (second_refused c ci f Hr Hri (coupled_details _ _ _ Hc) a b i qa ra qb rb). Qed.
Print Assumptions C77_second_request_refused.
(** ... so a call that succeeds was given at most one credential, ... *)
Theorem C77_one_credential_at_most (c : hconfig) (ci : iconfig) f i r resp :
  hreach c → ireach ci → coupled c ci f → fresh (c_log ci) → proofs_needed ci → decodes_one_way ci →
  answered c i (HCredentials r) (Ok (HRCredentials resp)) →
  length (concat (map credentials_in (responses (calls_of i (c_log c))))) ≤ 1.
Proof. intros Hr Hri Hc. exact (one_credential c ci f Hr Hri (coupled_details _ _ _ Hc) i r resp). Qed.
Print Assumptions C77_one_credential_at_most.
(** ... and a call that needs more fails, and the credential it was given is lost. *)
Definition greedy : hconfig := strict_wallet None.
Definition modest : hconfig := strict_wallet (Some ["EmployeeID_JWT_1"]).
Lemma strict_reach want : hreach (strict_wallet want).
Proof. unfold strict_wallet. apply hafter_reach. Qed.
Lemma greedy_coupled : coupled greedy (strict_of greedy) (to_issuer 1 (c_log greedy)).
Proof. apply checked_coupled; [vm_compute; reflexivity|]. vm_compute. repeat split. Qed.
Lemma modest_coupled : coupled modest (strict_of modest) (to_issuer 1 (c_log modest)).
Proof. apply checked_coupled; [vm_compute; reflexivity|]. vm_compute. repeat split. Qed.
Theorem C77_all_credentials_refuted : ∃ (c : hconfig) (ci : iconfig) f i e q resp jwt,
  hreach c ∧ ireach ci ∧ coupled c ci f ∧ fresh (c_log ci) ∧ proofs_needed ci ∧ decodes_one_way ci ∧
  answered c i (HCredentials (CredentialsRequest "id0" None None)) (Err e) ∧
  HX (ECredential q (Some resp)) ∈ calls_of i (c_log c) ∧ credentials_in resp = [KString jwt] ∧
  ∀ n k v x b eff, c_log c !! n ≠ Some (Entry i (HPut k v x b) eff).
Proof.
  eexists greedy, (strict_of greedy), _, 4, _, _, _, _.
  split; [apply strict_reach|]. split; [unfold strict_of, issuer_after; apply after_reach|]. split; [apply greedy_coupled|].
  split; [apply freshb_fresh; vm_compute; reflexivity|].
  split; [apply proofs_neededb; vm_compute; reflexivity|].
  split; [apply decodes_plainly; vm_compute; repeat constructor|].
  split; [vm_compute; reflexivity|].
  split; [apply elem_of_list_lookup; exists 3; vm_compute; reflexivity|].
  split; [reflexivity|].
  intros n k v x b eff Hn.
  assert (∀ en, en ∈ c_log greedy → bool_decide (e_who en = 4) && (match e_ev en with EPut _ _ _ _ => true | _ => false end) = false) as H.
  { apply Forall_forall. vm_compute. repeat constructor. }
  apply elem_of_list_lookup_2, H in Hn. discriminate.
Qed.
Print Assumptions C77_all_credentials_refuted.
Example C77_example_coupled : hreach modest ∧ ireach (strict_of modest) ∧
  coupled modest (strict_of modest) (to_issuer 1 (c_log modest)) ∧ fresh (c_log (strict_of modest)) ∧
  proofs_needed (strict_of modest) ∧ decodes_one_way (strict_of modest) ∧
  ∃ r resp, answered modest 4 (HCredentials r) (Ok (HRCredentials resp)) ∧
    length (concat (map credentials_in (responses (calls_of 4 (c_log modest))))) = 1.
Proof.
  split; [apply strict_reach|]. split; [unfold strict_of, issuer_after; apply after_reach|]. split; [apply modest_coupled|].
  split; [apply freshb_fresh; vm_compute; reflexivity|].
  split; [apply proofs_neededb; vm_compute; reflexivity|].
  split; [apply decodes_plainly; vm_compute; repeat constructor|].
  eexists _, _. split; [vm_compute; reflexivity|vm_compute; reflexivity].
Qed.
