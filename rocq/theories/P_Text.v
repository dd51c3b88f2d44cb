(** The wallet and the issuer talking in JSON: C136. *)
From Coq Require Import Lia.
From Verif Require Import Base StringSpec Json CoreModel VcModel Prog ExecSpec Sched IssuerTypes IssuerModel IssuerSpec SerdeSpec SerdeModel SerdeTrips
  HolderModel HolderSpec HolderProps ComposeSpec IssuerGrant ComposeFacts ComposeExample RecordSpec SentSpec TextSpec TextFacts TextExample.
From Verif Require SerdeExample IssuerExample.

(** C136.  A wallet and an issuer that write what they send each other as JSON text, and read what they
    get from it, are as good as a wallet and an issuer that hand each other values; *)
Theorem C136_text_is_value_partial cx n (c : hconfig) (ci : iconfig) f : dates_read cx → hreach c → ireach ci →
  wallet_supplied n c → metadata_supplied n c → issuer_supplied n ci → n ≤ 122 → no_sd_jwt_requests c →
  coupled_by_text cx c ci f → coupled c ci f.
Proof. exact (text_coupled cx n c ci f). Qed.
Print Assumptions C136_text_is_value_partial.
(** and the other way round, while the lifetimes of nonces fit their type. *)
Theorem C136_value_is_text_partial cx n (c : hconfig) (ci : iconfig) f : dates_read cx → hreach c → ireach ci →
  wallet_supplied n c → metadata_supplied n c → issuer_supplied n ci → n ≤ 122 → no_sd_jwt_requests c → lifetimes_fit ci →
  coupled c ci f → coupled_by_text cx c ci f.
Proof. exact (coupled_text cx n c ci f). Qed.
Print Assumptions C136_value_is_text_partial.
(** Every token response of the issuer is read as it was written, *)
Theorem C136_token_responses n (ci : iconfig) i r x : ireach ci → issuer_supplied n ci → n ≤ 122 → answered ci i (QToken r) (Ok (RToken x)) →
  read de_token_response (write ser_token_response x) = Some x.
Proof. exact (token_answer_read n ci i r x). Qed.
Print Assumptions C136_token_responses.
(** What was said of the two together holds whenever they talk in JSON, whatever is in the requests, the
    answers and the metadata: the credentials in the wallet are made of the data of the subject who was
    granted them (C91), *)
Theorem C136_saved_credentials_are_the_subjects cx (c : hconfig) (ci : iconfig) f n i cr b : dates_read cx → hreach c → ireach ci →
  coupled_by_text cx c ci f → fresh (c_log ci) → made c n i (HX (ESave cr b)) →
  ∃ id m j tr tok k subj ident ds, asked c i (HSave id) ∧ m < n ∧ token_call_for c j id ∧
    made c m j (HX (EToken tr (Some tok))) ∧
    signed_from ci k (wc_issued cr) (ds_claims ds) ∧
    X (VDataset subj ident (Some ds)) ∈ calls_of k (c_log ci) ∧ ds_pending ds = false ∧
    granted_to ci tr subj ident.
Proof. exact (λ Hd Hr Hri Hc, saved_end_to_end c ci f Hr Hri (text_details cx c ci f Hd Hri Hc) n i cr b). Qed.
Print Assumptions C136_saved_credentials_are_the_subjects.
(** which with the authorization code flow is the subject that the wallet named, *)
Theorem C136_subject_the_wallet_named cx (c : hconfig) (ci : iconfig) f m j tr tok code u v subj ident : dates_read cx →
  hreach c → ireach ci → coupled_by_text cx c ci f → fresh (c_log ci) →
  made c m j (HX (EToken tr (Some tok))) → tr_grant tr = TGAuthorizationCode code u v →
  granted_to ci tr subj ident →
  ∃ m' req resp, m' < m ∧ made c m' j (HX (EAuthorization req (Some resp))) ∧ ro_subject_id req = subj.
Proof. exact (λ Hd Hr Hri Hc, authorized_subject c ci f Hr Hri (text_details cx c ci f Hd Hri Hc) m j tr tok code u v subj ident). Qed.
Print Assumptions C136_subject_the_wallet_named.
(** and a call that succeeds was given at most one credential (C77). *)
Theorem C136_one_credential_at_most cx (c : hconfig) (ci : iconfig) f i r resp : dates_read cx → hreach c → ireach ci →
  coupled_by_text cx c ci f → fresh (c_log ci) → proofs_needed ci → decodes_one_way ci →
  answered c i (HCredentials r) (Ok (HRCredentials resp)) →
  length (concat (map credentials_in (responses (calls_of i (c_log c))))) ≤ 1.
Proof. exact (λ Hd Hr Hri Hc, one_credential c ci f Hr Hri (text_details cx c ci f Hd Hri Hc) i r resp). Qed.
Print Assumptions C136_one_credential_at_most.
(** A credential goes from the issuer to the wallet, and is saved. *)
Example C136_example : dates_read SerdeExample.ex_cx ∧ hreach told ∧ ireach teller ∧ wallet_supplied 8 told ∧ metadata_supplied 8 told ∧
  issuer_supplied 8 teller ∧ no_sd_jwt_requests told ∧ lifetimes_fit teller ∧
  coupled_by_text SerdeExample.ex_cx told teller (to_issuer 1 (c_log told)) ∧ fresh (c_log teller) ∧
  ∃ n cr, made told n 5 (HX (ESave cr true)).
Proof.
  destruct told_supplied as [H1 H2].
  split; [exact SerdeExample.ex_dates|]. split; [exact told_reach|]. split; [exact teller_reach|]. split; [exact H1|]. split; [exact H2|].
  split; [exact teller_supplied|]. split; [exact told_plain|]. split; [exact teller_fits|]. split; [exact told_by_text|].
  split; [apply IssuerExample.freshb_fresh; vm_compute; reflexivity|]. eexists 19, _, true. vm_compute. reflexivity.
Qed.
