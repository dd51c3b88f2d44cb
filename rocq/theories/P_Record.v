(** The wallet's records as JSON: C130. *)
From Coq Require Import Lia.
From Verif Require Import Base StringSpec Json MatcherModel JsonParse JsonText CoreModel VcModel Prog ExecSpec ExecFacts Sched Sha256 IssuerTypes
  SerdeSpec SerdeModel SerdeTrips SerdeText WireSpec VcSpec VcSerde VerifierModel DifSerde DifSpec MetaSerde MetaSpec MetaFacts
  HolderModel HolderSpec HolderExample RecordSerde RecordSpec RecordTrips RecordExec RecordExample.
From Verif Require IssuerExample SerdeExample.

(** C130.  What the wallet saves of an issuance is read back, except that the claims accepted of an
    SD-JWT credential come back as those of a mobile document.  It then writes the same text, and it
    is not taken for a presentation. *)
Theorem C130_issuance_read_back_partial cx n (c : hconfig) m j k v x b r : dates_read cx → hreach c → wallet_supplied n c →
  n + 7 < depth_limit → made c m j (HPut k (HSIssuance v) x b) → issuance_of r = v →
  readable_issuer (ri_issuer r) → claims_within n (issuer_claims (ri_issuer r)) →
  read (de_issuance_record cx) (write (ser_issuance_record cx) r) = Some (record_read_back r) ∧
  write (ser_issuance_record cx) (record_read_back r) = write (ser_issuance_record cx) r ∧
  read (de_presentation_record cx) (write (ser_issuance_record cx) r) = None.
Proof. exact (issuance_text_same cx n c m j k v x b r). Qed.
Print Assumptions C130_issuance_read_back_partial.
(** It is read back as it was if, and only if, no such claims were accepted. *)
Theorem C130_issuance_same_iff cx n (c : hconfig) m j k v x b r : dates_read cx → hreach c → wallet_supplied n c →
  n + 7 < depth_limit → made c m j (HPut k (HSIssuance v) x b) → issuance_of r = v →
  readable_issuer (ri_issuer r) → claims_within n (issuer_claims (ri_issuer r)) →
  read (de_issuance_record cx) (write (ser_issuance_record cx) r) = Some r ↔ ¬ accepts_sd_jwt r.
Proof. exact (issuance_text_iff cx n c m j k v x b r). Qed.
Print Assumptions C130_issuance_same_iff.
(** A wallet does save such claims. *)
Theorem C130_sd_jwt_refuted : ∃ cx n (c : hconfig) m j k x b r, dates_read cx ∧ hreach c ∧ wallet_supplied n c ∧ n + 7 < depth_limit ∧
  made c m j (HPut k (HSIssuance (issuance_of r)) x b) ∧ readable_issuer (ri_issuer r) ∧ claims_within n (issuer_claims (ri_issuer r)) ∧
  read (de_issuance_record cx) (write (ser_issuance_record cx) r) ≠ Some r.
Proof. exact sd_not_same. Qed.
Print Assumptions C130_sd_jwt_refuted.
(** What it saves of a presentation is read back as it was, and not taken for an issuance. *)
Theorem C130_presentation_read_back cx n (c : hconfig) m j k v x b r : dates_read cx → hreach c → wallet_supplied n c →
  n + 9 < depth_limit → made c m j (HPut k (HSPresentation v) x b) → presentation_of r = v →
  read (de_presentation_record cx) (write (ser_presentation_record cx) r) = Some r ∧
  read (de_issuance_record cx) (write (ser_presentation_record cx) r) = None.
Proof. exact (λ Hd Hr Hs, presentation_text cx n c Hd Hr Hs m j k v x b r). Qed.
Print Assumptions C130_presentation_read_back.
(** The records have these members, with these values, and no others; *)
Theorem C130_issuance_members cx r : exactly (issuance_document cx r) (ser_issuance_record cx r).
Proof. exact (issuance_record_values cx r). Qed.
Print Assumptions C130_issuance_members.
Theorem C130_presentation_members cx r : exactly (presentation_document cx r) (ser_presentation_record cx r).
Proof. exact (presentation_record_values cx r). Qed.
Print Assumptions C130_presentation_members.
Theorem C130_credential_members cx r : exactly (credential_document cx r) (ser_credential cx r).
Proof. exact (credential_values cx r). Qed.
Print Assumptions C130_credential_members.
(** and these are the records, whoever made them, that come back as they were. *)
Theorem C130_issuance_exact cx r : dates_read cx →
  de_issuance_record cx (ser_issuance_record cx r) = Some r ↔ readable_issuance_record r.
Proof. exact (issuance_record_exact cx r). Qed.
Print Assumptions C130_issuance_exact.
Theorem C130_presentation_exact cx r : dates_read cx →
  de_presentation_record cx (ser_presentation_record cx r) = Some r ↔ readable_presentation_record r.
Proof. exact (presentation_record_exact cx r). Qed.
Print Assumptions C130_presentation_exact.
(** A credential is accepted in part, and received; a presentation is agreed to. *)
Example C130_example : dates_read SerdeExample.ex_cx ∧ 8 + 9 < depth_limit ∧
  (hreach kept ∧ wallet_supplied 8 kept ∧
   (∃ m, made kept m 4 (HPut "id0" (HSIssuance (issuance_of (full_issuance kept_issuance))) max_utc true)) ∧
   readable_issuer (ri_issuer (full_issuance kept_issuance)) ∧ claims_within 8 (issuer_claims (ri_issuer (full_issuance kept_issuance))) ∧
   length (ri_credentials (full_issuance kept_issuance)) = 1 ∧ ¬ accepts_sd_jwt (full_issuance kept_issuance)) ∧
  (hreach shown ∧ wallet_supplied 8 shown ∧
   ∃ r m, made shown m 1 (HPut "id1" (HSPresentation (presentation_of r)) max_utc true) ∧ length (rp_credentials r) = 1).
Proof.
  split; [exact SerdeExample.ex_dates|]. split; [vm_compute; lia|]. split.
  - split; [exact kept_reach|]. split; [exact kept_supplied|]. split.
    { exists (pred (length (c_log kept))). replace (issuance_of (full_issuance kept_issuance)) with kept_issuance by (vm_compute; reflexivity).
      exact kept_saved. }
    destruct kept_readable as [H1 H2]. split; [exact H1|]. split; [exact H2|]. split; [reflexivity|].
    intros (l & d & id & cl & [= <-] & ->%elem_of_list_singleton & H). discriminate H.
  - split; [exact shown_reach|]. split; [exact shown_supplied|]. destruct shown_presentation as [p|] eqn:E; [|discriminate E].
    exists (full_presentation p), (pred (length (c_log shown))). split.
    + replace (presentation_of (full_presentation p)) with p by (injection E as <-; vm_compute; reflexivity). by apply shown_saved.
    + by injection E as <-.
Qed.
