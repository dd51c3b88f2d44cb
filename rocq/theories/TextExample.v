(** A wallet and an issuer that talk in JSON. *)
From Coq Require Import Lia.
From Verif Require Import Base StringSpec Json MatcherModel JsonParse JsonText CoreModel VcModel Prog ExecSpec ExecFacts Sched Sha256 IssuerTypes
  IssuerModel IssuerSpec SerdeSpec SerdeModel SerdeFacts SerdeTrips SerdeProps VcSpec VcSerde VcTrips VerifierModel
  HolderModel HolderSpec HolderExample ComposeSpec ComposeExample RecordSpec RecordTrips RecordExample SentSpec SentExec SentExample TextSpec TextFacts.
From Verif Require Import IssuerExample.
From Verif Require SerdeExample.

(** Some of the claims of a credential are accepted; it is received and saved. *)
Definition told_requests : list hrequest :=
  [HOffer "client" "sub" (ex_offer true ["EmployeeID_JWT"; "Developer_JWT"]); HAccept "id0" (Some [AuthSpec "EmployeeID_JWT" None]);
   HPin "id0" "123456"; HToken "id0"; HCredentials (CredentialsRequest "id0" (Some ["EmployeeID_JWT_1"]) None); HSave "id0"].
Definition told : hconfig := hafter hw0 (hserially told_requests).
Definition told_events : list hevent := Eval vm_compute in map e_ev (c_log told).
Definition teller : iconfig := issuer_after w0 [ex_creates true ["EmployeeID_JWT"; "Developer_JWT"]] (c_log told) [].
Definition teller_pool : list (irequest * prog ISig (outcome error ireply)) := Eval vm_compute in c_pool teller.

Lemma told_reach : hreach told.
Proof. apply hafter_reach. Qed.
Lemma teller_reach : ireach teller.
Proof. unfold teller, issuer_after. apply after_reach. Qed.
Lemma told_coupled : coupled told teller (to_issuer 1 (c_log told)).
Proof. apply checked_coupled; [vm_compute; reflexivity|]. vm_compute. repeat split. Qed.
Lemma told_supplied : wallet_supplied 8 told ∧ metadata_supplied 8 told.
Proof.
  split.
  - apply (supplied_by 8 told told_requests told_events); [vm_compute; reflexivity|vm_compute; reflexivity| |].
    + repeat (apply Forall_cons; split); try exact I; [| |constructor].
      * apply (de_offer_readable (ser_offer (ex_offer true ["EmployeeID_JWT"; "Developer_JWT"]))). vm_compute. reflexivity.
      * intros l s [= <-] ->%elem_of_list_singleton cl. done.
    + unfold told_events. repeat (apply Forall_cons; split); try exact I; [..|constructor]; cbn [readable_answer].
      * split; [|intros cl Hcl; by apply elem_of_nil in Hcl].
        match goal with |- readable_token ?t => apply (de_token_response_readable (ser_token_response t)) end. vm_compute. reflexivity.
      * intros z [= <-]. vm_compute. split; congruence.
      * exact ex_vc_fine.
  - apply (metadata_by 8 told told_events); [vm_compute; reflexivity|]. unfold told_events.
    repeat (apply Forall_cons; split); try exact I; try constructor.
    + split; [apply (bool_decide_unpack _); vm_compute; exact I|]. intros k c Hc. revert Hc.
      rewrite !elem_of_cons, elem_of_nil. intros [[= -> ->]|[[= -> ->]|[[= -> ->]|[]]]]; done.
    + vm_compute. lia.
Qed.
Lemma told_plain : no_sd_jwt_requests told.
Proof.
  intros m i e H%events_made. change (map e_ev (c_log told)) with (map e_ev (c_log told)) in H.
  replace (map e_ev (c_log told)) with told_events in H by (vm_compute; reflexivity).
  revert e H. apply Forall_forall. unfold told_events. repeat (apply Forall_cons; split); try exact I; [|constructor].
  intros l d id cl [= <-] ->%elem_of_list_singleton. discriminate.
Qed.
Lemma teller_supplied : issuer_supplied 8 teller.
Proof.
  intros i q p H. assert ((q, p) ∈ c_pool teller) as H1 by (by eapply elem_of_list_lookup_2). clear H.
  replace (c_pool teller) with teller_pool in H1 by (vm_compute; reflexivity).
  assert (Forall (λ qp : irequest * prog ISig (outcome error ireply), was_read qp.1 ∧ ∀ l, l ∈ request_claims qp.1 → claims_depth l ≤ 8) teller_pool) as H.
  { unfold teller_pool. repeat (apply Forall_cons; split); [..|constructor]; cbn.
    all: split; try exact I; try by intros l ?%elem_of_nil.
    match goal with |- ∃ j, de_credential_request j = Some ?r => exists (ser_credential_request r) end. vm_compute. reflexivity. }
  exact (proj1 (Forall_forall _ _) H _ H1).
Qed.
Lemma teller_fits : lifetimes_fit teller.
Proof.
  intros i q r resp z H. unfold answered in H. assert ((q, Ret (Ok r)) ∈ c_pool teller) as H1 by (by eapply elem_of_list_lookup_2). clear H.
  replace (c_pool teller) with teller_pool in H1 by (vm_compute; reflexivity). revert H1.
  unfold teller_pool. rewrite !elem_of_cons, elem_of_nil. intros H [->| ->]; revert H; intros [H|[H|[H|[]]]]; try discriminate H.
  injection H as _ ->. intros [= <-]. split; vm_compute; congruence.
Qed.
Lemma told_by_text : coupled_by_text SerdeExample.ex_cx told teller (to_issuer 1 (c_log told)).
Proof.
  destruct told_supplied as [H1 H2].
  apply (coupled_text SerdeExample.ex_cx 8 told teller _ SerdeExample.ex_dates told_reach teller_reach H1 H2 teller_supplied); [lia|..].
  - exact told_plain.
  - exact teller_fits.
  - exact told_coupled.
Qed.
