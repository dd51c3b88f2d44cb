(** Concrete requests of the wallet. *)
From Coq Require Import Lia.
From Verif Require Import Base StringSpec Json MatcherModel JsonParse JsonText CoreModel VcModel Prog ExecSpec ExecFacts Sched Sha256 IssuerTypes
  SerdeSpec SerdeModel SerdeFacts SerdeTrips HolderModel HolderSpec HolderExample RecordSpec RecordExample SentSpec SentExec.
From Verif Require IssuerExample.

(** An SD-JWT credential is offered and accepted; a token is asked for, or authorization. *)
Definition badge_issuer : issuer :=
  Issuer "http://issuer" None [("Badge_SD", CredentialConfiguration (FVcSdJwt "badge" (Some [("email", CEntry (Some true))])) None None None)].
Definition badge_offer : credential_offer :=
  CredentialOffer "http://issuer" ["Badge_SD"]
    (Some (Grants (Some (AuthorizationCodeGrant (Some "state") None)) (Some (PreAuthorizedCodeGrant "code" None None)))).
Definition badge_world : hworld :=
  HWorld badge_issuer IssuerExample.ex_server (λ _ _, None) [] (ex_vprequest []) (λ _ _, None).
Definition badge_requests : list hrequest :=
  [HOffer "client" "sub" badge_offer; HAccept "id0" sd_accept; HToken "id0";
   HAuthorize (AuthorizeRequest (ByIssuer "id0") (Some "http://wallet") None)].
Definition badge : hconfig := hafter badge_world (hserially badge_requests).
Definition badge_events : list hevent := Eval vm_compute in map e_ev (c_log badge).

(** ** They are executions with readable values *)
Definition fine_metadata (n : nat) (e : hevent) : Prop :=
  match e with
  | EExt (EMetadata _ (Some md)) =>
      Forall (λ kc, match format_claims (cc_format kc.2) with Some l => readable_claims l ∧ claims_depth l ≤ n | None => True end) (is_configurations md)
  | _ => True
  end.
Lemma metadata_by n (c : hconfig) es : map e_ev (c_log c) = es → Forall (fine_metadata n) es → metadata_supplied n c.
Proof.
  intros <- H m i iss md id cfg Hm%events_made Hin l El. pose proof (proj1 (Forall_forall _ _) H _ Hm) as Hf. cbn in Hf.
  pose proof (proj1 (Forall_forall _ _) Hf _ Hin) as Hc. cbn in Hc. by rewrite El in Hc.
Qed.
Lemma badge_reach : hreach badge.
Proof. apply hafter_reach. Qed.
Lemma badge_claims b : readable_claims [("email", CEntry b)] ∧ claims_depth [("email", CEntry b)] ≤ 8.
Proof.
  split; [|destruct b; vm_compute; lia]. split; [apply (bool_decide_unpack _); vm_compute; exact I|].
  intros k c Hc%elem_of_list_singleton. by simplify_eq.
Qed.
Lemma badge_supplied : wallet_supplied 8 badge ∧ metadata_supplied 8 badge.
Proof.
  split.
  - apply (supplied_by 8 badge badge_requests badge_events); [vm_compute; reflexivity|vm_compute; reflexivity| |].
    + repeat (apply Forall_cons; split); try exact I; [..|constructor].
      * apply (de_offer_readable (ser_offer badge_offer)). vm_compute. reflexivity.
      * intros l s [= <-] ->%elem_of_list_singleton cl [= <-]. apply badge_claims.
      * split; [done|]. intros ? ?%elem_of_nil. done.
    + unfold badge_events. repeat (apply Forall_cons; split); try exact I; constructor.
  - apply (metadata_by 8 badge badge_events); [vm_compute; reflexivity|]. unfold badge_events.
    repeat (apply Forall_cons; split); try exact I; [apply badge_claims|constructor..].
Qed.
Definition badge_token : token_request :=
  TokenRequest "http://issuer" (Some "client") (TGPreAuthorizedCode "code" None)
    (Some [AuthorizationDetail (ByConfigurationId "Badge_SD" (Some (PCSdJwt [("email", CEntry None)]))) None]).
Lemma badge_sent : made badge 7 2 (HX (EToken badge_token None)) ∧
  ∃ req, made badge 10 3 (HX (EAuthorization req None)) ∧
    ro_authorization_details req = Some [AuthorizationDetail (ByConfigurationId "Badge_SD" (Some (PCSdJwt [("email", CEntry (Some true))]))) None].
Proof. split; [exists true; vm_compute; reflexivity|]. eexists. split; [exists true; vm_compute; reflexivity|reflexivity]. Qed.

Lemma kept_metadata : metadata_supplied 8 kept.
Proof.
  apply (metadata_by 8 kept kept_events); [vm_compute; reflexivity|]. unfold kept_events.
  repeat (apply Forall_cons; split); try exact I; try constructor.
  - split; [apply (bool_decide_unpack _); vm_compute; exact I|]. intros k c Hc. revert Hc.
    rewrite !elem_of_cons, elem_of_nil. intros [[= -> ->]|[[= -> ->]|[[= -> ->]|[]]]]; done.
  - vm_compute. lia.
Qed.
Definition kept_token : token_request :=
  TokenRequest "http://issuer" (Some "client") (TGPreAuthorizedCode "code2" (Some "123456"))
    (Some [AuthorizationDetail (ByConfigurationId "EmployeeID_JWT"
      (Some (PCW3c (CredentialDefinition None None (Some [("email", CEntry None); ("family_name", CEntry None)]))))) None]).
Lemma kept_sent : (∃ r, made kept 9 3 (HX (EToken kept_token r))) ∧
  ∃ r, made kept 14 4 (HX (ECredential (CredentialRequest "http://issuer" "token14" (CIIdentifier "EmployeeID_JWT_1") (Some (PSingle "nonce15"))) r)).
Proof. split; eexists; exists true; vm_compute; reflexivity. Qed.
