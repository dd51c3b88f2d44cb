(** C88: a presentation made by the wallet, at the verifier. *)
From Verif Require Import Base Json CoreModel VcModel Prog ProgFacts ExecSpec ExecFacts Sched Sha256 IssuerTypes
  MatcherModel MatcherSpec MatcherFacts MatcherExample VerifierModel VerifierSpec VerifierFacts VerifierExec VerifierExample
  HolderModel HolderSpec HolderExec HolderProps PresentFacts.
From Verif Require HolderExample.

(** If keys and the JSONPath library work as they should, the verifier accepts the response to
    its request exactly when the first of the credentials found for the first descriptor
    fulfils every descriptor. *)
Theorem C88_accepted_iff_first_credential_fits (c : hconfig) lb su n i uri rr x :
  hreach c → verifies_as_signed c su → one_credential_per_token su → finds_first (lb_engine lb) →
  made c n i (HX (EPresent uri rr x)) →
  ∃ id n1 i1 url req creds d x0 rest m,
    asked c i (HPresent id) ∧ n1 < n ∧ asked c i1 (HRequest url) ∧ saved c n1 i1 id ∧
    (∃ m, m < n1 ∧ (made c m i1 (HX (EParseRequest url (Some req))) ∨
                    ∃ jwt, made c m i1 (HX (EDecodeRequest jwt (Some req))))) ∧
    vo_definition req = KObject d ∧ pd_input_descriptors d = x0 :: rest ∧
    m < n1 ∧ made c m i1 (HX (EFind (id_constraints x0) (Some creds))) ∧
    rq_state rr = vo_state req ∧
    ∀ es o key st, runs (response lb rr) es o → as_in su es → rq_state rr = Some key →
      VGet key (Some st) ∈ es → (∀ k, VPurge k false ∉ es) → vs_request st = req →
      (∃ y, o = Ok y) ↔ ∃ c1 cs, creds = c1 :: cs ∧ fits_all lb su d (wc_issued c1).
Proof. intros Hr. exact (presented_fits c Hr lb su n i uri rr x). Qed.
Print Assumptions C88_accepted_iff_first_credential_fits.

(** One descriptor, and a store that finds what it is asked for: accepted.  What is missing:
    more descriptors, see below. *)
Theorem C88_one_descriptor_accepted_partial (c : hconfig) lb su n i uri rr x :
  hreach c → verifies_as_signed c su → one_credential_per_token su → finds_first (lb_engine lb) →
  made c n i (HX (EPresent uri rr x)) →
  ∃ i1 url req d x0 rest creds m,
    asked c i1 (HRequest url) ∧
    (∃ m, m < n ∧ (made c m i1 (HX (EParseRequest url (Some req))) ∨
                   ∃ jwt, made c m i1 (HX (EDecodeRequest jwt (Some req))))) ∧
    vo_definition req = KObject d ∧ pd_input_descriptors d = x0 :: rest ∧
    m < n ∧ made c m i1 (HX (EFind (id_constraints x0) (Some creds))) ∧
    (rest = [] → (∀ fmt, id_format x0 = Some fmt → "jwt_vc_json" ∈ keys fmt) →
     creds ≠ [] →
     (∀ cr, cr ∈ creds → ∃ s, su_vc su (wc_issued cr) s ∧ current su s ∧ fulfils (lb_engine lb) (id_constraints x0) s) →
     ∀ es o key st, runs (response lb rr) es o → as_in su es → rq_state rr = Some key →
       VGet key (Some st) ∈ es → (∀ k, VPurge k false ∉ es) → vs_request st = req → ∃ y, o = Ok y).
Proof. intros Hr. exact (one_descriptor c Hr lb su n i uri rr x). Qed.
Print Assumptions C88_one_descriptor_accepted_partial.

(** ** Both sides together *)

(** The verifier asks for [l]; the wallet finds [creds] for the first. *)
Definition asks_for (l : list input_descriptor) : vrequest :=
  VCreate (CreateRequestRequest "http://verifier" "To verify employment" l CrossDevice).
Definition request_of (l : list input_descriptor) : vp_request :=
  match store_after ∅ (c_log (vafter ex_stood (vserially [asks_for l]))) !! "uri1" with
  | Some st => vs_request st
  | None => HolderExample.ex_vprequest []
  end.
Definition wallet_for (l : list input_descriptor) (creds : list string) : hconfig :=
  HolderExample.hafter
    (HolderExample.HWorld IssuerExample.ex_issuer IssuerExample.ex_server (λ _ _, None)
       (map HolderExample.ex_wcredential creds) (request_of l) (λ _ _, Some (ResponseResponse None None)))
    (HolderExample.hserially [HRequest "request_uri"; HConsent "id1"; HPresent "id1"]).
(** What it signed and what it sent. *)
Definition signed_by (c : hconfig) : option vp_claims :=
  head (omap (λ en : entry HSig, match e_ev en with EExt (ESignVp q (Some _)) => Some q | _ => None end) (c_log c)).
Definition sent_by (c : hconfig) : response_request :=
  default (ResponseRequest None None None)
    (head (omap (λ en : entry HSig, match e_ev en with EExt (EPresent _ rr _) => Some rr | _ => None end) (c_log c))).
Definition decodes_for (c : hconfig) (jwt : string) : option signed_vp :=
  if bool_decide (jwt = "nonce3") then option_map (SignedVp "did:holder#key-1") (signed_by c) else None.
Definition around (c : hconfig) : surroundings :=
  Surroundings (λ j s, decodes_for c j = Some s) (λ j s, ex_decode_vc j = Some s) (λ t, t = seconds 9).
(** The verifier gets it. *)
Definition verifier_for (l : list input_descriptor) (c : hconfig) : vconfig :=
  vafter (VWorld (λ _, seconds 9) (decodes_for c)) (vserially [asks_for l; VResponse (sent_by c)]).

Lemma ex_finds_first : finds_first ex_engine.
Proof.
  intros m. simpl. change (ex_query "$.verifiableCredential[0]" (JObj m)) with
    (Some (follow [Member "verifiableCredential"; Index 0] (JObj m))). simpl.
  destruct (assoc "verifiableCredential" m) as [[| | | |[|]|]|]; reflexivity.
Qed.
Lemma wallet_reach l creds : hreach (wallet_for l creds).
Proof. unfold wallet_for. apply HolderExample.hafter_reach. Qed.
Lemma verifier_reach l c : reachable (vhandler ex_libs) ∅ (verifier_for l c).
Proof. unfold verifier_for. apply vafter_reach. Qed.

Definition employee : input_descriptor := ex_descriptor "employee".
Definition diploma : input_descriptor :=
  InputDescriptor "diploma" None None None (by_type "DiplomaCredential").

(** The wallets above sign once. *)
Lemma signed_once c q : signed_by c = Some q →
  omap (λ en : entry HSig, match e_ev en with EExt (ESignVp q (Some j)) => Some (q, j) | _ => None end) (c_log c)
    = [(q, "nonce3")] → verifies_as_signed c (around c).
Proof.
  intros Hs Hl n i claims jwt [eff Hm]. apply elem_of_list_lookup_2 in Hm.
  assert ((claims, jwt) ∈ [(q, "nonce3")]) as Hin.
  { rewrite <-Hl. apply elem_of_list_omap. by eexists. }
  apply elem_of_list_singleton in Hin. injection Hin as -> ->.
  exists (SignedVp "did:holder#key-1" q). split; [done|]. intros s'.
  unfold around, decodes_for. cbn [su_vp]. rewrite Hs. simpl. split; [by intros [= <-]|by intros ->].
Qed.

Definition as_decoded (c : hconfig) (e : vevent) : Prop :=
  match e with
  | EExt (WDecodeVp j r) => decodes_for c j = r
  | EExt (WDecodeVc j r) => ex_decode_vc j = r
  | EExt (WNow t) => t = seconds 9
  | _ => True
  end.
Lemma as_around c es : Forall (as_decoded c) es → as_in (around c) es.
Proof.
  intros H. repeat split; intros; match goal with H1 : _ ∈ es |- _ => apply (proj1 (Forall_forall _ _) H) in H1; simpl in * end; congruence.
Qed.

Example C88_example : let c := wallet_for [employee] ["vc"] in let su := around c in
  hreach c ∧ verifies_as_signed c su ∧ one_credential_per_token su ∧ finds_first (lb_engine ex_libs) ∧
  (∃ n uri x, made c n 2 (HX (EPresent uri (sent_by c) x))) ∧
  reachable (vhandler ex_libs) ∅ (verifier_for [employee] c) ∧
  (∃ y, answered (verifier_for [employee] c) 1 (VResponse (sent_by c)) (Ok y)) ∧
  let es := calls_of 1 (c_log (verifier_for [employee] c)) in
  as_in su es ∧ (∃ st, VGet "uri1" (Some st) ∈ es ∧ vs_request st = request_of [employee]) ∧
  ∀ k, VPurge k false ∉ es.
Proof.
  intros c su. split; [apply wallet_reach|]. split; [eapply signed_once; vm_compute; reflexivity|].
  split; [intros j s s' H1 H2; simpl in *; congruence|]. split; [exact ex_finds_first|].
  split; [eexists 16, _, _, true; vm_compute; reflexivity|]. split; [apply verifier_reach|].
  split; [eexists; vm_compute; reflexivity|]. intros es. split; [apply as_around; vm_compute; repeat constructor|]. split.
  - eexists. split; [apply elem_of_list_lookup; exists 0; vm_compute; reflexivity|]. vm_compute. reflexivity.
  - intros k Hin. vm_compute in Hin. repeat (apply elem_of_cons in Hin as [Hin|Hin]; [discriminate|]). by apply elem_of_nil in Hin.
Qed.

(** The wallet has found, and presents, a credential for each of two descriptors.  The
    response is refused: it points to the first credential for both. *)
Theorem C88_two_descriptors_refuted : ∃ (c : hconfig) (cv : vconfig) su n i uri rr x req d creds key st j e,
  hreach c ∧ reachable (vhandler ex_libs) ∅ cv ∧
  verifies_as_signed c su ∧ one_credential_per_token su ∧ finds_first (lb_engine ex_libs) ∧
  made c n i (HX (EPresent uri rr x)) ∧
  (∃ m k jwt, made c m k (HX (EDecodeRequest jwt (Some req)))) ∧
  (∃ m k f, made c m k (HX (EFind f (Some creds)))) ∧ vo_definition req = KObject d ∧
  (∀ y, y ∈ pd_input_descriptors d → ∃ cr s, cr ∈ creds ∧ su_vc su (wc_issued cr) s ∧ current su s ∧
     fulfils (lb_engine ex_libs) (id_constraints y) s ∧ ∀ fmt, id_format y = Some fmt → "jwt_vc_json" ∈ keys fmt) ∧
  rq_state rr = Some key ∧ answered cv j (VResponse rr) (Err e) ∧
  VGet key (Some st) ∈ calls_of j (c_log cv) ∧ vs_request st = req ∧
  as_in su (calls_of j (c_log cv)) ∧ ∀ k, VPurge k false ∉ calls_of j (c_log cv).
Proof.
  pose (c := wallet_for [employee; diploma] ["vc"; "diploma"]).
  eexists c, (verifier_for [employee; diploma] c), (around c), 16, 2, _, (sent_by c), _,
    (request_of [employee; diploma]), _, (map HolderExample.ex_wcredential ["vc"; "diploma"]), "uri1", _, 1, _.
  split; [apply wallet_reach|]. split; [apply verifier_reach|]. split; [eapply signed_once; vm_compute; reflexivity|].
  split; [intros j s s' H1 H2; simpl in *; congruence|]. split; [exact ex_finds_first|].
  split; [eexists true; vm_compute; reflexivity|].
  split; [eexists 3, 0, _, true; vm_compute; reflexivity|].
  split; [eexists 4, 0, _, true; vm_compute; reflexivity|].
  split; [vm_compute; reflexivity|].
  split.
  { intros y Hy. apply elem_of_cons in Hy as [->|Hy].
    - eexists (HolderExample.ex_wcredential "vc"), _. split; [by left|]. split; [vm_compute; reflexivity|].
      split; [intros ? [=]|]. split.
      + right. eexists. split; [vm_compute; reflexivity|]. apply satisfied_true. vm_compute. reflexivity.
      + intros fmt [= <-]. by left.
    - apply elem_of_cons in Hy as [->|Hy]; [|by apply elem_of_nil in Hy].
      eexists (HolderExample.ex_wcredential "diploma"), _. split; [by right; left|]. split; [vm_compute; reflexivity|].
      split; [intros ? [=]|]. split.
      + right. eexists. split; [vm_compute; reflexivity|]. apply satisfied_true. vm_compute. reflexivity.
      + intros fmt [=]. }
  split; [vm_compute; reflexivity|]. split; [vm_compute; reflexivity|].
  split; [apply elem_of_list_lookup; exists 0; vm_compute; reflexivity|].
  split; [vm_compute; reflexivity|].
  split.
  - apply as_around. vm_compute. repeat constructor.
  - intros k Hin. vm_compute in Hin. repeat (apply elem_of_cons in Hin as [Hin|Hin]; [discriminate|]). by apply elem_of_nil in Hin.
Qed.
Print Assumptions C88_two_descriptors_refuted.
