(** C155 and C156: refusals as the wallet's clients see them, and the example verifier's service. *)
From Verif Require Import Base Json JsonParse JsonText CoreModel VcModel Prog ProgFacts ExecSpec ExecFacts Sched Sha256 IssuerTypes
  MatcherModel MatcherSpec MatcherFacts MatcherExample VerifierModel VerifierSpec VerifierFacts VerifierExec VerifierExample
  HolderModel HolderSpec HolderFacts HolderSteps SerdeSpec SerdeModel SerdeText VcSerde DifSerde DifSpec AnswerSerde MetaSerde MessageSerde
  ErrorSpec ErrorModel ErrorFacts WalletStepSpec ReplyModel.
From Verif Require HolderExample IssuerExample.

(** ** C155: a refusal is not taken for success *)

(** The body of a refusal (500) of the issuer or the verifier. *)
Definition refusal (e : error) : Z * string := (500%Z, json_text (error_json (error_of e))).
Lemma client_refusal {A} (d : json → option A) e : Forall plain (texts e) → client d (refusal e) = d (JObj (reported ser_int e)).
Proof.
  intros H. unfold client, refusal, read. cbn [snd]. rewrite issuer_error_json by done. rewrite parse_json_text; [done| |].
  - refine (proj1 (_ : fine 1 (JObj (reported ser_int e)))). destruct e; apply (fine_obj 0); fns; try apply fine_str; apply fine_int.
  - destruct e; apply Nat.ltb_lt; reflexivity.
Qed.
(** It is read as no answer of the issuer, and as no request object; *)
Theorem C155_noticed_partial cx e : Forall plain (texts e) →
  client de_token_response (refusal e) = None ∧ client (de_answer cx) (refusal e) = None ∧
  client de_issuer_metadata (refusal e) = None ∧ client de_server_answer (refusal e) = None ∧
  client de_object_response (refusal e) = None.
Proof. intros H. rewrite !client_refusal by done. by destruct e. Qed.
Print Assumptions C155_noticed_partial.
(** Refuted for presentations: every refusal is read as an acceptance, *)
Theorem C155_presentation_refuted e : Forall plain (texts e) →
  client de_response_response (refusal e) = Some (ResponseResponse None None).
Proof. intros H. rewrite client_refusal by done. by destruct e. Qed.
Print Assumptions C155_presentation_refuted.
(** and so the wallet reports a presentation that was refused as one that was made. *)
Theorem C155_reported_refuted id es o uri rr e : runs (h_present id) es o → Forall plain (texts e) →
  HX (EPresent uri rr (client de_response_response (refusal e))) ∈ es → o = Ok (ResponseResponse None None).
Proof.
  intros Hr He. rewrite C155_presentation_refuted by done. intros Hin.
  assert (wp (λ _ _, True) (λ es o, ∀ a, HX (EPresent uri rr (Some a)) ∈ es → o = Ok a) (h_present id) []) as Hw.
  2:{ exact (wp_runs _ _ _ _ _ _ Hw Hr _ Hin). }
  unfold h_present. hwp; try (intros ? ?; by inv_in).
  destruct (create_vp _ _ _ _); hwp; intros ? ?; by inv_in.
Qed.
Print Assumptions C155_reported_refuted.
(** The same for the requests a verifier's owner makes, and for notifications. *)
Theorem C155_others_refuted e : Forall plain (texts e) →
  client de_create_response (refusal e) = Some (CreateRequestResponse None None) ∧ client de_notified (refusal e) = Some ().
Proof. intros H. rewrite !client_refusal by done. by destruct e. Qed.
Print Assumptions C155_others_refuted.
(** A verifier refuses a presentation, and the wallet that sent it reports success. *)
Definition refused_wallet : hconfig :=
  HolderExample.hafter
    (HolderExample.HWorld IssuerExample.ex_issuer IssuerExample.ex_server (λ _ _, None)
       [HolderExample.ex_wcredential "vc"] (HolderExample.ex_vprequest [ex_descriptor "employee"])
       (λ _ _, client de_response_response (refusal (InvalidRequest "nonce does not match"))))
    (HolderExample.hserially [HRequest "request_uri"; HConsent "id1"; HPresent "id1"]).
Example C155_example :
  (∃ c, reachable (vhandler ex_libs) ∅ c ∧ answered c 1 (VResponse (ex_response [KString "old"])) (Err (InvalidRequest "nonce does not match"))) ∧
  answered refused_wallet 2 (HPresent "id1") (Ok (HRPresent (ResponseResponse None None))) ∧
  client de_token_response (refusal (InvalidGrant "invalid code")) = None ∧
  Forall plain (texts (InvalidRequest "nonce does not match")).
Proof.
  split.
  - exists (vafter vw0 (vserially [VCreate (ex_create_request CrossDevice); VResponse (ex_response [KString "old"])])).
    split; [apply vafter_reach|vm_compute; reflexivity].
  - split; [vm_compute; reflexivity|]. split; [vm_compute; reflexivity|]. by repeat constructor.
Qed.

(** ** C156: the example verifier's service *)

(** The execution [c] of the library is that of the service for the requests [ws]. *)
Definition serves (c : vconfig) (ws : list vweb) : Prop := (c_pool c).*1 = map vroute ws.
(** A request object is given out only on the host that it was asked for at, whatever client identifier was asked for; *)
Theorem C156_same_host lb c ws i host id x : reachable (vhandler lb) ∅ c → serves c ws →
  ws !! i = Some (GetRequest host id) → answered c i (vroute (GetRequest host id)) (Ok (VRObject x)) →
  ∃ j r st jwt, ws !! j = Some (PostCreate host r) ∧ vq_device_flow r = CrossDevice ∧
    (∃ q, created_by c j id q st ∧ vq_input_descriptors q = vq_input_descriptors r ∧ vq_purpose q = vq_purpose r) ∧
    x = RoJwt jwt ∧ Y (WSign ("http://" +:+ host) (vs_request st) (Some jwt)) ∈ calls_of i (c_log c).
Proof.
  intros Hr Hs _ Ha. destruct (request_object_source lb c i _ x Hr Ha) as (j & q & st & jwt & Hc & Hq & Hf & Hx & Hy).
  destruct Hc as [[p Hp] Hc]. assert ((c_pool c).*1 !! j = Some (VCreate q)) as Hj by (by rewrite list_lookup_fmap, Hp).
  unfold serves in Hs. rewrite Hs, list_lookup_fmap in Hj. destruct (ws !! j) as [[h r| |]|] eqn:Hw; try discriminate Hj.
  injection Hj as <-. cbn in Hq, Hf. apply (inj (String.append "http://")) in Hq as ->.
  exists j, r, st, jwt. split; [done|]. split; [done|]. split; [|by split]. eexists. split; [split; [by eexists|exact Hc]|]. done.
Qed.
Print Assumptions C156_same_host.
(** the address it hands out is on that host, and there the request is found as long as the store has it; *)
Theorem C156_address lb c ws i host r x u : reachable (vhandler lb) ∅ c → serves c ws →
  ws !! i = Some (PostCreate host r) → answered c i (vroute (PostCreate host r)) (Ok (VRCreate x)) → vr_request_uri x = Some u →
  ∃ id st t, u = "http://" +:+ host +:+ "/request/" +:+ id ∧ VPut id st t true ∈ calls_of i (c_log c) ∧
    ∀ es o, runs (vhandler lb (vroute (GetRequest host id))) es o → (∀ st', VGet id (Some st') ∈ es → st' = st) →
      (∀ e, e ∈ es → ¬ vfailed e) → ∃ jwt, o = Ok (VRObject (RoJwt jwt)) ∧ Y (WSign ("http://" +:+ host) (vs_request st) (Some jwt)) ∈ es.
Proof.
  intros Hr _ _ Ha Hu. pose proof (answered_runs lb c Hr _ _ _ Ha) as Hp. apply vhandler_any in Hp as (o' & Hp & Ho').
  destruct o' as [y| |]; [|done..]. injection Ho' as <-.
  apply create_request_saved in Hp as (token & nonce & def_id & meta & t & obj & _ & _ & _ & _ & _ & Hask & Hh & Hput & _).
  unfold handed_over in Hh. unfold asks in Hask. cbn [vroute vq_device_flow vq_client_id] in Hh, Hask.
  destruct (vq_device_flow r); subst x; cbn in Hu; [|done]. injection Hu as <-.
  eexists token, _, _. split; [done|]. split; [exact Hput|]. intros es o Hrun Hst Hnf. apply vhandler_any in Hrun as (o' & Hrun & Ho).
  destruct Hask as (_ & _ & _ & _ & _ & _ & _ & _ & Hcl & _).
  destruct (proj2 (request_object_iff _ _ _ Hrun)) as [y ->].
  { split; [|done]. intros st' Hg. cbn [or_id] in Hg. rewrite (Hst st' Hg). exact Hcl. }
  destruct (request_object_given _ _ _ Hrun) as (st' & jwt & Hg & _ & Hy & ->). rewrite (Hst st' Hg) in Hy. exists jwt. split; [done|exact Hy].
Qed.
Print Assumptions C156_address.
(** the wallet's client reads the token in the answer; *)
Theorem C156_token_read jwt : ∃ a, vanswer (Ok (VRObject (RoJwt jwt))) = Some a ∧ a.1 = 200%Z ∧ client de_object_response a = Some (RoJwt jwt).
Proof.
  eexists. split; [reflexivity|]. split; [done|]. unfold client, read, write. cbn [snd ser_vreply ser_object_response].
  rewrite parse_json_text; [done|exact I|apply Nat.ltb_lt; reflexivity].
Qed.
Print Assumptions C156_token_read.
(** and there is an answer unless a handler panics: it is 200 exactly when the library went through. *)
Theorem C156_status o : (∀ w, o ≠ Panic w) → ∃ a, vanswer o = Some a ∧ (a.1 = 200%Z ↔ ∃ r, o = Ok r).
Proof.
  destruct o as [r|e|w]; intros H; [..|by destruct (H w)]; eexists; (split; [reflexivity|]); simpl; [|]; split; eauto; try done.
  by intros [r Hr].
Qed.
Print Assumptions C156_status.
(** Refuted: what the client did wrong is answered with a status of the 400s. *)
Theorem C156_client_errors_refuted o a : vanswer o = Some a → ¬ (400 ≤ a.1 < 500)%Z.
Proof. destruct o as [r|e|w]; intros [= <-]; simpl; lia. Qed.
Print Assumptions C156_client_errors_refuted.
Module Ex.
  Definition ws : list vweb :=
    [PostCreate "verifier" (CreateRequestRequest "http://elsewhere" (vq_purpose (ex_create_request CrossDevice))
       (vq_input_descriptors (ex_create_request CrossDevice)) CrossDevice);
     GetRequest "verifier" "uri1"; GetRequest "elsewhere" "uri1"].
End Ex.
Example C156_example : ∃ c x jwt e, reachable (vhandler ex_libs) ∅ c ∧ serves c Ex.ws ∧
  answered c 0 (vroute (PostCreate "verifier" (ex_create_request CrossDevice))) (Ok (VRCreate x)) ∧
  vr_request_uri x = Some "http://verifier/request/uri1" ∧
  answered c 1 (vroute (GetRequest "verifier" "uri1")) (Ok (VRObject (RoJwt jwt))) ∧
  answered c 2 (vroute (GetRequest "elsewhere" "uri1")) (Err e) ∧
  ∃ b, vanswer (Err e) = Some (500%Z, b).
Proof.
  exists (vafter vw0 (vserially (map vroute Ex.ws))). eexists _, _, _. split; [apply vafter_reach|].
  split; [vm_compute; reflexivity|]. split; [vm_compute; reflexivity|]. split; [reflexivity|].
  split; [vm_compute; reflexivity|]. split; [vm_compute; reflexivity|]. by eexists.
Qed.
