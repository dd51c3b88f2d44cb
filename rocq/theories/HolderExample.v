(** A concrete world for the wallet, used for examples and as witnesses of refutations.  The
    issuer in it is the model of the issuer: its answers are computed by running it on the
    requests the wallet has made so far. *)
From stdpp Require Import pretty.
From Verif Require Import Base Json CoreModel VcModel Prog ProgFacts ExecSpec Sched Sha256 IssuerTypes
  IssuerModel MatcherModel VerifierModel HolderModel HolderSpec ComposeSpec.
From Verif Require IssuerExample VerifierExample MatcherExample.
Import IssuerExample.

Record hworld : Type := HWorld {
  hw_metadata : issuer;
  hw_server : server;
  hw_issuer : list (entry HSig) → irequest → option ireply;
  hw_found : list wcredential;
  hw_request : vp_request;
  hw_present : list (entry HSig) → response_request → option response_response;
}.

(** Every random value is new; a proof JWT is its own nonce, as for the issuer; the JWT of a
    presentation is its nonce; every credential verifies. *)
Definition hex_orc (w : hworld) (log : list (entry HSig)) (who : nat) (x : hcall) : hans x :=
  let n := length log in
  match x with
  | ZUuid => "id" +:+ pretty n
  | ZVerifier => ex_verifier
  | ZNow => seconds (Z.of_nat n)
  | ZMetadata _ => Some (hw_metadata w)
  | ZServer _ => Some (hw_server w)
  | ZAuthorization r => match hw_issuer w log (QAuthorize (ARObject r)) with Some (RAuthorize x) => Some x | _ => None end
  | ZToken r => match hw_issuer w log (QToken r) with Some (RToken x) => Some x | _ => None end
  | ZCredential r => match hw_issuer w log (QCredential r) with Some (RCredential x) => Some (to_wallet x) | _ => None end
  | ZDeferred r => match hw_issuer w log (QDeferred r) with Some (RDeferred x) => Some (to_wallet x) | _ => None end
  | ZNotify _ _ => true
  | ZLogo _ => Some "logo"
  | ZSignProof c => pc_nonce c
  | ZVerifyVc jwt => Some (VerifierExample.ex_vc "did:holder" None, 0%Z)
  | ZSave _ => true
  | ZFind _ => Some (hw_found w)
  | ZDecodeUrl u => Some u
  | ZParseRequest _ => Some (hw_request w)
  | ZRequestObject _ => Some (RoJwt "request")
  | ZDecodeRequest _ => Some (hw_request w)
  | ZKid => "did:holder#key-1"
  | ZSignVp c => Some (vpc_nonce c)
  | ZPresent _ r => hw_present w log r
  end.

Definition hafter (w : hworld) (l : list (act (Q := hrequest))) : hconfig :=
  default (Config [] []) (exec hhandler ∅ (hex_orc w) l (Config [] [])).
Lemma hafter_reach w l : hreach (hafter w l).
Proof.
  unfold hafter. destruct (exec _ _ _ _ _) as [c|] eqn:E; simpl; [|apply reach_init].
  eapply exec_reachable; [apply reach_init|exact E].
Qed.
Definition hserially (l : list hrequest) : list (act (Q := hrequest)) :=
  concat (imap (λ i q, [Arrive q; Finish i 60]) l).
Definition hsolo {A} (w : hworld) (st : gmap string hstate) (p : hprog A)
  : option (outcome string A * list hevent) :=
  match @run HSig _ 60 st (λ es, hex_orc w (map (λ e, Entry 0 e true) es) 0) [] p with
  | Some (o, _, es) => Some (o, es)
  | None => None
  end.
Lemma hsolo_runs {A} w st (p : hprog A) o es : hsolo w st p = Some (o, es) → runs p es o.
Proof.
  unfold hsolo. destruct (run _ _ _ _ _) as [[[o' st'] es']|] eqn:E; [|done].
  intros [= <- <-]. apply run_runs in E as (es2 & -> & H). done.
Qed.
Definition hfreshb (log : list (entry HSig)) : bool := bool_decide (NoDup (omap uuid_of log)).
Lemma hfreshb_hfresh log : hfreshb log = true → hfresh log.
Proof. apply bool_decide_eq_true. Qed.

(** The calls of a log with these callers are made one after the other. *)
Fixpoint sortedb (l : list nat) : bool :=
  match l with
  | x :: ((y :: _) as r) => Nat.leb x y && sortedb r
  | _ => true
  end.
Lemma sortedb_le l a b x y : sortedb l = true → l !! a = Some x → l !! b = Some y → a ≤ b → x ≤ y.
Proof.
  revert a b x. induction l as [|z l IH]; intros a b x Hs Ha Hb Hab; [done|].
  assert (sortedb l = true) as Hl. { destruct l; [done|]. simpl in Hs. by apply andb_true_iff in Hs as [_ ?]. }
  destruct b as [|b]; [destruct a; [simpl in *; simplify_eq; lia|lia]|]. destruct a as [|a].
  - simpl in *. injection Ha as ->. destruct l as [|w l]; [done|].
    apply andb_true_iff in Hs as [Hz _]. apply Nat.leb_le in Hz.
    assert (w ≤ y) by (apply (IH 0 b w); [done|done|done|lia]). lia.
  - simpl in *. apply (IH a b x); [done|done|done|lia].
Qed.
Lemma sorted_one_at_a_time (log : list (entry HSig)) : sortedb (map e_who log) = true → one_at_a_time log.
Proof.
  intros Hs i j Hij.
  assert (∀ a b ea eb, log !! a = Some ea → log !! b = Some eb → e_who ea < e_who eb → a < b) as H.
  { intros a b ea eb Ha Hb Hlt. destruct (decide (a < b)) as [?|Hge]; [done|].
    assert (e_who eb ≤ e_who ea); [|lia].
    apply (sortedb_le (map e_who log) b a); [done| | |lia]; rewrite list_lookup_fmap; [by rewrite Hb|by rewrite Ha]. }
  destruct (decide (i < j)) as [Hlt|Hge]; [left|right]; intros a b ea eb Ha Hb <- <-; eapply H; try done; lia.
Qed.

(** ** The issuer on the other side *)

(** The requests the wallet has made. *)
Definition asked_of_issuer (e : hevent) : option irequest :=
  match e with
  | EExt (EAuthorization q _) => Some (QAuthorize (ARObject q))
  | EExt (EToken q _) => Some (QToken q)
  | EExt (ECredential q _) => Some (QCredential q)
  | EExt (EDeferred q _) => Some (QDeferred q)
  | _ => None
  end.
Definition issuer_after (w : world) (first : list irequest) (log : list (entry HSig)) (more : list irequest)
  : iconfig :=
  after w (serially (first ++ omap (λ en, asked_of_issuer (e_ev en)) log ++ more)).
Definition issuer_answers (w : world) (first : list irequest) (log : list (entry HSig)) (q : irequest)
  : option ireply :=
  match last (c_pool (issuer_after w first log [q])) with
  | Some (_, Ret (Ok r)) => Some r
  | _ => None
  end.

(** The offer created by the issuer's first call. *)
Definition ex_creates (tx : bool) (ids : list string) : irequest :=
  QCreateOffer (CreateOfferRequest ex_iss (Some ex_subject) ids (Some [PreAuthorizedCode; AuthorizationCode]) tx ByVal).
Definition ex_offer (tx : bool) (ids : list string) : credential_offer :=
  match c_pool (after w0 (serially [ex_creates tx ids])) with
  | [(_, Ret (Ok (RCreateOffer r)))] =>
      match cor_offer r with OfferObject o => o | _ => CredentialOffer "" [] None end
  | _ => CredentialOffer "" [] None
  end.

(** ** The verifier on the other side *)
Definition ex_consts : list input_descriptor := [VerifierExample.ex_descriptor "employee"].
Definition ex_vprequest (l : list input_descriptor) : vp_request :=
  VpRequest VpToken "http://verifier" None (Some "direct_post") (Some "http://verifier/post") None "nonce3"
    (Some "uri1") (KObject (PresentationDefinition "def0" l None None None)) None JNull.
Definition ex_wcredential (token : string) : wcredential :=
  WCredential "cred1" "did:issuer" (VerifierExample.ex_vc "did:holder" None) token 0%Z None None.

Definition hw0 : hworld :=
  HWorld ex_issuer ex_server (issuer_answers w0 [ex_creates true ["EmployeeID_JWT"; "Developer_JWT"]])
    [ex_wcredential "vc"] (ex_vprequest ex_consts) (λ _ _, Some (ResponseResponse None None)).
