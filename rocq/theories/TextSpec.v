(** The wallet and the issuer talking in JSON. *)
From Verif Require Import Base Json JsonParse CoreModel VcModel Prog ExecSpec IssuerTypes IssuerModel IssuerSpec MatcherModel VerifierModel
  HolderModel HolderSpec ComposeSpec SerdeSpec SerdeModel SerdeProps AnswerSerde SentSpec.

(** The wallet writes its request as JSON text, the issuer reads it, and answers it as [q] with [r];
    it writes [r] as JSON text and this is what the wallet reads. *)
Definition delivered_as_text (cx : codecs) (q : irequest) (r : ireply) (e : hevent) : Prop :=
  match e, r with
  | EExt (EAuthorization req (Some a)), RAuthorize x => ∃ strict ar,
      read (de_authorization_request strict) (write ser_authorization_request (ARObject req)) = Some ar ∧ q = QAuthorize ar ∧
      read de_authorization_response (write ser_authorization_response x) = Some a
  | EExt (EToken req (Some a)), RToken x => ∃ tr,
      read de_token_request (write ser_token_request req) = Some tr ∧ q = QToken tr ∧
      read de_token_response (write ser_token_response x) = Some a
  | EExt (ECredential req (Some a)), RCredential x => ∃ cr,
      read de_credential_request (write ser_credential_request req) = Some cr ∧ q = QCredential cr ∧
      read (de_answer cx) (write (ser_answer cx) (to_wallet x)) = Some a
  | EExt (EDeferred req (Some a)), RDeferred x => ∃ dr,
      read de_deferred_request (write ser_deferred_request req) = Some dr ∧ q = QDeferred dr ∧
      read (de_answer cx) (write (ser_answer cx) (to_wallet x)) = Some a
  | _, _ => False
  end.

(** As [coupled] of ComposeSpec.v, but all that goes between the two goes as text. *)
Record coupled_by_text (cx : codecs) (c : hconfig) (ci : iconfig) (f : nat → nat) : Prop := {
  ct_answer n i e : made c n i e → from_issuer e = true →
    ∃ q r, answered ci (f n) q (Ok r) ∧ delivered_as_text cx q r e;
  ct_order a b i ea eb : a < b → made c a i ea → made c b i eb →
    from_issuer ea = true → from_issuer eb = true → before (c_log ci) (f a) (f b);
}.

(** What the issuer is sent, by this wallet and by others, was read from JSON. *)
Definition issuer_supplied (n : nat) (ci : iconfig) : Prop :=
  ∀ i q p, c_pool ci !! i = Some (q, p) → was_read q ∧ ∀ l, l ∈ request_claims q → claims_depth l ≤ n.
(** The wallet asks for no claims of SD-JWT credentials. *)
Definition no_sd_jwt_requests (c : hconfig) : Prop :=
  ∀ m i e, made c m i e →
    match e with
    | EExt (EAuthorization req _) => no_sd_jwt_claims (ro_authorization_details req)
    | EExt (EToken tr _) => no_sd_jwt_claims (tr_authorization_details tr)
    | _ => True
    end.
(** The lifetimes of nonces the issuer gives fit their type. *)
Definition lifetimes_fit (ci : iconfig) : Prop :=
  ∀ i q r resp z, answered ci i q (Ok r) → r = RCredential resp ∨ r = RDeferred resp → crs_c_nonce_expires_in resp = Some z → fits 64 z.
