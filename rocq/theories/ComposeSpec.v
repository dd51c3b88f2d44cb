(** Vocabulary for statements about the wallet and the issuer together. *)
From Verif Require Import Base Json CoreModel VcModel Prog ExecSpec IssuerTypes IssuerModel IssuerSpec
  MatcherModel VerifierModel HolderModel HolderSpec.

Notation iconfig := (config ISig irequest (outcome error ireply)).
Notation ireach := (reachable ihandler ∅).

(** A credential response as the wallet sees it: the wallet knows responses with several
    credentials, the issuer makes none (vercre-issuer/src/credential.rs 186-345). *)
Definition to_wallet (r : credential_response) : wresponse :=
  WResponse (match crs_response r with CRCredential k => WRCredential k | CRTransactionId t => WRTransactionId t end)
    (crs_c_nonce r) (crs_c_nonce_expires_in r) (crs_notification_id r).

(** The wallet got an answer from the issuer. *)
Definition from_issuer (e : hevent) : bool :=
  match e with
  | EExt (EAuthorization _ (Some _)) | EExt (EToken _ (Some _))
  | EExt (ECredential _ (Some _)) | EExt (EDeferred _ (Some _)) => true
  | _ => false
  end.
(** The answer is that of the issuer to the request [q], which it answered with [r]. *)
Definition delivered (q : irequest) (r : ireply) (e : hevent) : Prop :=
  match e, r with
  | EExt (EAuthorization req (Some a)), RAuthorize x => q = QAuthorize (ARObject req) ∧ a = x
  | EExt (EToken req (Some a)), RToken x => q = QToken req ∧ a = x
  | EExt (ECredential req (Some a)), RCredential x => q = QCredential req ∧ a = to_wallet x
  | EExt (EDeferred req (Some a)), RDeferred x => q = QDeferred req ∧ a = to_wallet x
  | _, _ => False
  end.

(** The wallet [c] talks to the issuer [ci]: the answer it gets at position [n] is the one the
    issuer gave to the call [f n].  A wallet call sends a request once the one before it is
    answered.  The issuer may have other clients, and requests or answers may be lost. *)
Record coupled (c : hconfig) (ci : iconfig) (f : nat → nat) : Prop := {
  cp_answer n i e : made c n i e → from_issuer e = true →
    ∃ q r, answered ci (f n) q (Ok r) ∧ delivered q r e;
  cp_order a b i ea eb : a < b → made c a i ea → made c b i eb →
    from_issuer ea = true → from_issuer eb = true → before (c_log ci) (f a) (f b);
}.

(** The same when the two may take from what the other sends them other authorization details, or
    another format of the credential, than the other put in. *)
Definition same_token_request (r r' : token_request) : Prop :=
  tr_credential_issuer r' = tr_credential_issuer r ∧ tr_client_id r' = tr_client_id r ∧ tr_grant r' = tr_grant r.
Definition delivered_but_details (q : irequest) (r : ireply) (e : hevent) : Prop :=
  match e, r with
  | EExt (EAuthorization req (Some a)), RAuthorize x => (∃ req', q = QAuthorize (ARObject req') ∧ ro_subject_id req' = ro_subject_id req) ∧ a = x
  | EExt (EToken req (Some a)), RToken x => (∃ req', q = QToken req' ∧ same_token_request req req') ∧
      trs_access_token a = trs_access_token x ∧ trs_c_nonce a = trs_c_nonce x
  | EExt (ECredential req (Some a)), RCredential x =>
      (∃ req', q = QCredential req' ∧ cr_access_token req' = cr_access_token req ∧ cr_proof req' = cr_proof req) ∧ a = to_wallet x
  | _, _ => delivered q r e
  end.
Record coupled_but_details (c : hconfig) (ci : iconfig) (f : nat → nat) : Prop := {
  cd_answer n i e : made c n i e → from_issuer e = true →
    ∃ q r, answered ci (f n) q (Ok r) ∧ delivered_but_details q r e;
  cd_order a b i ea eb : a < b → made c a i ea → made c b i eb →
    from_issuer ea = true → from_issuer eb = true → before (c_log ci) (f a) (f b);
}.

(** Every credential the issuer knows of needs a proof of possession. *)
Definition proofs_needed (ci : iconfig) : Prop :=
  ∀ i s iss id cfg, X (VIssuer s (Some iss)) ∈ calls_of i (c_log ci) → (id, cfg) ∈ is_configurations iss →
    cc_proof_types cfg ≠ None.
(** What a JWT says does not depend on when it is decoded. *)
Definition decodes_one_way (ci : iconfig) : Prop :=
  ∀ i j jwt p p', X (VDecodeProof jwt (Some p)) ∈ calls_of i (c_log ci) →
    X (VDecodeProof jwt (Some p')) ∈ calls_of j (c_log ci) → p = p'.

(** ** Whose data *)

(** The code of the token request [r] was made by a call that was authorized to give [subject]
    the credential [id]: by the offer made for the subject, when the code is pre-authorized, and
    by the authorization of the subject otherwise. *)
Definition granted_to {R} (c : config ISig irequest R) (r : token_request) (subject id : string) : Prop :=
  ∃ k q p cfg ids, c_pool c !! k = Some (q, p) ∧ X (VGen GAuthCode (presented r)) ∈ calls_of k (c_log c) ∧
    X (VAuthorize subject cfg (Some ids)) ∈ calls_of k (c_log c) ∧ id ∈ ids ∧
    match tr_grant r, q with
    | TGPreAuthorizedCode _ _, QCreateOffer o => co_subject_id o = Some subject ∧ cfg ∈ co_configuration_ids o
    | TGAuthorizationCode _ _ _, QAuthorize a => ∃ ro, asked_by c a ro ∧ ro_subject_id ro = subject
    | _, _ => False
    end.

(** The access token sent with a request. *)
Definition bearer (q : irequest) : option string :=
  match q with
  | QCredential r => Some (cr_access_token r)
  | QDeferred r => Some (dr_access_token r)
  | _ => None
  end.

(** The issuer's call [k] signed [jwt], a credential or a mobile document made of the data
    [claims] (or some of them). *)
Definition signed_from {R} (c : config ISig irequest R) (k : nat) (jwt : string) (claims : list (string * json)) : Prop :=
  ∃ l, (∀ p, p ∈ l → p ∈ claims) ∧
    ((∃ signer v did, X (VSignVc signer v (Some jwt)) ∈ calls_of k (c_log c) ∧
        vc_subject (vcc_vc v) = QOne (CredentialSubject (Some did) l)) ∨
     (∃ signer, X (VSignMdl signer l (Some jwt)) ∈ calls_of k (c_log c))).
