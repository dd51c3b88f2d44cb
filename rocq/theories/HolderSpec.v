(** Vocabulary for statements about the wallet. *)
From Verif Require Import Base Json CoreModel VcModel Prog ExecSpec Sha256 IssuerTypes MatcherModel VerifierModel HolderModel.

(** Calls of the wallet: the state store, and everything else. *)
Notation HGet k r := (@EGet HSig k r).
Notation HPut k v x b := (@EPut HSig k v x b).
Notation HPurge k b := (@EPurge HSig k b).
Notation HX e := (@EExt HSig e).
Notation hconfig := (config HSig hrequest (outcome string hreply)).
Notation hreach := (reachable hhandler ∅).

(** Wallet call [i] is [q]. *)
Definition asked (c : hconfig) (i : nat) (q : hrequest) : Prop :=
  ∃ p, c_pool c !! i = Some (q, p).
(** The [n]-th provider call is [e], made by wallet call [i]. *)
Definition made (c : hconfig) (n i : nat) (e : hevent) : Prop :=
  ∃ eff, c_log c !! n = Some (Entry i e eff).
(** The [n]-th provider call, made by wallet call [i], stored something under [k]. *)
Definition saved (c : hconfig) (n i : nat) (k : string) : Prop :=
  ∃ v x b, c_log c !! n = Some (Entry i (HPut k v x b) true).

(** Random identifiers do not repeat. *)
Definition uuid_of (en : entry HSig) : option string :=
  match e_ev en with EExt (EUuid s) => Some s | _ => None end.
Definition hfresh (log : list (entry HSig)) : Prop := NoDup (omap uuid_of log).

(** A call that changes the store and reports success. *)
Definition wrote (e : hevent) : bool :=
  match e with EPut _ _ _ b | EPurge _ b => b | _ => false end.

(** The credentials a call of [save] stored, in order. *)
Definition stored_credentials (es : list hevent) : list wcredential :=
  omap (λ e : hevent, match e with EExt (ESave c true) => Some c | _ => None end) es.

(** The identifiers of credentials asked for, in order, with the key proof sent along. *)
Definition identifiers_asked (es : list hevent) : list string :=
  omap (λ e : hevent, match e with
             | EExt (ECredential q _) => match cr_credential q with CIIdentifier id => Some id | _ => None end
             | _ => None
             end) es.

(** A credential response contains the credential with this encoding. *)
Definition contains_token (resp : wresponse) (token : string) : Prop :=
  match wr_response resp with
  | WRCredential k => k = KString token
  | WRCredentials l => KString token ∈ l
  | WRTransactionId _ => False
  end.

(** What the details of a token or authorization request ask for, compared with what was
    passed to [accept]: one detail for each specification, in order; claims exactly when the
    specification has some. *)
Definition asks_as_specified (accept : option (list auth_spec)) (details : option (list authorization_detail))
  : Prop :=
  match accept, details with
  | None, None => True
  | Some l, Some ds =>
      Forall2 (λ s d, ∃ claims, ad_credential d = ByConfigurationId (as_configuration_id s) claims ∧
                 match as_claims s, claims with
                 | None, None => True
                 | Some c, Some p => profile_claims_claims p = Some c
                 | _, _ => False
                 end) l ds
  | _, _ => False
  end.

(** The configuration a detail asks for. *)
Definition detail_id (d : authorization_detail) : option string :=
  match ad_credential d with ByConfigurationId id _ => Some id | ByFormat _ => None end.

(** Text with a UTF-8 character boundary after [n] bytes: the next byte, if any, is not of the form
    [10xxxxxx].  (Bytes list their bits from the lowest.) *)
Definition boundary (n : nat) (s : string) : Prop :=
  ∃ a b, s = a +:+ b ∧ String.length a = n ∧
    ∀ b0 b1 b2 b3 b4 b5 r, b ≠ String (Ascii.Ascii b0 b1 b2 b3 b4 b5 false true) r.

(** The answers a call of [credentials] received, and the credentials in an answer. *)
Definition responses (es : list hevent) : list wresponse :=
  omap (λ e : hevent, match e with EExt (ECredential _ (Some r)) => Some r | _ => None end) es.
Definition credentials_in (r : wresponse) : list (kind vc) :=
  match wr_response r with WRCredential k => [k] | WRCredentials l => l | WRTransactionId _ => [] end.

(** The identifiers of what the token covers, restricted to the ones the caller wants. *)
Definition wanted_identifiers (r : credentials_request) (ds : list authorized_detail) : list string :=
  List.filter (λ id, match hc_identifiers r with Some l => contains l id | None => true end)
    (concat (map atd_identifiers ds)).

(** Every call ends before the next one starts. *)
Definition one_at_a_time (log : list (entry HSig)) : Prop :=
  ∀ i j, i ≠ j → before log i j ∨ before log j i.

(** Before the [n]-th provider call: an offer was received and stored as issuance [id], with
    issuer metadata [md] fetched for it; later, by the call at [n2], it was accepted. *)
Definition offer_accepted (c : hconfig) (n : nat) (id cl sb : string) (o : credential_offer) (md : issuer)
    (a : option (list auth_spec)) (n2 : nat) : Prop :=
  ∃ n1 i1 i2, n1 < n2 < n ∧ asked c i1 (HOffer cl sb o) ∧ saved c n1 i1 id ∧
    (∃ m, m < n1 ∧ made c m i1 (HX (EMetadata (of_credential_issuer o) (Some md)))) ∧
    asked c i2 (HAccept id a) ∧ saved c n2 i2 id.

(** Call [j] obtains the token of issuance [id]. *)
Definition token_call_for (c : hconfig) (j : nat) (id : string) : Prop :=
  asked c j (HToken id) ∨
  ∃ z, asked c j (HAuthorize z) ∧
    (hz_initiator z = ByIssuer id ∨
     (∃ cl iss sc sb, hz_initiator z = ByWallet cl iss sc sb) ∧ ∃ n, saved c n j id).

(** The details ask for credentials on offer only. *)
Definition on_offer (o : credential_offer) (details : option (list authorization_detail)) : Prop :=
  ∀ ds d, details = Some ds → d ∈ ds → ∃ id, detail_id d = Some id ∧ id ∈ of_configuration_ids o.

(** The steps that move a record on, and the record they are for. *)
Inductive wstep : Type := StAccept | StPin | StToken | StConsent.
Definition step_on (q : hrequest) : option (string * wstep) :=
  match q with
  | HAccept id _ => Some (id, StAccept)
  | HPin id _ => Some (id, StPin)
  | HToken id => Some (id, StToken)
  | HAuthorize z => match hz_initiator z with ByIssuer id => Some (id, StToken) | ByWallet _ _ _ _ => None end
  | HConsent id => Some (id, StConsent)
  | _ => None
  end.

(** Days from 1970 to the first of January of a year, by the Gregorian calendar; and the last
    nanosecond of the year 262142, the end of time for the chrono crate. *)
Definition days_to (y : Z) : Z :=
  (let f y := 365 * y + y `div` 4 - y `div` 100 + y `div` 400 in f (y - 1) - f 1969)%Z.
Definition end_of_time : Z := (seconds (days_to 262143 * 24 * 60 * 60) - 1)%Z.
