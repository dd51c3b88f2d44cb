(** The example wallet together with the wallet library it calls. *)
From Verif Require Import Base Json CoreModel VcModel Prog ExecSpec IssuerTypes MetaSerde MatcherModel VerifierModel HolderModel HolderSpec
  RecordSerde WalletModel WalletSpec.

(** examples/wallet/src-tauri/src/app/issuance.rs 31-111 and app/presentation.rs 26-50: the requests the app makes of the
    library; [CLIENT_ID] is at lib.rs 31 and [NORMAL_USER] at crates/test-utils/src/issuer.rs 16. *)
Definition hcall (l : lib_call) : hrequest :=
  match l with
  | LOffer o => HOffer "wallet" "normal_user" o
  | LAccept id => HAccept id None
  | LPin id pin => HPin id pin
  | LToken id => HToken id
  | LCredentials id => HCredentials (CredentialsRequest id None None)
  | LSave id => HSave id
  | LRequest t => HRequest t
  | LAuthorize id => HConsent id
  | LPresent id => HPresent id
  end.

(** The calls of the library in a session, in order. *)
Definition calls_in (e : command * list effect) : list lib_call :=
  omap (λ x, match x with Call l => Some l | _ => None end) e.2.
Definition all_calls (tr : list (command * list effect)) : list lib_call := concat (map calls_in tr).

(** The app passes on what the library answers.  (The library's model keeps less of the metadata of a credential than the
    model of the app: identifiers, issuers and the issued tokens are compared.) *)
Definition same_credential (k : kept_credential) (c : wcredential) : Prop :=
  kc_id k = wc_id c ∧ kc_issuer k = wc_issuer c ∧ kc_issued k = wc_issued c.
Definition same_request (r : request_answer) (x : request_response) : Prop :=
  ra_id r = hq_id x ∧ ra_status r = hq_status x ∧ Forall2 same_credential (ra_credentials r) (hq_credentials x).
Definition same_offer (r : offer_answer) (x : offer_response) : Prop :=
  oa_id r = or_issuance_id x ∧ oa_issuer r = or_issuer x ∧ oa_grants r = or_grants x ∧
  ∀ n, is_Some (oa_offered r !! n) ↔ is_Some (assoc n (or_offered x)).

(** The execution [c] of the library is that of the session [tr]: its calls are those of the session, made one after the
    other, and the answers the session took up are those the library gave. *)
Record drives (tr : list (command * list effect)) (c : hconfig) : Prop := Drives {
  dr_calls : (c_pool c).*1 = map hcall (all_calls tr);
  dr_serial : ∀ i j, i < j → before (c_log c) i j;
  dr_request : ∀ tr1 e tr2 r, tr = tr1 ++ e :: tr2 → request_taken e = Some r →
    ∃ t x, answered c (length (all_calls tr1)) (HRequest t) (Ok (HRRequest x)) ∧ same_request r x;
  dr_offer : ∀ tr1 e tr2 r, tr = tr1 ++ e :: tr2 → offer_taken e = Some r →
    ∃ o x, answered c (length (all_calls tr1)) (HOffer "wallet" "normal_user" o) (Ok (HROffer x)) ∧ same_offer r x;
}.
