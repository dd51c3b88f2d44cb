(** What the verifier's properties say, in terms of requests, provider answers and the
    store. *)
From Verif Require Import Base Json CoreModel VcModel Prog ExecSpec IssuerTypes MatcherModel
  MatcherSpec VerifierModel.

Notation Y e := (@EExt VSig e).
Notation VGet := (@EGet VSig).
Notation VPut := (@EPut VSig).
Notation VPurge := (@EPurge VSig).

(** ** Generated values *)

Definition vgenerated (en : entry VSig) : option string :=
  match e_ev en with EExt (WGen _ s) => Some s | _ => None end.
(** No generated token, nonce or identifier occurs twice in the execution. *)
Definition vfresh (log : list (entry VSig)) : Prop := NoDup (omap vgenerated log).

(** ** Signatures and clock

    Which tokens are properly signed, by which key and with which content, and what the
    clock may show. *)
Record surroundings : Type := Surroundings {
  su_vp : string → signed_vp → Prop;
  su_vc : string → signed_vc → Prop;
  su_clock : Z → Prop;
}.

(** What one request got to see in its calls [es]. *)
Definition seen (es : list vevent) : surroundings :=
  Surroundings (λ jwt s, Y (WDecodeVp jwt (Some s)) ∈ es) (λ jwt s, Y (WDecodeVc jwt (Some s)) ∈ es)
    (λ t, Y (WNow t) ∈ es).

(** In the calls [es] tokens decoded, and the clock stood, as in [su]. *)
Definition as_in (su : surroundings) (es : list vevent) : Prop :=
  (∀ jwt r, Y (WDecodeVp jwt r) ∈ es → ∀ s, su_vp su jwt s ↔ r = Some s) ∧
  (∀ jwt r, Y (WDecodeVc jwt r) ∈ es → ∀ s, su_vc su jwt s ↔ r = Some s) ∧
  (∀ t, Y (WNow t) ∈ es → ∀ t', su_clock su t' ↔ t' = t).

(** ** Presentations *)

(** [v], as sent by the wallet, is presentation [p] answering [nonce]: either a signed
    token, or an object with one embedded proof. *)
Definition presents (su : surroundings) (nonce : string) (v : kind vp) (p : vp) : Prop :=
  match v with
  | KString jwt => ∃ s, su_vp su jwt s ∧ vpc_vp (sp_claims s) = p ∧ vpc_nonce (sp_claims s) = nonce
  | KObject v => v = p ∧ ∃ pr, vp_proof v = Some (QOne pr) ∧ default "" (ip_challenge pr) = nonce
  end.

(** What the paths of a submission refer to: the presentation, if there is one, or the
    list of them. *)
Definition document (lb : libs) (vps : list vp) (doc : json) : Prop :=
  (∃ v, vps = [v] ∧ doc = vp_json lb v) ∨ length vps ≠ 1 ∧ doc = JArr (map (vp_json lb) vps).

(** The first mapping for the descriptor. *)
Definition mapped (l : list descriptor_map) (d : input_descriptor) (m : descriptor_map) : Prop :=
  ∃ l1 l2, l = l1 ++ m :: l2 ∧ dm_id m = id_id d ∧ ∀ m', m' ∈ l1 → dm_id m' ≠ id_id d.

(** The credential meets the constraints, and evaluating them runs into nothing that is
    not implemented (see C52). *)
Definition fulfils (eng : engine) (c : constraints) (s : signed_vc) : Prop :=
  cn_fields c = None ∨
  ∃ j, sv_json s = Some j ∧ meets eng c j ∧ ∀ fs f, cn_fields c = Some fs → f ∈ fs → ¬ stuck eng f j.

(** The credential is not past its validity. *)
Definition current (su : surroundings) (s : signed_vc) : Prop :=
  ∀ exp, vc_valid_until (vcc_vc (sv_claims s)) = Some exp → ∃ now, su_clock su now ∧ (now ≤ exp)%Z.

(** The descriptor is answered: its mapping names an accepted format and a path to exactly
    one node of the document, the token of a credential [s] that fulfils the constraints
    and is still valid. *)
Definition answers (lb : libs) (su : surroundings) (doc : json) (subm : presentation_submission)
    (d : input_descriptor) (token : string) (s : signed_vc) : Prop :=
  ∃ m, mapped (pb_descriptor_map subm) d m ∧
    (∀ fmt, id_format d = Some fmt → pn_format (dm_nested m) ∈ keys fmt) ∧
    en_query (lb_engine lb) (pn_path (dm_nested m)) doc = Some [JStr token] ∧
    su_vc su token s ∧ fulfils (lb_engine lb) (id_constraints d) s ∧ current su s.

(** The response is an answer to the stored request. *)
Definition acceptable (lb : libs) (su : surroundings) (req : vp_request) (r : response_request)
  : Prop :=
  ∃ l vps doc subm def,
    rq_vp_token r = Some l ∧ Forall2 (presents su (vo_nonce req)) l vps ∧ document lb vps doc ∧
    rq_submission r = Some subm ∧ vo_definition req = KObject def ∧
    pb_definition_id subm = pd_id def ∧
    ∀ d, d ∈ pd_input_descriptors def → ∃ token s, answers lb su doc subm d token s.

(** ** Paths

    A JSONPath engine selects parts of the document it is given. *)
Fixpoint part (j doc : json) {struct doc} : Prop :=
  j = doc ∨
  match doc with
  | JArr l => (fix go l := match l with [] => False | x :: r => part j x ∨ go r end) l
  | JObj m => (fix go (m : list (string * json)) :=
                 match m with [] => False | (_, x) :: r => part j x ∨ go r end) m
  | _ => False
  end.
Definition selects_parts (eng : engine) : Prop :=
  ∀ p doc ns j, en_query eng p doc = Some ns → j ∈ ns → part j doc.

(** ** Requests *)

(** A call that went wrong. *)
Definition vfailed (e : vevent) : Prop :=
  match e with
  | EGet _ None => True
  | EPut _ _ _ false => True
  | EPurge _ false => True
  | EExt (WVerifier _ None) => True
  | EExt (WSigner _ false) => True
  | EExt (WSign _ _ None) => True
  | _ => False
  end.

(** [o] is the authorization request asked for by [r], identified by [token] and [nonce]. *)
Definition asks (r : create_request_request) (token nonce def_id : string) (meta : json) (o : vp_request)
  : Prop :=
  vo_response_type o = VpToken ∧ vo_nonce o = nonce ∧ vo_state o = Some token ∧
  vo_client_metadata o = meta ∧ vo_client_id_scheme o = Some SchemeRedirectUri ∧
  vo_redirect_uri o = None ∧ vo_scope o = None ∧
  (∃ def, vo_definition o = KObject def ∧ pd_id def = def_id ∧
     pd_input_descriptors def = vq_input_descriptors r ∧ pd_purpose def = Some (vq_purpose r) ∧
     pd_name def = None ∧ pd_format def = Some [("jwt_vc", ClaimFormat (Some ["EdDSA"]) None)]) ∧
  match vq_device_flow r with
  | CrossDevice =>
      vo_client_id o = vq_client_id r +:+ "/post" ∧ vo_response_mode o = Some "direct_post" ∧
      vo_response_uri o = Some (vq_client_id r +:+ "/post")
  | SameDevice =>
      vo_client_id o = vq_client_id r +:+ "/callback" ∧ vo_response_mode o = None ∧
      vo_response_uri o = None
  end.

(** How the wallet gets it: by value on the same device, by reference across devices. *)
Definition handed_over (r : create_request_request) (token : string) (o : vp_request)
    (resp : create_request_response) : Prop :=
  match vq_device_flow r with
  | SameDevice => resp = CreateRequestResponse (Some o) None
  | CrossDevice => resp = CreateRequestResponse None (Some (vq_client_id r +:+ "/request/" +:+ token))
  end.

(** Request [j] of the execution created the authorization request saved under [key]. *)
Definition created_by {R} (c : config VSig vrequest R) (j : nat) (key : string) (r : create_request_request)
    (st : vstate) : Prop :=
  (∃ p, c_pool c !! j = Some (VCreate r, p)) ∧
  ∃ nonce def_id meta t x o,
    [Y (WGen GvDefinitionId def_id); Y (WGen GvUriToken key);
     Y (WVerifier (vq_client_id r) (Some meta)); Y (WGen GvNonce nonce); Y (WNow t); VPut key st x o]
      = calls_of j (c_log c) ∧
    vq_input_descriptors r ≠ [] ∧ asks r key nonce def_id meta (vs_request st) ∧
    vs_expires_at st = (t + minutes 5)%Z ∧ x = (t + minutes 5)%Z.
