(** The wallet and the verifier talking in text. *)
From Verif Require Import Base Json JsonParse CoreModel VcModel Prog ExecSpec IssuerTypes MatcherModel VerifierModel VerifierSpec VerifierExec
  HolderModel HolderSpec SerdeSpec SerdeModel QueryModel SerdeQuery VcSerde DifSerde DifSpec.
From Verif Require UrlModel.

(** The wallet was told something by a verifier: an authorization request, in a link or in a token, or that its
    presentation is accepted. *)
Definition from_verifier (e : hevent) : bool :=
  match e with
  | EExt (EParseRequest _ (Some _)) | EExt (EDecodeRequest _ (Some _)) | EExt (EPresent _ _ (Some _)) => true
  | _ => false
  end.
(** The call [j] of the verifier told it, and the two wrote what they sent, and read what they got, as text: a request in
    a link is the one the verifier gave its owner, written as a query; a token is one that the verifier signed, over
    the JSON of a request; a presentation is posted to the verifier as JSON and so is the verifier's answer. *)
Definition told_by (cx : codecs) (cv : vconfig) (j : nat) (e : hevent) : Prop :=
  match e with
  | EExt (EParseRequest url (Some req)) => ∃ q x o,
      answered cv j (VCreate q) (Ok (VRCreate x)) ∧ vr_request_object x = Some o ∧ url = query_of (ser_vp_request_entries o) ∧
      UrlModel.url_from_str (read de_vp_request) url = Some req
  | EExt (EDecodeRequest jwt (Some req)) => ∃ id o,
      Y (WSign id o (Some jwt)) ∈ calls_of j (c_log cv) ∧ read de_vp_request (write ser_vp_request o) = Some req
  | EExt (EPresent _ rr (Some a)) => ∃ rr' x,
      read (de_response_request cx) (write (ser_response_request cx) rr) = Some rr' ∧
      answered cv j (VResponse rr') (Ok (VRResponse x)) ∧ read de_response_response (write ser_response_response x) = Some a
  | _ => False
  end.
(** The wallet [c] talks to the verifier [cv]: what it is told at position [n] is what the call [f n] of the verifier said;
    each presentation is a call of its own.  The verifier may have other wallets, and messages may be lost. *)
Record talks (cx : codecs) (c : hconfig) (cv : vconfig) (f : nat → nat) : Prop := {
  tk_told n i e : made c n i e → from_verifier e = true → told_by cx cv (f n) e;
  tk_apart n n' i i' u u' r r' a a' : made c n i (HX (EPresent u r (Some a))) → made c n' i' (HX (EPresent u' r' (Some a'))) →
    f n = f n' → n = n';
}.
(** The requests the verifier gives its owner for links are of harmless strings (C124). *)
Definition harmless_links (cv : vconfig) : Prop :=
  ∀ i q x o, answered cv i (VCreate q) (Ok (VRCreate x)) → vr_request_object x = Some o → innocents (ser_vp_request o).
