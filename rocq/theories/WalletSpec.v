(** Vocabulary for statements about the example wallet. *)
From Verif Require Import Base Json CoreModel VcModel IssuerTypes MetaSerde HolderModel RecordSerde WalletModel.

(** The credential an operation on the store saves or removes, by its identifier. *)
Definition about (o : wstore_op) : option string :=
  match o with WSave c _ => Some (kc_id c) | WRemove id _ => Some id | _ => None end.
(** Metadata that says how to display something. *)
Definition displayed (o : option (list display_metadata)) : Prop := ∃ d l, o = Some (d :: l).
(** [m] shows the name and colours of the display [d]. *)
Definition looks_like (d : display_metadata) (m : credential_display) : Prop :=
  cd_name m = Some (ds_name d) ∧ cd_background_color m = ds_background_color d ∧ cd_color m = ds_text_color d.

(** A session is recorded as its commands, each with what it did.  The offer (request) a command took up: *)
Definition offer_taken (e : command * list effect) : option offer_answer :=
  if existsb (λ x, match x with Call (LOffer _) => true | _ => false end) e.2 then
    match e.1 with MakeOffer _ r => r | OpenLink _ r _ => r | _ => None end
  else None.
Definition request_taken (e : command * list effect) : option request_answer :=
  if existsb (λ x, match x with Call (LRequest _) => true | _ => false end) e.2 then
    match e.1 with Request _ r => r | OpenLink _ _ r => r | _ => None end
  else None.
(** The last in a session. *)
Definition latest {E A} (f : E → option A) (tr : list E) (r : A) : Prop :=
  ∃ tr1 e tr2, tr = tr1 ++ e :: tr2 ∧ f e = Some r ∧ ∀ e', e' ∈ tr2 → f e' = None.
(** What the shell shows: the last view it was sent. *)
Definition last_shown (es : list effect) (v : option view) : option view :=
  fold_left (λ v e, match e with Shown v' => Some v' | _ => v end) es v.
Definition screen (tr : list (command * list effect)) : option view := fold_left (λ v e, last_shown e.2 v) tr None.
(** The flow a call of the library is for. *)
Definition issuance_called (l : lib_call) : option string :=
  match l with LAccept id | LPin id _ | LToken id | LCredentials id | LSave id => Some id | _ => None end.
Definition presentation_called (l : lib_call) : option string :=
  match l with LAuthorize id | LPresent id => Some id | _ => None end.
(** How a link comes to the app: in a list, as JSON text (here of a link that needs no escapes). *)
Definition payload_of (l : string) : string := "[""" +:+ l +:+ """]".
