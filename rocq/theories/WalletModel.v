(** examples/wallet/src-tauri/src: the example wallet's store of credentials, the state of the app,
    the views it makes of it, and the links it is opened with. *)
From Verif Require Import Base Json MatcherModel JsonParse CoreModel VcModel IssuerTypes SerdeModel VcSerde MetaSerde HolderModel RecordSerde.
From Verif Require UrlModel.

(** ** provider/store.rs: the store of credentials

    A table of JSON values kept by the plugin tauri_plugin_store: [ws_table] is the table in memory,
    [ws_file] the file it is written to.  The plugin is not part of the repository.  It is assumed
    that writing the file succeeds as a whole or not at all, that a value read from the file is the
    value written to it, and that the plugin may also write the file when it was not asked to. *)
Record wstore : Type := WStore { ws_table : gmap string json; ws_file : gmap string json }.
Definition ws_empty : wstore := WStore ∅ ∅.

(** 23 and 66, [store.save()]: [written] says whether it succeeded. *)
Definition write_file (written : bool) (s : wstore) : wstore :=
  WStore (ws_table s) (if written then ws_table s else ws_file s).
(** 17-24. *)
Definition ws_save (cx : codecs) (c : kept_credential) (written : bool) (s : wstore) : wstore * outcome string unit :=
  (write_file written (WStore (<[kc_id c := ser_credential cx c]> (ws_table s)) (ws_file s)),
   if written then Ok tt else Err "cannot write the file").
(** 28-34. *)
Definition ws_load (cx : codecs) (id : string) (s : wstore) : outcome string (option kept_credential) :=
  match ws_table s !! id with
  | Some v => match de_credential cx v with Some c => Ok (Some c) | None => Err "cannot read the credential" end
  | None => Ok None
  end.
(** 40-44: [unwrap] panics. *)
Definition ws_list (cx : codecs) (s : wstore) : option (list kept_credential) :=
  mapM (de_credential cx) (map_to_list (ws_table s)).*2.
(** 50-54. *)
Fixpoint ws_filter (cx : codecs) (eng : engine) (k : constraints) (l : list kept_credential) : outcome string (list kept_credential) :=
  match l with
  | [] => Ok []
  | c :: r =>
      match satisfied eng k (Some (ser_vc cx (kc_vc c))) with
      | Panic w => Panic w
      | o =>
          match ws_filter cx eng k r with
          | Ok r' => Ok (match o with Ok true => c :: r' | _ => r' end)
          | e => e
          end
      end
  end.
(** 38-57. *)
Definition ws_find (cx : codecs) (eng : engine) (filter : option constraints) (s : wstore) : outcome string (list kept_credential) :=
  match ws_list cx s with
  | None => Panic "called `Option::unwrap()` on a `None` value"
  | Some l => match filter with None => Ok l | Some k => ws_filter cx eng k l end
  end.
(** 61-67. *)
Definition ws_remove (id : string) (written : bool) (s : wstore) : wstore * outcome string unit :=
  match ws_table s !! id with
  | None => (s, Err ("credential with ID " +:+ id +:+ " does not exist"))
  | Some _ =>
      (write_file written (WStore (delete id (ws_table s)) (ws_file s)),
       if written then Ok tt else Err "cannot write the file")
  end.
(** What can happen to the store.  The plugin may write the file by itself, and the app may be
    killed and started again, which reads the file. *)
Inductive wstore_op : Type :=
| WSave (c : kept_credential) (written : bool)
| WRemove (id : string) (written : bool)
| WWritten
| WRestart.
Definition ws_step (cx : codecs) (o : wstore_op) (s : wstore) : wstore :=
  match o with
  | WSave c w => (ws_save cx c w s).1
  | WRemove id w => (ws_remove id w s).1
  | WWritten => write_file true s
  | WRestart => WStore (ws_file s) (ws_file s)
  end.
Definition ws_run (cx : codecs) (l : list wstore_op) (s : wstore) : wstore := fold_left (λ s o, ws_step cx o s) l s.

(** ** app.rs, app/issuance.rs and app/presentation.rs: the state of the app *)

(** app.rs 20-26. *)
Inductive sub_app : Type := Splash | Credentials | Issuing | Presenting.
(** app/issuance.rs 16-29. *)
Record issuance_state : Type := IssuanceState {
  as_id : string;
  as_issuer : string;
  as_offered : gmap string configuration_metadata;
  as_tx_code : option tx_code_spec;
  as_pin : option string;
}.
Definition no_issuance : issuance_state := IssuanceState "" "" ∅ None None.
(** app/presentation.rs 12-22. *)
Record presentation_state : Type := PresentationState {
  ap_id : string;
  ap_status : presentation_status;
  ap_credentials : list kept_credential;
}.
Definition no_presentation : presentation_state := PresentationState "" PInactive [].
(** app.rs 31-42. *)
Record app_state : Type := AppState {
  a_sub_app : sub_app;
  a_credentials : list kept_credential;
  a_issuance : issuance_state;
  a_presentation : presentation_state;
  a_error : option string;
}.
Definition app_default : app_state := AppState Splash [] no_issuance no_presentation None.

(** ** view.rs and view/: what is shown *)

(** view/credential.rs 23-38 and 43-48. *)
Record credential_display : Type := CredentialDisplay {
  cd_id : string;
  cd_background_color : option string;
  cd_color : option string;
  cd_issuer : option string;
  cd_logo : option encoded_logo;
  cd_logo_url : option string;
  cd_name : option string;
}.
(** view/credential.rs 86-88, 106-108 and 126-128: [displays\[0\]] of the list, which panics if it is
    empty; [None] is a panic. *)
Definition first_display (o : option (list display_metadata)) : option display_metadata := head (default [] o).
Definition logo_url (d : display_metadata) : option string :=
  match ds_logo d with Some i => img_uri i | None => None end.
(** view/credential.rs 84-102. *)
Definition show_credential (c : kept_credential) : option credential_display :=
  d ← first_display (kc_display c);
  Some (CredentialDisplay (kc_id c) (ds_background_color d) (ds_text_color d) (Some (kc_issuer c)) (kc_logo c) (logo_url d)
          (Some (ds_name d))).
(** view/credential.rs 104-122. *)
Definition show_configuration (m : configuration_metadata) : option credential_display :=
  d ← first_display (cm_display m);
  Some (CredentialDisplay "" (ds_background_color d) (ds_text_color d) None None (logo_url d) (Some (ds_name d))).
(** view/issuance.rs 31 [cred.issuer = ..]. *)
Definition from_issuer (s : string) (d : credential_display) : credential_display :=
  CredentialDisplay (cd_id d) (cd_background_color d) (cd_color d) (Some s) (cd_logo d) (cd_logo_url d) (cd_name d).
(** view/issuance.rs 46-84: [true] is [PinInputMode::Text]. *)
Record pin_schema : Type := PinSchema { ps_text : bool; ps_length : Z; ps_description : option string }.
Definition pin_schema_of (t : tx_code_spec) : pin_schema :=
  PinSchema (bool_decide (tc_input_mode t = Some "text")) (default 6%Z (tc_length t)) (tc_description t).
(** view/issuance.rs 16-23. *)
Record issuance_view : Type := IssuanceView {
  iv_credentials : gmap string credential_display;
  iv_pin : option string;
  iv_pin_schema : option pin_schema;
}.
(** view/issuance.rs 26-41. *)
Definition show_offered (issuer : string) (m : gmap string configuration_metadata) : option (list (string * credential_display)) :=
  mapM (λ kc : string * configuration_metadata, d ← show_configuration kc.2; Some (kc.1, from_issuer issuer d)) (map_to_list m).
Definition show_issuance (s : issuance_state) : option issuance_view :=
  l ← show_offered (as_issuer s) (as_offered s);
  Some (IssuanceView (list_to_map l) (as_pin s) (pin_schema_of <$> as_tx_code s)).
(** view/presentation.rs 17-42. *)
Inductive shown_status : Type := ShownInactive | ShownRequested | ShownAuthorized | ShownFailed.
Definition show_status (s : presentation_status) : shown_status :=
  match s with
  | PInactive => ShownInactive
  | PRequested => ShownRequested
  | PAuthorized => ShownAuthorized
  | PFailed _ => ShownFailed
  end.
(** view/presentation.rs 48-53. *)
Record presentation_view : Type := PresentationView {
  pv_status : shown_status;
  pv_credentials : gmap string credential_display;
}.
(** view/presentation.rs 56-67: of credentials with the same identifier the last one stays. *)
Definition show_presentation (s : presentation_state) : option presentation_view :=
  l ← mapM (λ c, d ← show_credential c; Some (kc_id c, d)) (ap_credentials s);
  Some (PresentationView (show_status (ap_status s)) (list_to_map (reverse l))).
(** view.rs 14-25. *)
Record view : Type := View {
  v_sub_app : sub_app;
  v_credentials : option (list credential_display);
  v_issuance : option issuance_view;
  v_presentation : option presentation_view;
  v_error : option string;
}.
(** view.rs 27-48. *)
Definition show (a : app_state) : option view :=
  match a_sub_app a with
  | Splash => Some (View Splash None None None None)
  | Credentials => l ← mapM show_credential (a_credentials a); Some (View Credentials (Some l) None None None)
  | Issuing => i ← show_issuance (a_issuance a); Some (View Issuing None (Some i) None None)
  | Presenting => p ← show_presentation (a_presentation a); Some (View Presenting None None (Some p) None)
  end.

(** view/credential.rs 63-74.  The dates, which are turned into text by chrono, are kept as they are. *)
Record credential_detail : Type := CredentialDetail {
  dt_display : credential_display;
  dt_valid_from : option Z;
  dt_valid_until : option Z;
  dt_description : option string;
  dt_claims : gmap string string;
}.
(** view/credential.rs 132-143. *)
Definition subjects_of (q : quota credential_subject) : list credential_subject :=
  match q with QOne s => [s] | QMany l => l end.
Definition detail_claims (l : list credential_subject) : gmap string string :=
  fold_left (λ m s, fold_left (λ m kv, <[kv.1 := json_text kv.2]> m) (cs_claims s) m) l ∅.
(** view/credential.rs 124-153. *)
Definition show_detail (c : kept_credential) : option credential_detail :=
  d ← first_display (kc_display c);
  s ← show_credential c;
  Some (CredentialDetail s (vc_valid_from (kc_vc c)) (vc_valid_until (kc_vc c)) (ds_description d)
          (detail_claims (subjects_of (vc_subject (kc_vc c))))).

(** ** lib.rs, app/*.rs: the commands

    Every command holds the lock of the app's state from its first line to its last (98, 109, 124,
    138, 159, 174, 191, 205, 228, 243, 256, 289 and 306), so commands run one after another.  What the
    wallet library answers is part of the command here; [None] and [false] are errors.  For
    [credentials] it is whether the token and the credentials were obtained, the credentials that are
    then saved, each with whether the file was written, and whether what follows them in [save]
    succeeded.  That [emit] may fail is left out. *)
(** vercre-holder/src/issuance/offer.rs 41-57, [OfferResponse]. *)
Record offer_answer : Type := OfferAnswer {
  oa_id : string;
  oa_issuer : string;
  oa_offered : gmap string configuration_metadata;
  oa_grants : option grants;
}.
(** vercre-holder/src/presentation/request.rs 24-36, [RequestResponse]. *)
Record request_answer : Type := RequestAnswer {
  ra_id : string;
  ra_status : presentation_status;
  ra_credentials : list kept_credential;
}.
Inductive command : Type :=
| Start
| Reset
| Select (id : string)
| Delete (id : string) (written : bool)
| MakeOffer (text : string) (answer : option offer_answer)
| Accept (done : bool)
| Pin (pin : string) (done : bool)
| GetCredentials (token : bool) (got : bool) (saves : list (kept_credential * bool)) (told : bool)
| Request (text : string) (answer : option request_answer)
| Authorize (answer : option presentation_status)
| Present (done : bool)
| OpenLink (payload : string) (offered : option offer_answer) (requested : option request_answer).
(** What a command does that can be seen from outside: calls of the library with the identifier of
    a flow, and the view sent to the shell. *)
Inductive lib_call : Type :=
| LOffer (o : credential_offer)
| LAccept (id : string)
| LPin (id pin : string)
| LToken (id : string)
| LCredentials (id : string)
| LSave (id : string)
| LRequest (text : string)
| LAuthorize (id : string)
| LPresent (id : string).
Inductive effect : Type :=
| Call (l : lib_call)
| Shown (v : view)
| Detail (d : option credential_detail)
| Failed
| Panicked.
Record wallet : Type := Wallet { w_app : app_state; w_store : wstore }.

(** app/issuance.rs 33-35. *)
Definition read_offer (encoded : string) : option credential_offer := read de_offer (UrlModel.percent_decode encoded).
(** app/issuance.rs 45-53. *)
Definition tx_code_of (g : option grants) : option tx_code_spec :=
  match g with
  | Some g => match gr_pre_authorized_code g with Some p => pg_tx_code p | None => None end
  | None => None
  end.
Definition set_issuance (s : sub_app) (i : issuance_state) (a : app_state) : app_state :=
  AppState s (a_credentials a) i (a_presentation a) (a_error a).
Definition set_presentation (s : sub_app) (p : presentation_state) (a : app_state) : app_state :=
  AppState s (a_credentials a) (a_issuance a) p (a_error a).
Definition set_error (e : string) (a : app_state) : app_state :=
  AppState (a_sub_app a) (a_credentials a) (a_issuance a) (a_presentation a) (Some e).

(** The end of a command: [let view = app_state.clone().into(); app.emit(..)]. *)
Definition emit (w : wallet) : wallet * list effect :=
  (w, [match show (w_app w) with Some v => Shown v | None => Panicked end]).
Definition fails (w : wallet) : wallet * list effect := (w, [Failed]).
Definition calls (l : list lib_call) (r : wallet * list effect) : wallet * list effect := (r.1, map Call l ++ r.2).

(** app/credential.rs 15-29, followed by [emit].  [find] never gives an error, but may panic, in which
    case the error has been cleared. *)
Definition run_reset (cx : codecs) (w : wallet) : wallet * list effect :=
  let a := w_app w in
  match ws_list cx (w_store w) with
  | None => (Wallet (AppState (a_sub_app a) (a_credentials a) (a_issuance a) (a_presentation a) None) (w_store w), [Panicked])
  | Some l => emit (Wallet (AppState Credentials l no_issuance no_presentation None) (w_store w))
  end.
(** app/credential.rs 32-45. *)
Definition run_delete (id : string) (written : bool) (w : wallet) : wallet * list effect :=
  let a := w_app w in
  match ws_remove id written (w_store w) with
  | (s, Ok _) =>
      emit (Wallet (AppState (a_sub_app a) (List.filter (λ c, negb (bool_decide (kc_id c = id))) (a_credentials a))
                      (a_issuance a) (a_presentation a) (a_error a)) s)
  | (s, Err e) => fails (Wallet (set_error e a) s)
  | (s, Panic _) => (Wallet a s, [Panicked])
  end.
(** app/issuance.rs 31-64. *)
Definition run_offer (text : string) (answer : option offer_answer) (w : wallet) : wallet * list effect :=
  match read_offer text with
  | None => fails w
  | Some o => calls [LOffer o]
      match answer with
      | None => fails w
      | Some r => emit (Wallet (set_issuance Issuing (IssuanceState (oa_id r) (oa_issuer r) (oa_offered r) (tx_code_of (oa_grants r)) None)
                                 (w_app w)) (w_store w))
      end
  end.
(** vercre-holder/src/issuance/save.rs 41-68, with the store above. *)
Fixpoint save_all (cx : codecs) (l : list (kept_credential * bool)) (s : wstore) : wstore * bool :=
  match l with
  | [] => (s, true)
  | (c, written) :: r =>
      match ws_save cx c written s with
      | (s', Ok _) => save_all cx r s'
      | (s', _) => (s', false)
      end
  end.
(** app/issuance.rs 90-111 and lib.rs 203-214. *)
Definition run_credentials (cx : codecs) (token got : bool) (saves : list (kept_credential * bool)) (told : bool) (w : wallet)
    : wallet * list effect :=
  let id := as_id (a_issuance (w_app w)) in
  if token then
    if got then
      let (s, saved) := save_all cx saves (w_store w) in
      calls [LToken id; LCredentials id; LSave id]
        (if saved && told then run_reset cx (Wallet (w_app w) s) else fails (Wallet (w_app w) s))
    else calls [LToken id; LCredentials id] (fails w)
  else calls [LToken id] (fails w).
(** app/presentation.rs 26-35. *)
Definition run_request (text : string) (answer : option request_answer) (w : wallet) : wallet * list effect :=
  calls [LRequest text]
    match answer with
    | None => fails w
    | Some r => emit (Wallet (set_presentation Presenting (PresentationState (ra_id r) (ra_status r) (ra_credentials r)) (w_app w)) (w_store w))
    end.

(** ** lib.rs 270-320: links *)
Inductive link : Type := OfferOf (text : string) | RequestOf (text : string) | OtherLink.
Definition offer_prefix : string := "openid-credential-offer://?credential_offer=".
Definition request_prefix : string := "openid-vc://request_uri=".
(** [str::strip_prefix]. *)
Fixpoint strip_prefix (p s : string) : option string :=
  match p, s with
  | EmptyString, _ => Some s
  | String a p', String b s' => if bool_decide (a = b) then strip_prefix p' s' else None
  | _, _ => None
  end.
(** 276: [payload.get(2..payload.len() - 2)].  Subtraction that would be negative (a panic in a debug
    build) is not told from a range that is out of order, and characters of more than one byte at the
    cut are not looked at: payloads are made by Tauri and begin and end with brackets and quotes. *)
Definition payload_link (payload : string) : option string :=
  if bool_decide (4 ≤ String.length payload) then Some (substring 2 (String.length payload - 4) payload) else None.
Definition link_of (payload : string) : link :=
  match payload_link payload with
  | None => OtherLink
  | Some l =>
      match strip_prefix offer_prefix l with
      | Some t => OfferOf t
      | None => match strip_prefix request_prefix l with Some t => RequestOf t | None => OtherLink end
      end
  end.

(** ** All commands *)
Definition perform (cx : codecs) (k : command) (w : wallet) : wallet * list effect :=
  let a := w_app w in
  match k with
  | Start => emit w
  | Reset => run_reset cx w
  | Select id =>
      (w, [match List.find (λ c, bool_decide (kc_id c = id)) (a_credentials a) with
           | None => Detail None
           | Some c => match show_detail c with Some d => Detail (Some d) | None => Panicked end
           end])
  | Delete id written => run_delete id written w
  | MakeOffer t r => run_offer t r w
  | Accept done =>
      calls [LAccept (as_id (a_issuance a))] (if done then emit w else fails w)
  | Pin pin done =>
      let i := a_issuance a in
      calls [LPin (as_id i) pin]
        (if done then emit (Wallet (set_issuance (a_sub_app a) (IssuanceState (as_id i) (as_issuer i) (as_offered i) (as_tx_code i) (Some pin)) a)
                              (w_store w))
         else fails w)
  | GetCredentials token got saves told => run_credentials cx token got saves told w
  | Request t r => run_request t r w
  | Authorize r =>
      let p := a_presentation a in
      calls [LAuthorize (ap_id p)]
        match r with
        | None => fails w
        | Some s => emit (Wallet (set_presentation (a_sub_app a) (PresentationState (ap_id p) s (ap_credentials p)) a) (w_store w))
        end
  | Present done =>
      calls [LPresent (ap_id (a_presentation a))] (if done then run_reset cx w else fails w)
  | OpenLink payload o r =>
      match link_of payload with
      | OfferOf t => run_offer t o w
      | RequestOf t => run_request t r w
      | OtherLink => (w, [])
      end
  end.
(** A session: the app is started on a store, and commands follow. *)
Fixpoint session (cx : codecs) (ks : list command) (w : wallet) : wallet * list (command * list effect) :=
  match ks with
  | [] => (w, [])
  | k :: r => let (w', es) := perform cx k w in let (w'', tr) := session cx r w' in (w'', (k, es) :: tr)
  end.
