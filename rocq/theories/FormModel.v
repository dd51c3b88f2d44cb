(** Bodies of type application/x-www-form-urlencoded, as the examples send and read them: reqwest's [form]
    (examples/wallet/src-tauri/src/provider/issuer_client.rs 61 and verifier_client.rs 36) and axum's [Form]
    (examples/issuer/src/main.rs 137, 199, 249, 320 and examples/verifier/src/main.rs 78) are serde_urlencoded, which is
    described here from its documentation: it is not in the repository. *)
From Verif Require Import Base Json CoreModel VcModel Prog IssuerTypes SerdeModel QueryModel.
From Verif Require UrlModel.

(** The [byte_serialize] of form_urlencoded: what is not escaped; a blank is a plus sign. *)
Definition form_keeps (c : ascii) : bool :=
  let n := nat_of_ascii c in
  (Nat.leb 48 n && Nat.leb n 57) || (Nat.leb 65 n && Nat.leb n 90) || (Nat.leb 97 n && Nat.leb n 122) ||
  bool_decide (c ∈ ["*"; "-"; "."; "_"]%char).
Fixpoint form_encode (s : string) : string :=
  match s with
  | EmptyString => EmptyString
  | String c r =>
      if form_keeps c then String c (form_encode r)
      else if bool_decide (c = " "%char) then String "+" (form_encode r)
      else String "%" (String (UrlModel.hex_digit (nat_of_ascii c / 16))
             (String (UrlModel.hex_digit (nat_of_ascii c mod 16)) (form_encode r)))
  end.
(** A value of the data model: text, numbers and booleans can be written; [None] is left out; there is no way to write a
    sequence, a map or a struct inside another ("unsupported value"). *)
Definition form_part (j : json) : option (option string) :=
  match j with
  | JStr s => Some (Some s)
  | JNum t => Some (Some t)
  | JBool b => Some (Some (if b then "true" else "false"))
  | JNull => Some None
  | JArr _ | JObj _ => None
  end.
Fixpoint form_parts (m : list (string * json)) : option (list (string * string)) :=
  match m with
  | [] => Some []
  | (k, j) :: m =>
      match form_part j, form_parts m with
      | Some (Some s), Some l => Some ((k, s) :: l)
      | Some None, Some l => Some l
      | _, _ => None
      end
  end.
Fixpoint join (l : list string) : string :=
  match l with [] => "" | [x] => x | x :: l => x +:+ "&" +:+ join l end.
Definition form_text (l : list (string * string)) : string :=
  join (map (λ kv, form_encode kv.1 +:+ "=" +:+ form_encode kv.2) l).
(** What is sent for a value: the same calls that write it as JSON (see [to_uval]). *)
Definition form_write (j : json) : option string :=
  match j with JObj m => form_text <$> form_parts m | _ => None end.

(** [form_urlencoded::parse]: pieces between ampersands, empty ones left out; a name up to the first equals sign, a value
    after it; pluses are blanks.  Text is bytes here, so that a [decode_utf8_lossy] changes nothing. *)
Fixpoint cut (c : ascii) (s : string) : string * option string :=
  match s with
  | EmptyString => (EmptyString, None)
  | String d r => if bool_decide (d = c) then (EmptyString, Some r) else let (a, b) := cut c r in (String d a, b)
  end.
Fixpoint pieces (s : string) : list string :=
  match s with
  | EmptyString => [EmptyString]
  | String d r =>
      if bool_decide (d = "&"%char) then EmptyString :: pieces r
      else match pieces r with [] => [String d EmptyString] | a :: l => String d a :: l end
  end.
Fixpoint unplus (s : string) : string :=
  match s with
  | EmptyString => EmptyString
  | String c r => String (if bool_decide (c = "+"%char) then " "%char else c) (unplus r)
  end.
Definition form_decode (s : string) : string := UrlModel.percent_decode (unplus s).
Definition form_pairs (s : string) : list (string * string) :=
  map (λ p, let (a, b) := cut "=" p in (form_decode a, form_decode (default "" b)))
    (List.filter (λ p, negb (bool_decide (p = ""))) (pieces s)).
(** Every value is a text; a type that has only text, enumerations, sequences and structs in it reads it as it reads a JSON
    string. *)
Definition form_read {A} (d : json → option A) (s : string) : option A :=
  d (JObj (map (λ kv, (kv.1, JStr kv.2)) (form_pairs s))).

(** What [/auth] reads ([Form<AuthorizationRequest>], main.rs 137): the hand-written reader, from a source that does not
    mind names it does not know. *)
Definition auth_form (s : string) : option authorization_request := form_read (de_authorization_request false) s.
