(** crates/dif-exch/src/lib.rs and matcher.rs: presentation definitions, and matching a
    credential against the constraints of an input descriptor. *)
From Verif Require Import Base Json.

(** ** Text of a JSON value: [Value::to_string] (serde_json, compact) *)

Definition hex_digit (n : nat) : ascii :=
  ascii_of_nat (if Nat.ltb n 10 then 48 + n else 87 + n).

(** serde_json's escape table for one byte. *)
Definition json_escape (c : ascii) : string :=
  match nat_of_ascii c with
  | 34 => String "\"%char (String """"%char "")
  | 92 => "\\"
  | 8 => "\b"
  | 9 => "\t"
  | 10 => "\n"
  | 12 => "\f"
  | 13 => "\r"
  | n => if Nat.ltb n 32
         then "\u00" +:+ String (hex_digit (Nat.div n 16)) (String (hex_digit (Nat.modulo n 16)) "")
         else String c ""
  end.
Fixpoint json_escapes (s : string) : string :=
  match s with
  | EmptyString => ""
  | String c r => json_escape c +:+ json_escapes r
  end.
(** A JSON string literal. *)
Definition json_quote (s : string) : string :=
  String """"%char (json_escapes s +:+ String """"%char "").

Fixpoint commas (l : list string) : string :=
  match l with
  | [] => ""
  | [s] => s
  | s :: r => s +:+ "," +:+ commas r
  end.

Fixpoint json_text (j : json) : string :=
  match j with
  | JNull => "null"
  | JBool true => "true"
  | JBool false => "false"
  | JNum t => t
  | JStr s => json_quote s
  | JArr l => "[" +:+ commas (map json_text l) +:+ "]"
  | JObj m =>
      "{" +:+ commas ((fix go (m : list (string * json)) : list string :=
         match m with
         | [] => []
         | (k, v) :: r => (json_quote k +:+ ":" +:+ json_text v) :: go r
         end) m) +:+ "}"
  end.

(** ** Libraries

    The JSONPath and regular-expression engines (crates serde_json_path and regex) and
    chrono's date parsers.  [None] is a path or pattern that does not parse. *)
Record engine : Type := Engine {
  en_query : string → json → option (list json);
  en_regex : string → string → option bool;
  en_date : string → bool;
  en_datetime : string → bool;
}.

(** ** lib.rs: types *)

(** 113-123, [ClaimFormat]. *)
Record claim_format : Type := ClaimFormat {
  cf_alg : option (list string);
  cf_proof_type : option (list string);
}.

(** 229-239, [FilterValue]. *)
Inductive filter_value : Type :=
| FConst (s : string)
| FPattern (s : string)
| FFormat (s : string).

(** 216-224, [Filter]. *)
Record filter : Type := Filter { fl_type : string; fl_value : filter_value }.

(** 159-210, [Field]; [id], [predicate], [purpose], [name] and [intent_to_retain] are never
    read. *)
Record field : Type := Field {
  fd_path : list string;
  fd_filter : option filter;
  fd_optional : option bool;
}.

(** 128-153, [Constraints]; [limit_disclosure] is never read. *)
Record constraints : Type := Constraints { cn_fields : option (list field) }.

(** 75-101, [InputDescriptor]. *)
Record input_descriptor : Type := InputDescriptor {
  id_id : string;
  id_name : option string;
  id_purpose : option string;
  id_format : option (list (string * claim_format));
  id_constraints : constraints;
}.

(** 39-70, [PresentationDefinition]. *)
Record presentation_definition : Type := PresentationDefinition {
  pd_id : string;
  pd_input_descriptors : list input_descriptor;
  pd_name : option string;
  pd_purpose : option string;
  pd_format : option (list (string * claim_format));
}.

(** 302-309, [PathNested]. *)
Record path_nested : Type := PathNested { pn_format : string; pn_path : string }.

(** 275-297, [DescriptorMap]. *)
Record descriptor_map : Type := DescriptorMap {
  dm_id : string;
  dm_format : string;
  dm_path : string;
  dm_nested : path_nested;
}.

(** 252-262, [PresentationSubmission]. *)
Record presentation_submission : Type := PresentationSubmission {
  pb_id : string;
  pb_definition_id : string;
  pb_descriptor_map : list descriptor_map;
}.

(** ** matcher.rs *)

(** 102-120, [match_const].  The constant becomes a JSON string; a string node is compared
    with the text of that JSON string, quotes and all. *)
Definition match_const (c : string) (node : json) : outcome string bool :=
  match node with
  | JArr l => Ok (existsb (json_eqb (JStr c)) l)
  | JStr s => Ok (bool_decide (s = json_text (JStr c)))
  | JNum t => Ok (bool_decide (t = c))
  | JBool _ => Ok false
  | JNull => Ok true
  | JObj _ => Panic "object matching not implemented"
  end.

(** 123-132, [match_pattern]. *)
Definition match_pattern (eng : engine) (pattern : string) (node : json) : outcome string bool :=
  match en_regex eng pattern (json_text node) with
  | None => Err "invalid regex pattern"
  | Some b => Ok b
  end.

(** 135-151, [match_format]. *)
Definition match_format (eng : engine) (format : string) (node : json) : outcome string bool :=
  if bool_decide (format = "date") then
    match node with JStr s => Ok (en_date eng s) | _ => Ok false end
  else if bool_decide (format = "date-time") then
    match node with JStr s => Ok (en_datetime eng s) | _ => Ok false end
  else Panic "format matching not implemented".

(** 87-97, [FilterValue::matched]. *)
Definition filter_matched (eng : engine) (f : filter_value) (node : json) : outcome string bool :=
  match f with
  | FConst c => match_const c node
  | FPattern p => match_pattern eng p node
  | FFormat f => match_format eng f node
  end.

(** 54-83, the loop of [Field::matched]. *)
Fixpoint paths_matched (eng : engine) (flt : option filter) (paths : list string) (v : json)
  : outcome string bool :=
  match paths with
  | [] => Ok false
  | p :: rest =>
      match en_query eng p v with
      | None => Err "Invalid JSONPath"
      | Some [] => paths_matched eng flt rest v
      | Some (node :: _) =>
          match flt with
          | None => Ok true
          | Some f => filter_matched eng (fl_value f) node
          end
      end
  end.

(** 48-84, [Field::matched]. *)
Definition field_matched (eng : engine) (f : field) (v : json) : outcome string bool :=
  paths_matched eng (fd_filter f) (fd_path f) v.

(** 36-44, the loop of [Constraints::satisfied]; [unwrap_or_default] turns an error into
    "no match". *)
Fixpoint fields_satisfied (eng : engine) (l : list field) (v : json) : outcome string bool :=
  match l with
  | [] => Ok true
  | f :: rest =>
      match field_matched eng f v with
      | Panic w => Panic w
      | r =>
          if negb (match r with Ok b => b | _ => false end) && negb (default false (fd_optional f))
          then Ok false else fields_satisfied eng rest v
      end
  end.

(** 27-45, [Constraints::satisfied]; the credential is given as [claims.to_json()], [None]
    being an error. *)
Definition satisfied (eng : engine) (c : constraints) (v : option json) : outcome string bool :=
  match cn_fields c with
  | None => Ok true
  | Some fields =>
      match v with
      | None => Err "error serializing credential"
      | Some v => fields_satisfied eng fields v
      end
  end.
