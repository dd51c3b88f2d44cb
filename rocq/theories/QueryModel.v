(** Requests as query strings: crates/openid/src/issuer.rs 426-444 over crates/core/src/urlencode.rs. *)
From Verif Require Import Base Json CoreModel VcModel Prog IssuerTypes SerdeModel.
From Verif Require UrlModel.
Import (notations) UrlModel.

(** What serde hands to the query string serializer, from what it hands to the JSON one: the
    same calls.  Objects inside are written alike whether they are structs or maps. *)
Fixpoint to_uval (j : json) : UrlModel.uval :=
  match j with
  | JNull => UrlModel.UNull
  | JBool b => UrlModel.UBool b
  | JNum t => UrlModel.UNum t
  | JStr s => UrlModel.UStr s
  | JArr l => UrlModel.USeq (map to_uval l)
  | JObj m => UrlModel.UMap ((fix go (m : list (string * json)) :=
      match m with [] => [] | (k, v) :: r => (k, to_uval v) :: go r end) m)
  end.
(** The parameters: the outermost object is a struct. *)
Definition parameters (m : list (string * json)) : list (string * UrlModel.uval) := map (λ kv, (kv.1, to_uval kv.2)) m.
Definition query_of (m : list (string * json)) : string := UrlModel.url_to_string (UrlModel.UStruct (parameters m)).

(** [str::contains] for one character. *)
Fixpoint has_char (c : ascii) (s : string) : bool :=
  match s with EmptyString => false | String d r => bool_decide (d = c) || has_char c r end.

(** 426-431: [Display for AuthorizationRequest]. *)
Definition authorization_entries (a : authorization_request) : list (string * json) :=
  match a with ARUri u => [("request_uri", JStr u)] | ARObject r => ser_request_entries r end.
Definition authorization_query (a : authorization_request) : string := query_of (authorization_entries a).
(** 433-444: [FromStr for AuthorizationRequest]. *)
Definition authorization_from_str (s : string) : option authorization_request :=
  if has_char "=" s && has_char "&" s
  then UrlModel.url_from_str (read (de_authorization_request true)) s
  else ARObject <$> read de_request s.
