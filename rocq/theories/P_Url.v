(** Property C60: query strings. *)
From Verif Require Import Base UrlModel UrlSpec UrlFacts.

(** C60.  Two different requests have the same query string, so no decoder can give the
    request back: the value of a parameter can add parameters to the request. *)
Theorem C60_parameters_injected_refuted :
  ∃ a b : list (string * uval), a ≠ b ∧
    a = [("client_id", UStr "x&state=y")] ∧ b = [("client_id", UStr "x"); ("state", UStr "y")] ∧
    url_to_string (UStruct a) = url_to_string (UStruct b) ∧
    ∀ T (meaning : list (string * uval) → T) (parse : string → option T),
      url_from_str parse (url_to_string (UStruct b)) = Some (meaning b) →
      meaning a ≠ meaning b → url_from_str parse (url_to_string (UStruct a)) ≠ Some (meaning a).
Proof. exact injected. Qed.
Print Assumptions C60_parameters_injected_refuted.

(** A redirect address with a query, which the specifications allow, is cut up; the text
    that is given to the JSON parser is not the text of the request. *)
Theorem C60_redirect_query_refuted :
  let a := [("redirect_uri", UStr "https://w.example/cb?flow=1")] in
  url_json (url_to_string (UStruct a)) =
    "{" +:+ quoted "redirect_uri" +:+ ":" +:+ quoted "https://w.example/cb?flow" +:+ ":" +:+ quoted "1" +:+ "}" ∧
  url_json (url_to_string (UStruct a)) ≠ json_text (UStruct a).
Proof. exact redirect_query. Qed.
Print Assumptions C60_redirect_query_refuted.

(** A number or truth value comes back as a string. *)
Theorem C60_numbers_become_strings_refuted :
  let a := [("interval", UNum "5"); ("user_pin", UBool true); ("x", UNull)] in
  let b := [("interval", UStr "5"); ("user_pin", UStr "true"); ("x", UStr "null")] in
  url_to_string (UStruct a) = url_to_string (UStruct b) ∧
  url_json (url_to_string (UStruct a)) = json_text (UStruct b).
Proof. exact numbers. Qed.
Print Assumptions C60_numbers_become_strings_refuted.

(** What holds: when every parameter is a string, list or object, and no name or string in
    it has a character that JSON escapes, [=] or [&], or has a bracket or brace at an end,
    the text given to the JSON parser is the JSON text of the request; *)
Theorem C60_json_text_partial fs :
  harmless_request fs → url_json (url_to_string (UStruct fs)) = json_text (UStruct fs).
Proof. exact (url_json_text fs). Qed.
Print Assumptions C60_json_text_partial.
(** so a type of requests that JSON carries faithfully comes back unchanged. *)
Theorem C60_round_trip_partial T (fields : T → list (string * uval)) (parse : string → option T) :
  (∀ x, harmless_request (fields x) → parse (json_text (UStruct (fields x))) = Some x) →
  ∀ x, harmless_request (fields x) →
    url_from_str parse (url_to_string (UStruct (fields x))) = Some x.
Proof. exact (round_trip T fields parse). Qed.
Print Assumptions C60_round_trip_partial.
(** Two such requests never share a query string unless JSON already confuses them. *)
Theorem C60_injective_partial a b :
  harmless_request a → harmless_request b →
  url_to_string (UStruct a) = url_to_string (UStruct b) → json_text (UStruct a) = json_text (UStruct b).
Proof. exact (query_injective a b). Qed.
Print Assumptions C60_injective_partial.

(** How a client escapes characters does not matter: what is written here is an escaped form of
    the same text, and all escaped forms of a text are read alike. *)
Theorem C60_any_escaping v : ∃ s, escapes (url_to_string v) s ∧
  ∀ q, escapes q s → ∀ T (parse : string → option T), url_from_str parse q = url_from_str parse (url_to_string v).
Proof. exact (any_escaping v). Qed.
Print Assumptions C60_any_escaping.
(** But a space written as [+], as in all forms of the web, is not read as a space. *)
Theorem C60_form_encoding_refuted :
  url_json "scope=openid+email" = "{" +:+ quoted "scope" +:+ ":" +:+ quoted "openid+email" +:+ "}" ∧
  url_json "scope=openid%20email" = json_text (UStruct [("scope", UStr "openid email")]).
Proof. split; vm_compute; reflexivity. Qed.
Print Assumptions C60_form_encoding_refuted.
Example C60_escaping_example :
  escapes "a%2fb" "a/b" ∧ escapes "%61%2Fb" "a/b" ∧ url_to_string (UStruct [("x", UStr "a/b")]) = "x=a%2Fb".
Proof.
  split; [|split; [|vm_compute; reflexivity]].
  - apply escapes_plain; [done|]. apply (escapes_char 2 15); [by left|by right|]. apply escapes_plain; [done|constructor].
  - apply (escapes_char 6 1); [by left|by left|]. apply (escapes_char 2 15); [by left|by left|]. apply escapes_plain; [done|constructor].
Qed.

(** An authorization request with nested authorization details, and a type of requests
    with a parser that meets the hypothesis. *)
Definition ex_request : list (string * uval) :=
  [("response_type", UStr "code"); ("client_id", UStr "https://w.example/?[a]b");
   ("authorization_details", USeq [UStruct [("type", UStr "openid_credential"); ("n", UNum "5"); ("ok", UBool true);
      ("claims", UMap [("given_name", UStruct []); ("family name", UNull)])]; UStr "x"]);
   ("issuer_state", UStr "")].
Example C60_example :
  harmless_request ex_request ∧
  url_json (url_to_string (UStruct ex_request)) = json_text (UStruct ex_request) ∧
  (∀ x : string, harmless_request [("state", UStr x)] → ex_parse (json_text (UStruct [("state", UStr x)])) = Some x) ∧
  harmless_request [("state", UStr "a b%20[1]c")] ∧
  url_from_str ex_parse (url_to_string (UStruct [("state", UStr "a b%20[1]c")])) = Some "a b%20[1]c".
Proof.
  split; [|split; [vm_compute; reflexivity|split; [exact ex_parse_ok|split]]].
  - split; [done|]. intros k v Hin. unfold ex_request in Hin.
    repeat (apply elem_of_cons in Hin as [[= -> ->]|Hin]; [vm_compute; repeat split; done|]).
    by apply elem_of_nil in Hin.
  - split; [done|]. intros k v Hin. apply elem_of_list_singleton in Hin as [= -> ->]. vm_compute. repeat split; done.
  - vm_compute. reflexivity.
Qed.
