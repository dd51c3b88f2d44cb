(** What the verifier's messages must satisfy to survive being written and read, and what members
    they should have by DIF Presentation Exchange 2.0, OpenID4VP and RFC 7591. *)
From Verif Require Import Base Json MatcherModel JsonParse JsonText CoreModel VcModel Prog IssuerTypes VerifierModel VerifierSpec
  ExecSpec SerdeSpec VcSpec DifSerde.

(** No format is named twice (as in every [HashMap]). *)
Definition readable_formats (o : option (list (string * claim_format))) : Prop := ∀ l, o = Some l → NoDup (keys l).
Definition readable_descriptor (d : input_descriptor) : Prop := readable_formats (id_format d).
Definition readable_presentation_definition (d : presentation_definition) : Prop :=
  readable_formats (pd_format d) ∧ ∀ x, x ∈ pd_input_descriptors d → readable_descriptor x.

(** ** Filters *)

(** The members of a filter that can be read: its type and one of the three conditions, once, and
    nothing else; in any order. *)
Definition filter_members (f : filter) (m : list (string * json)) : Prop :=
  ∃ k s, m ≡ₚ [("type", JStr (fl_type f)); (k, JStr s)] ∧
    match fl_value f with
    | FConst s' => k = "const" ∧ s = s'
    | FPattern s' => k = "pattern" ∧ s = s'
    | FFormat s' => k = "format" ∧ s = s'
    end.

(** ** Client metadata *)

(** All values given for a member. *)
Definition values_of (k : string) (m : list (string * json)) : list json :=
  map snd (List.filter (λ kv, bool_decide (kv.1 = k)) m).
(** Left out, [null], or given once with a value that [P] accepts. *)
Definition left_out_or (P : json → Prop) (k : string) (m : list (string * json)) : Prop :=
  values_of k m = [] ∨ values_of k m = [JNull] ∨ ∃ v, values_of k m = [v] ∧ P v.

(** What the value of a member may be. *)
Inductive member_kind : Type :=
| Text | Number | Flag | Texts
| OneOf (names : list string) | SomeOf (names : list string) | Formats.
Definition texts (v : json) : Prop := ∃ l, v = JArr (map JStr l).
Definition format_value (v : json) : Prop := ∃ m, v = JObj m ∧
  left_out_or texts "alg" m ∧ left_out_or texts "proof_type" m.
(** A name, as a string; or as the member of an object, which is then [null] (serde accepts both). *)
Definition name_value (names : list string) (v : json) : Prop :=
  ∃ s, s ∈ names ∧ (v = JStr s ∨ v = JObj [(s, JNull)]).
Definition has_kind (number : Z → json) (t : member_kind) (v : json) : Prop :=
  match t with
  | Text => ∃ s, v = JStr s
  | Number => ∃ z, v = number z ∧ fits 64 z
  | Flag => ∃ b, v = JBool b
  | Texts => texts v
  | OneOf names => name_value names v
  | SomeOf names => ∃ l, v = JArr l ∧ Forall (name_value names) l
  | Formats => ∃ m, v = JObj m ∧ ∀ k x, (k, x) ∈ m → k = "jwt_vp_json" ∧ format_value x
  end.
(** The members RFC 7591 and OpenID4VP give a client, and the kinds of values they may have here. *)
Definition optional_members : list (string * member_kind) :=
  [("client_id_issued_at", Number); ("client_secret", Text); ("client_secret_expires_at", Number); ("redirect_uris", Texts);
   ("token_endpoint_auth_method", OneOf ["none"; "client_secret_jwt"; "private_key_jwt"]);
   ("grant_types", SomeOf ["authorization_code"; "urn:ietf:params:oauth:grant-type:pre-authorized_code"]);
   ("response_types", SomeOf ["code"; "vp_token"; "id_token vp_token"]);
   ("client_name", Text); ("client_uri", Text); ("logo_uri", Text); ("scope", Text); ("contacts", Text); ("tos_uri", Text);
   ("policy_uri", Text); ("jwks_uri", Text); ("jwks", Text); ("software_id", Text); ("software_version", Text);
   ("require_pushed_authorization_requests", Flag); ("credential_offer_endpoint", Text); ("vp_formats", Formats)].
Definition metadata_members (number : Z → json) (m : list (string * json)) : Prop :=
  (∃ s, values_of "client_id" m = [JStr s]) ∧
  ∀ k t, (k, t) ∈ optional_members → left_out_or (has_kind number t) k m.

(** ** Responses *)
Definition readable_response (r : response_request) : Prop :=
  ∀ l v, rq_vp_token r = Some l → KObject v ∈ l → readable_vp v.
(** The JSON values in it that others chose. *)
Definition response_values (r : response_request) : list json :=
  flat_map (λ k, match k with KString _ => [] | KObject v => vp_values v end) (default [] (rq_vp_token r)).

(** ** Filters inside a presentation definition *)
Definition filter_in (j filter : json) : Prop :=
  ∃ d l x c fs f, j = JObj d ∧ ("input_descriptors", JArr l) ∈ d ∧ JObj x ∈ l ∧ ("constraints", JObj c) ∈ x ∧
    ("fields", JArr fs) ∈ c ∧ JObj f ∈ fs ∧ ("filter", filter) ∈ f.
(** A filter that can be read; [null] is none. *)
Definition simple_filter (v : json) : Prop := v = JNull ∨ ∃ f m, v = JObj m ∧ filter_members f m.

(** ** Authorization requests *)

(** The values client metadata can have: its dates are [i64]. *)
Definition dates_fit (c : client_metadata) : Prop :=
  (∀ z, mt_issued_at c = Some z → fits 64 z) ∧ (∀ z, mt_secret_expires_at c = Some z → fits 64 z).
Definition readable_metadata (j : json) : Prop := ∃ c, dates_fit c ∧ j = ser_client_metadata c.
Definition readable_vp_request (r : vp_request) : Prop :=
  (∀ d, vo_definition r = KObject d → readable_presentation_definition d) ∧ readable_metadata (vo_client_metadata r).

(** In the execution [c], no input descriptor names a format twice, and the provider's metadata are
    values of their type. *)
Definition well_supplied {R} (c : config VSig vrequest R) : Prop :=
  (∀ j r p d, c_pool c !! j = Some (VCreate r, p) → d ∈ vq_input_descriptors r → readable_descriptor d) ∧
  (∀ j id m, Y (WVerifier id (Some m)) ∈ calls_of j (c_log c) → readable_metadata m).
