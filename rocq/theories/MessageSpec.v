(** Vocabulary for the remaining messages of the issuer. *)
From Verif Require Import Base Json MatcherModel JsonParse CoreModel VcModel Prog IssuerTypes HolderModel SerdeSpec DifSerde DifSpec MessageSerde.

(** The values an issuer's client can have: its dates are [i64], and it has none of what only verifiers have. *)
Definition possible_client (c : issuers_client) : Prop := mt_vp_formats (ic_oauth c) = None ∧ dates_fit (ic_oauth c).
(** The same metadata without the offer endpoint. *)
Definition no_endpoint (c : client_metadata) : client_metadata :=
  ClientMetadata (mt_client_id c) (mt_issued_at c) (mt_secret_expires_at c) (mt_redirect_uris c) (mt_endpoint_auth c)
    (mt_grant_types c) (mt_response_types c) (mt_pushed c) (mt_secret c) (mt_name c) (mt_uri c) (mt_logo c) (mt_scope c)
    (mt_contacts c) (mt_tos c) (mt_policy c) (mt_jwks_uri c) (mt_jwks c) (mt_software_id c) (mt_software_version c)
    None (mt_vp_formats c).
(** The characters OpenID4VCI allows in the description of an event: %x20-21 / %x23-5B / %x5D-7E. *)
Definition describing (s : string) : Prop :=
  ∀ c, c ∈ String.list_ascii_of_string s →
    let n := Ascii.nat_of_ascii c in 32 ≤ n ≤ 33 ∨ 35 ≤ n ≤ 91 ∨ 93 ≤ n ≤ 126.
(** The members of a notification that is read: those of OpenID4VCI, with the issuer and the token that this
    library puts beside them. *)
Definition text_or_nothing (k : string) (m : list (string * json)) : Prop :=
  values_of k m = [] ∨ ∃ s, values_of k m = [JStr s].
Definition notice_members (m : list (string * json)) : Prop :=
  text_or_nothing "credential_issuer" m ∧ text_or_nothing "access_token" m ∧
  (∃ s, values_of "notification_id" m = [JStr s]) ∧
  (∃ v, values_of "event" m = [v] ∧ name_value ["credential_accepted"; "credential_failure"; "credential_deleted"] v) ∧
  left_out_or (λ v, ∃ s, v = JStr s) "event_description" m.
