(** What is said about the wallet's requests as JSON. *)
From Verif Require Import Base Json CoreModel VcModel Prog ExecSpec IssuerTypes SerdeSpec HolderModel HolderSpec RecordSpec.

(** The claims in the metadata the wallet is given can be read, and are nested at most [n] deep. *)
Definition metadata_supplied (n : nat) (c : hconfig) : Prop :=
  ∀ m i iss md id cfg, made c m i (HX (EMetadata iss (Some md))) → (id, cfg) ∈ is_configurations md →
    ∀ l, format_claims (cc_format cfg) = Some l → readable_claims l ∧ claims_depth l ≤ n.
(** Requests as the issuer gets them: claims of SD-JWT credentials named along with a configuration
    are taken for those of mobile documents (C105). *)
Definition details_as_read (o : option (list authorization_detail)) : option (list authorization_detail) := option_map (map read_back) o.
Definition token_as_read (r : token_request) : token_request :=
  TokenRequest (tr_credential_issuer r) (tr_client_id r) (tr_grant r) (details_as_read (tr_authorization_details r)).
Definition request_as_read (r : request_object) : request_object :=
  RequestObject (ro_credential_issuer r) (ro_response_type r) (ro_client_id r) (ro_redirect_uri r) (ro_state r) (ro_code_challenge r)
    (ro_code_challenge_method r) (details_as_read (ro_authorization_details r)) (ro_scope r) (ro_subject_id r) (ro_issuer_state r).
(** No claims of an SD-JWT credential are asked for. *)
Definition no_sd_jwt_claims (o : option (list authorization_detail)) : Prop :=
  ∀ l d id cl, o = Some l → d ∈ l → ad_credential d ≠ ByConfigurationId id (Some (PCSdJwt cl)).
