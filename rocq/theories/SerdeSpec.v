(** What a value must satisfy to survive being written as JSON and read back. *)
From Verif Require Import Base Json CoreModel VcModel Prog IssuerTypes.

(** Members of a claim's own description. *)
Definition reserved : list string := ["mandatory"; "value_type"; "display"].
(** A set of nested claims is not empty and none of them is named like a member of a claim's
    description.  (That names are not repeated holds of every [HashMap].) *)
Fixpoint readable_claim (c : claim) : Prop :=
  match c with
  | CEntry _ => True
  | CSet l =>
      l ≠ [] ∧ NoDup (keys l) ∧
      (fix all (l : list (string * claim)) : Prop :=
         match l with [] => True | (k, c) :: r => (k ∉ reserved ∧ readable_claim c) ∧ all r end) l
  end.
Definition readable_claims (l : claimset) : Prop :=
  NoDup (keys l) ∧ ∀ k c, (k, c) ∈ l → readable_claim c.
Definition readable_definition (d : credential_definition) : Prop :=
  ∀ l, cd_subject d = Some l → readable_claims l.
Definition readable_format (f : format) : Prop :=
  ∀ l, format_claims f = Some l → readable_claims l.
(** The claims asked for with a configuration id are not the SD-JWT variant. *)
Definition readable_authorization (c : credential_authorization) : Prop :=
  match c with
  | ByConfigurationId _ None => True
  | ByConfigurationId _ (Some (PCW3c d)) => readable_definition d
  | ByConfigurationId _ (Some (PCIsoMdl l)) => readable_claims l
  | ByConfigurationId _ (Some (PCSdJwt _)) => False
  | ByFormat f => readable_format f
  end.
Definition readable_detail (d : authorization_detail) : Prop := readable_authorization (ad_credential d).
Definition readable_details (o : option (list authorization_detail)) : Prop :=
  ∀ l d, o = Some l → d ∈ l → readable_detail d.
Definition readable_request (r : request_object) : Prop := readable_details (ro_authorization_details r).
Definition readable_issuance (c : credential_issuance) : Prop :=
  match c with CIIdentifier _ => True | CIFormat f => readable_format f end.
Definition readable_credential_request (r : credential_request) : Prop := readable_issuance (cr_credential r).
(** A signed integer of [n] bits. *)
Definition fits (n z : Z) : Prop := (- 2 ^ (n - 1) <= z < 2 ^ (n - 1))%Z.
Definition readable_offer (o : credential_offer) : Prop :=
  ∀ g p t n, of_grants o = Some g → gr_pre_authorized_code g = Some p → pg_tx_code p = Some t →
    tc_length t = Some n → fits 32 n.
Definition readable_item (i : authorized_item) : Prop :=
  match ai_item i with ItemDetail d => readable_detail d | ItemScope _ => True end.
(** What is saved. *)
Definition readable_stage (s : stage) : Prop :=
  match s with
  | Unauthorized => True
  | Pending o => readable_offer o
  | Offered o => ∀ l i, off_items o = Some l → i ∈ l → readable_item i
  | PushedAuthorization r _ => readable_request r
  | StAuthorized a => ∀ i, i ∈ az_items a → readable_item i
  | Validated t => NoDup (keys (tk_credentials t))
  | Issued _ => True
  | Deferred _ r => readable_credential_request r
  end.
Definition readable_state (s : state) : Prop := readable_stage (s_stage s).

(** Claims that can be read are nested this deep. *)
Fixpoint claim_depth (c : claim) : nat :=
  match c with CEntry _ => 1 | CSet l => S (list_max (map (λ kc, claim_depth kc.2) l)) end.
Definition claims_depth (l : claimset) : nat := list_max (map (λ kc, claim_depth kc.2) l).

(** The claims named anywhere in a saved state. *)
Definition opt_list {A} (o : option A) : list A := match o with Some a => [a] | None => [] end.
Definition authorization_claims (c : credential_authorization) : list claimset :=
  match c with
  | ByConfigurationId _ (Some (PCW3c d)) => opt_list (cd_subject d)
  | ByConfigurationId _ (Some (PCIsoMdl l)) | ByConfigurationId _ (Some (PCSdJwt l)) => [l]
  | ByConfigurationId _ None => []
  | ByFormat f => opt_list (format_claims f)
  end.
Definition details_claims (o : option (list authorization_detail)) : list claimset :=
  match o with Some l => l ≫= (λ d, authorization_claims (ad_credential d)) | None => [] end.
Definition issuance_claims (c : credential_issuance) : list claimset :=
  match c with CIIdentifier _ => [] | CIFormat f => opt_list (format_claims f) end.
Definition items_claims (l : list authorized_item) : list claimset :=
  l ≫= (λ i, match ai_item i with ItemDetail d => authorization_claims (ad_credential d) | ItemScope _ => [] end).
Definition stage_claims (s : stage) : list claimset :=
  match s with
  | Offered o => match off_items o with Some l => items_claims l | None => [] end
  | PushedAuthorization r _ => details_claims (ro_authorization_details r)
  | StAuthorized a => items_claims (az_items a)
  | Deferred _ r => issuance_claims (cr_credential r)
  | _ => []
  end.
