(** The members OpenID4VCI gives the messages of the issuance protocol. *)
From Verif Require Import Base Json CoreModel VcModel Prog IssuerTypes.

(** An object with all of [required], possibly some of [optional], nothing else and nothing
    twice. *)
Definition has_members (required optional : list string) (j : json) : Prop :=
  ∃ m, j = JObj m ∧ NoDup (keys m) ∧ (∀ k, k ∈ required → k ∈ keys m) ∧
    ∀ k, k ∈ keys m → k ∈ required ∨ k ∈ optional.
(** The members that say what credential is meant, by format. *)
Definition w3c_members : list string := ["format"; "credential_definition"].
Definition mdl_members : list string := ["format"; "doctype"].
Definition sd_jwt_members : list string := ["format"; "vct"].
(** ... with their required and optional members, in an authorization detail, in a credential
    request, and for a proof. *)
Definition authorization_members (c : credential_authorization) : list string * list string :=
  match c with
  | ByConfigurationId _ None => (["credential_configuration_id"], [])
  | ByConfigurationId _ (Some (PCW3c _)) => (["credential_configuration_id"; "credential_definition"], [])
  | ByConfigurationId _ (Some _) => (["credential_configuration_id"; "claims"], [])
  | ByFormat (FIsoMdl _ _) => (mdl_members, ["claims"])
  | ByFormat (FVcSdJwt _ _) => (sd_jwt_members, ["claims"])
  | ByFormat _ => (w3c_members, [])
  end.
Definition issuance_members (c : credential_issuance) : list string * list string :=
  match c with
  | CIIdentifier _ => (["credential_identifier"], [])
  | CIFormat (FIsoMdl _ _) => (mdl_members, ["claims"])
  | CIFormat (FVcSdJwt _ _) => (sd_jwt_members, ["claims"])
  | CIFormat _ => (w3c_members, [])
  end.
Definition proof_members (p : option key_proof) : list string :=
  match p with Some (PSingle _) => ["proof"] | Some (PMultiple _) => ["proofs"] | None => [] end.

(** An object with exactly the members listed with a value, in any order, and nothing twice. *)
Definition exactly (l : list (string * option json)) (j : json) : Prop :=
  ∃ m, j = JObj m ∧ NoDup (keys m) ∧ ∀ k v, (k, v) ∈ m ↔ (k, Some v) ∈ l.
(** A string that is left out when it is empty. *)
Definition given (s : string) : option json := if bool_decide (s = "") then None else Some (JStr s).
