(** Which of the issuer's answers can be read back. *)
From Verif Require Import Base Json CoreModel VcModel Prog IssuerTypes VerifierModel HolderModel SerdeSpec VcSpec.

(** The credentials of an answer. *)
Definition answer_credentials (t : wresponse_type) : list (kind vc) :=
  match t with WRCredential k => [k] | WRCredentials l => l | WRTransactionId _ => [] end.
(** Credentials given as objects are readable (C116), and the lifetime fits its integer type. *)
Definition readable_reply (r : wresponse) : Prop :=
  (∀ v, KObject v ∈ answer_credentials (wr_response r) → readable_vc v) ∧
  (∀ n, wr_c_nonce_expires_in r = Some n → fits 64 n).
