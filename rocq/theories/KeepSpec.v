(** A wallet that keeps its credentials in the store of the example wallet. *)
From Verif Require Import Base Json CoreModel VcModel Prog ExecSpec IssuerTypes MetaSerde SerdeModel VcSerde VcSpec MatcherModel VerifierModel VerifierSpec
  HolderModel HolderSpec RecordSerde WalletModel DriveSpec.

(** The record in the store is that of a credential of the library. *)
Definition kept_as (k : kept_credential) (c : wcredential) : Prop := same_credential k c ∧ kc_vc k = wc_vc c.
(** The credentials the wallet finds are those that the store finds, after operations (removals, failures and restarts
    included) that saved only what the wallet had asked to be saved before. *)
Definition kept_by (cx : codecs) (eng : engine) (c : hconfig) : Prop :=
  ∀ m i f creds, made c m i (HX (EFind f (Some creds))) →
  ∃ ops l, ws_find cx eng (Some f) (ws_run cx ops ws_empty) = Ok l ∧ Forall2 kept_as l creds ∧
    ∀ k w, WSave k w ∈ ops → ∃ n j cr b, n < m ∧ made c n j (HX (ESave cr b)) ∧ kept_as k cr.
(** Wallet and verifier read the same credential from a token, and the verifier matches its JSON. *)
Definition reads_alike (cx : codecs) (c : hconfig) (su : surroundings) : Prop :=
  ∀ n i t v d, made c n i (HX (EVerifyVc t (Some (v, d)))) →
  readable_vc v ∧ ∃ s, su_vc su t s ∧ vcc_vc (sv_claims s) = v ∧ sv_json s = Some (ser_vc cx v).
(** The credential is not past its validity. *)
Definition unexpired (su : surroundings) (v : vc) : Prop :=
  ∀ exp, vc_valid_until v = Some exp → ∃ now, su_clock su now ∧ (now ≤ exp)%Z.
