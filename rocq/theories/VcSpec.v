(** What a credential or presentation must satisfy to survive being written as JSON and read back,
    and the members it should have by the W3C data model. *)
From Verif Require Import Base Json MatcherModel JsonParse JsonText CoreModel VcModel Prog IssuerTypes IssuerModel IssuerSpec
  VerifierModel SerdeSpec.

Definition quota_elems {A} (q : quota A) : list A := match q with QOne a => [a] | QMany l => l end.

(** A JSON value in which no object repeats a name (every [serde_json::Value] is one). *)
Fixpoint proper (j : json) : Prop :=
  match j with
  | JArr l => (fix all (l : list json) : Prop := match l with [] => True | x :: r => proper x ∧ all r end) l
  | JObj m => NoDup (keys m) ∧
      (fix all (m : list (string * json)) : Prop := match m with [] => True | (_, x) :: r => proper x ∧ all r end) m
  | _ => True
  end.

(** An index or size: an unsigned number of 64 bits. *)
Definition fits_unsigned (n : N) : Prop := (n < 2 ^ 64)%N.

(** No claim is called "id". *)
Definition readable_subject (s : credential_subject) : Prop :=
  "id" ∉ keys (cs_claims s) ∧ proper (JObj (cs_claims s)).
Definition readable_status (s : credential_status) : Prop :=
  fits_unsigned (st_index s) ∧ ∀ n, st_size s = Some n → fits_unsigned n.
(** A context given as an object is not a string. *)
Definition readable_context (k : kind json) : Prop :=
  match k with KString _ => True | KObject j => proper j ∧ ∀ s, j ≠ JStr s end.
(** A list of proofs is not empty. *)
Definition readable_proof (p : option (quota integrity_proof)) : Prop := p ≠ Some (QMany []).

Definition readable_vc (v : vc) : Prop :=
  (∀ k, k ∈ vc_context v → readable_context k) ∧
  (∀ s, s ∈ quota_elems (vc_subject v) → readable_subject s) ∧
  (∀ q s, vc_status v = Some q → s ∈ quota_elems q → readable_status s) ∧
  readable_proof (vc_proof v).

Definition readable_vp (p : vp) : Prop :=
  (∀ k, k ∈ vp_context p → readable_context k) ∧
  (∀ l v, vp_credential p = Some l → KObject v ∈ l → readable_vc v) ∧
  readable_proof (vp_proof p).

(** The JSON values in a credential that others chose: contexts given as objects, and claims. *)
Definition vc_values (v : vc) : list json :=
  flat_map (λ k, match k with KString _ => [] | KObject j => [j] end) (vc_context v) ++
  flat_map (λ s, map snd (cs_claims s)) (quota_elems (vc_subject v)).
Definition vp_values (p : vp) : list json :=
  flat_map (λ k, match k with KString _ => [] | KObject j => [j] end) (vp_context p) ++
  flat_map (λ k, match k with KString _ => [] | KObject v => vc_values v end) (default [] (vp_credential p)).
(** All numbers in them are JSON numbers, and they are nested at most [n] deep. *)
Definition shallow (n : nat) (l : list json) : Prop := ∀ j, j ∈ l → jnumbers j ∧ jdepth j ≤ n.

(** What the provider of the issuer answers can be written and read: no dataset has a claim called
    "id", a repeated name or a claim nested more than [n] deep, and numbers are in range. *)
Definition readable_answers (n : nat) (es : list ievent) : Prop := ∀ e, e ∈ es →
  match e with
  | EExt (VDataset _ _ (Some ds)) =>
      "id" ∉ keys (ds_claims ds) ∧ proper (JObj (ds_claims ds)) ∧ shallow n (map snd (ds_claims ds))
  | EExt (VStatus _ _ (Some (Some q))) => ∀ s, s ∈ quota_elems q → readable_status s
  | EExt (VNow t) => fits 64 (timestamp t)
  | _ => True
  end.

(** The JSON that is signed for a credential; [number] writes an integer. *)
Definition credential_document (number : Z → json) (issuer holder type : string) (claims : list (string * json))
    (status : option json) (date : Z) (j : json) : Prop :=
  ∃ names,
    (∀ k, k ∈ keys names → k = "name" ∨ k = "description") ∧
    j = JObj [("sub", JStr holder); ("nbf", JNull); ("iss", JStr issuer); ("iat", number (timestamp date));
              ("jti", JStr (issuer +:+ "/credentials/" +:+ type));
              ("vc", JObj ([("@context", JArr [JStr "https://www.w3.org/2018/credentials/v1"; JStr (issuer +:+ "/credentials/v1")]);
                            ("id", JStr (issuer +:+ "/credentials/" +:+ type));
                            ("type", JArr [JStr "VerifiableCredential"; JStr type])]
                           ++ names
                           ++ [("issuer", JStr issuer); ("credentialSubject", JObj (("id", JStr holder) :: claims));
                               ("validFrom", JNull)]
                           ++ match status with Some s => [("credentialStatus", s)] | None => [] end))].

(** A status entry with the members the Bitstring Status List specification gives it. *)
Definition standard_status (purpose index credential : string) : json :=
  JObj [("type", JStr "BitstringStatusListEntry"); ("statusPurpose", JStr purpose); ("statusListIndex", JStr index);
        ("statusListCredential", JStr credential)].

(** The constants the filters of a definition ask for. *)
Definition asked_constants (d : presentation_definition) : list string :=
  flat_map (λ x, flat_map (λ f, match fd_filter f with
                                | Some fl => match fl_value fl with FConst s => [s] | _ => [] end
                                | None => []
                                end) (default [] (cn_fields (id_constraints x)))) (pd_input_descriptors d).
