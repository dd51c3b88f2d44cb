(** Properties C50-C52: matching credentials against constraints. *)
From Verif Require Import Base Json MatcherModel MatcherSpec MatcherFacts MatcherExample.

(** C50.  Whenever evaluation ends (see C52). *)
Theorem C50_satisfied_iff_matched_or_optional eng c v b :
  satisfied eng c (Some v) = Ok b → b = true ↔ meets eng c v.
Proof. exact (satisfied_spec eng c v b). Qed.
Print Assumptions C50_satisfied_iff_matched_or_optional.
Example C50_example :
  satisfied ex_engine (by_type "EmployeeIDCredential") (Some ex_credential) = Ok true ∧
  satisfied ex_engine (by_type "Passport") (Some ex_credential) = Ok false ∧
  satisfied ex_engine (Constraints (Some [Field ["$.nothing"; "$.type[0]"] None None])) (Some ex_credential) = Ok true ∧
  satisfied ex_engine (Constraints (Some [Field ["$.nothing"] None None])) (Some ex_credential) = Ok false ∧
  satisfied ex_engine (Constraints (Some [Field ["$.nothing"] None (Some true)])) (Some ex_credential) = Ok true.
Proof. vm_compute. auto. Qed.

(** C51.  Refuted: a string equal to the constant never matches, and null matches every
    constant. *)
Theorem C51_equal_string_never_matches_refuted c : match_const c (JStr c) = Ok false.
Proof. exact (const_string_never c). Qed.
Print Assumptions C51_equal_string_never_matches_refuted.
Theorem C51_null_always_matches_refuted c : match_const c JNull = Ok true.
Proof. exact (const_null c). Qed.
Print Assumptions C51_null_always_matches_refuted.
(** It holds for arrays. *)
Theorem C51_array_matches_iff_contains_partial c l b :
  match_const c (JArr l) = Ok b → b = true ↔ equal_to_const c (JArr l).
Proof. exact (const_array c l b). Qed.
Print Assumptions C51_array_matches_iff_contains_partial.
(** A whole credential refused for it, and one accepted for it. *)
Example C51_example :
  satisfied ex_engine (Constraints (Some [Field ["$.id"] (Some (Filter "string" (FConst "cred1"))) None]))
    (Some ex_credential) = Ok false ∧
  ex_query "$.id" ex_credential = Some [JStr "cred1"] ∧
  satisfied ex_engine (Constraints (Some [Field ["$.degree"] (Some (Filter "string" (FConst "PhD"))) None]))
    (Some (JObj [("degree", JNull)])) = Ok true.
Proof. vm_compute. auto. Qed.

(** C52.  Refuted: const on an object, and a format other than the two known ones. *)
Theorem C52_matching_panics_refuted : ∃ eng c v w c' w',
  satisfied eng c (Some v) = Panic w ∧ satisfied eng c' (Some v) = Panic w' ∧
  c = Constraints (Some [Field ["$.credentialSubject"] (Some (Filter "string" (FConst "x"))) None]) ∧
  c' = Constraints (Some [Field ["$.id"] (Some (Filter "string" (FFormat "email"))) (Some true)]).
Proof.
  exists ex_engine. eexists _, ex_credential, _, _, _.
  split; [|split; [|split; reflexivity]]; vm_compute; reflexivity.
Qed.
Print Assumptions C52_matching_panics_refuted.
(** There are no other panics: evaluation ends if no field comes down to one of these. *)
Theorem C52_no_other_panic_partial eng c v :
  (∀ fs f, cn_fields c = Some fs → f ∈ fs → ¬ stuck eng f v) → ∃ b, satisfied eng c (Some v) = Ok b.
Proof. exact (satisfied_total eng c v). Qed.
Print Assumptions C52_no_other_panic_partial.
