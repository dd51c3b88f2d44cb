(** A small JSONPath engine (member and index selectors only), and a credential. *)
From Verif Require Import Base Json MatcherModel.

Inductive segment : Type := Member (s : string) | Index (n : nat).

(** The characters of a member name, and the rest. *)
Fixpoint take_name (s : string) : string * string :=
  match s with
  | EmptyString => ("", "")
  | String c r => if Ascii.eqb c "." || Ascii.eqb c "[" then ("", s)
                  else let '(w, rest) := take_name r in (String c w, rest)
  end.
Definition digit (c : ascii) : option nat :=
  let n := nat_of_ascii c in if Nat.leb 48 n && Nat.leb n 57 then Some (n - 48) else None.
Fixpoint take_index (acc : nat) (s : string) : option (nat * string) :=
  match s with
  | EmptyString => None
  | String c r => if Ascii.eqb c "]" then Some (acc, r)
                  else match digit c with Some d => take_index (10 * acc + d) r | None => None end
  end.
Fixpoint parse_segments (fuel : nat) (s : string) : option (list segment) :=
  match fuel with
  | O => None
  | S f =>
      match s with
      | EmptyString => Some []
      | String c r =>
          if Ascii.eqb c "." then
            let '(w, rest) := take_name r in
            match w with "" => None | _ => option_map (cons (Member w)) (parse_segments f rest) end
          else if Ascii.eqb c "[" then
            match take_index 0 r with
            | Some (n, rest) => option_map (cons (Index n)) (parse_segments f rest)
            | None => None
            end
          else None
      end
  end.
Fixpoint follow (l : list segment) (v : json) : list json :=
  match l with
  | [] => [v]
  | Member s :: r => match v with JObj m => match assoc s m with Some x => follow r x | None => [] end | _ => [] end
  | Index n :: r => match v with JArr a => match a !! n with Some x => follow r x | None => [] end | _ => [] end
  end.
Definition ex_query (p : string) (v : json) : option (list json) :=
  match p with
  | String "$" r => option_map (λ l, follow l v) (parse_segments (S (String.length r)) r)
  | _ => None
  end.

(** Patterns are taken literally. *)
Fixpoint starts (p s : string) : bool :=
  match p, s with
  | EmptyString, _ => true
  | String a p, String b s => Ascii.eqb a b && starts p s
  | _, EmptyString => false
  end.
Fixpoint occurs (p s : string) : bool :=
  starts p s || match s with EmptyString => false | String _ r => occurs p r end.
Definition ex_engine : engine :=
  Engine ex_query (λ p s, Some (occurs p s)) (λ s, Nat.eqb (String.length s) 10) (λ s, Nat.leb 20 (String.length s)).

Definition ex_credential : json :=
  JObj [("credentialSubject", JObj [("employeeId", JStr "1234567890"); ("id", JStr "did:holder")]);
        ("id", JStr "cred1"); ("issuer", JStr "did:issuer");
        ("type", JArr [JStr "VerifiableCredential"; JStr "EmployeeIDCredential"])].
Definition by_type (t : string) : constraints :=
  Constraints (Some [Field ["$.type"] (Some (Filter "string" (FConst t))) None]).
