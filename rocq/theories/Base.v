(** Basic vocabulary shared by all models: strings, association lists (Rust
    [HashMap]s), results, and time. *)
From stdpp Require Export prelude gmap strings.
From Coq Require Export ZArith Ascii.

(** Result of a Rust computation.  [Err] is a returned [Err(_)], [Panic] an
    unwinding panic ([todo!], [unimplemented!], index out of bounds, ...). *)
Inductive outcome (E A : Type) : Type :=
| Ok (a : A)
| Err (e : E)
| Panic (why : string).
Global Arguments Ok {E A} a.
Global Arguments Err {E A} e.
Global Arguments Panic {E A} why.

Definition is_ok {E A} (o : outcome E A) : bool :=
  match o with Ok _ => true | _ => false end.

(** ** Hash maps

    A Rust [HashMap<String, A>] is a list of entries; its order is the
    (unspecified) iteration order.  [assoc] is [HashMap::get], [ainsert] is
    [HashMap::insert]. *)
Fixpoint assoc {A} (k : string) (l : list (string * A)) : option A :=
  match l with
  | [] => None
  | (k', v) :: l' => if bool_decide (k = k') then Some v else assoc k l'
  end.

Fixpoint ainsert {A} (k : string) (v : A) (l : list (string * A)) : list (string * A) :=
  match l with
  | [] => [(k, v)]
  | (k', v') :: l' => if bool_decide (k = k') then (k, v) :: l' else (k', v') :: ainsert k v l'
  end.

(** [HashMap::contains_key] *)
Definition has_key {A} (k : string) (l : list (string * A)) : bool :=
  match assoc k l with Some _ => true | None => false end.

Definition keys {A} (l : list (string * A)) : list string := map fst l.

(** Iteration order of a hash map built by the program: an arbitrary
    permutation, given as a list of positions.  A list that is not a
    permutation of the positions leaves the order unchanged. *)
Definition permute {A} (ix : list nat) (l : list A) : list A :=
  if bool_decide (ix ≡ₚ seq 0 (length l)) then omap (λ i, l !! i) ix else l.

(** ** Strings (byte strings) *)

(** ASCII white space, as in [str::split_whitespace] (the non-ASCII white space
    characters of Unicode are not modelled). *)
Definition is_ws (c : ascii) : bool :=
  match nat_of_ascii c with
  | 9 | 10 | 11 | 12 | 13 | 32 => true
  | _ => false
  end.

Fixpoint split_ws_aux (s : string) : string * list string :=
  match s with
  | EmptyString => (EmptyString, [])
  | String c r =>
      let '(w, ws) := split_ws_aux r in
      if is_ws c then (EmptyString, if bool_decide (w = EmptyString) then ws else w :: ws)
      else (String c w, ws)
  end.

(** [str::split_whitespace] *)
Definition split_whitespace (s : string) : list string :=
  let '(w, ws) := split_ws_aux s in
  if bool_decide (w = EmptyString) then ws else w :: ws.

(** [s.split(c).next()]: the part before the first [c]. *)
Fixpoint before_char (c : ascii) (s : string) : string :=
  match s with
  | EmptyString => EmptyString
  | String a r => if Ascii.eqb a c then EmptyString else String a (before_char c r)
  end.

Definition str_is_empty (s : string) : bool :=
  match s with EmptyString => true | _ => false end.

(** [Vec::contains], [slice::contains] *)
Definition contains `{EqDecision A} (l : list A) (x : A) : bool := bool_decide (x ∈ l).

(** ** Time

    [DateTime<Utc>] and [TimeDelta] are integers counting nanoseconds. *)
Definition nanos : Z := 1000000000.
Definition seconds (n : Z) : Z := (n * nanos)%Z.
Definition minutes (n : Z) : Z := seconds (60 * n)%Z.
(** chrono [TimeDelta::num_seconds]: truncation towards zero. *)
Definition num_seconds (d : Z) : Z := Z.quot d nanos.
(** chrono [DateTime::timestamp]: whole seconds since the epoch (floor). *)
Definition timestamp (t : Z) : Z := Z.div t nanos.
