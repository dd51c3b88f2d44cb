(** What the query string properties say. *)
From Verif Require Import Base UrlModel.

(** Text that JSON writes as it is. *)
Definition unescaped (c : ascii) : bool :=
  Nat.leb 32 (nat_of_ascii c) && negb (bool_decide (nat_of_ascii c = 34)) && negb (bool_decide (nat_of_ascii c = 92)).

(** Text that means nothing to the decoder: no character that JSON escapes, no
    [=] and [&], no bracket or brace at the start or end. *)
Fixpoint all_chars (P : ascii → bool) (s : string) : bool :=
  match s with EmptyString => true | String c r => P c && all_chars P r end.
Definition starts_in (c : ascii) (s : string) : bool :=
  match s with EmptyString => false | String c' _ => bool_decide (c = c') end.
Definition innocent (s : string) : Prop :=
  all_chars (λ c, unescaped c && negb (bool_decide (c ∈ ["="; "&"]%char))) s = true ∧
  starts_in "[" s = false ∧ starts_in "{" s = false ∧ ends_in "]" s = false ∧ ends_in "}" s = false.
(** The text of a number. *)
Definition numeric (s : string) : Prop :=
  s ≠ "" ∧ all_chars (λ c, (Nat.leb 48 (nat_of_ascii c) && Nat.leb (nat_of_ascii c) 57) ||
                            bool_decide (c ∈ ["-"; "+"; "."; "e"; "E"]%char)) s = true.

(** The JSON text of a value that needs no escapes. *)
Definition quoted (s : string) : string := quote +:+ s +:+ quote.
Fixpoint join (l : list string) : string :=
  match l with
  | [] => ""
  | [x] => x
  | x :: r => x +:+ "," +:+ join r
  end.
Fixpoint json_text (v : uval) : string :=
  match v with
  | UStr s => quoted s
  | UNum t => t
  | UBool b => if b then "true" else "false"
  | UNull => "null"
  | USeq l => "[" +:+ join (map json_text l) +:+ "]"
  | UStruct fs | UMap fs =>
      "{" +:+ join ((fix go (fs : list (string * uval)) := match fs with
                     | [] => [] | (k, v) :: r => (quoted k +:+ ":" +:+ json_text v) :: go r end) fs) +:+ "}"
  end.

(** Values all of whose strings are innocent. *)
Fixpoint harmless (v : uval) : Prop :=
  match v with
  | UStr s => innocent s
  | UNum t => numeric t
  | UBool _ | UNull => True
  | USeq l => (fix go l := match l with [] => True | x :: r => harmless x ∧ go r end) l
  | UStruct fs | UMap fs =>
      (fix go (fs : list (string * uval)) := match fs with
         | [] => True | (k, v) :: r => innocent k ∧ harmless v ∧ go r end) fs
  end.
Definition compound (v : uval) : Prop :=
  match v with UStr _ | USeq _ | UStruct _ | UMap _ => True | _ => False end.

(** A request that the decoder handles: some parameters, each a string, list or object. *)
Definition harmless_request (fs : list (string * uval)) : Prop :=
  fs ≠ [] ∧ ∀ k v, (k, v) ∈ fs → innocent k ∧ harmless v ∧ compound v.

(** [q] is [s] with some characters escaped, in RFC 3986's way: any characters, with hexadecimal
    digits in upper or lower case, but at least those for [%]. *)
Definition hex_of (n : nat) (c : ascii) : Prop :=
  String.get n "0123456789ABCDEF" = Some c ∨ String.get n "0123456789abcdef" = Some c.
Inductive escapes : string → string → Prop :=
| escapes_end : escapes "" ""
| escapes_plain c q s : c ≠ "%"%char → escapes q s → escapes (String c q) (String c s)
| escapes_char a b x y q s : hex_of a x → hex_of b y → escapes q s →
    escapes (String "%" (String x (String y q))) (String (ascii_of_nat (16 * a + b)) s).
