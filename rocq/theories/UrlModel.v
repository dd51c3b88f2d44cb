(** crates/core/src/urlencode.rs and urlencode/ser.rs: query strings. *)
From Verif Require Import Base.

(** What a [Serialize] implementation hands to the serializer (serde's data model): the
    numbers of all types are their decimal text; unit variants and newtypes are the
    string or value inside; [None] is [UNull]; fields of structs that are skipped are not
    in the list.  Enum variants with data and tuples, which no request uses, are left out. *)
Inductive uval : Type :=
| UStr (s : string)
| UNum (text : string)
| UBool (b : bool)
| UNull
| USeq (l : list uval)
| UStruct (fs : list (string * uval))
| UMap (m : list (string * uval)).

(** [str::ends_with] for one character. *)
Fixpoint ends_in (c : ascii) (s : string) : bool :=
  match s with
  | EmptyString => false
  | String c' EmptyString => bool_decide (c = c')
  | String _ s' => ends_in c s'
  end.

Definition quote : string := String (ascii_of_nat 34) EmptyString.

(** crates/core/src/urlencode/ser.rs 67-70, [Serializer]: the output so far and the level. *)
Record ser_state : Type := SerState { ss_out : string; ss_level : nat }.
Definition push (t : string) (s : ser_state) : ser_state := SerState (ss_out s +:+ t) (ss_level s).
Definition deeper (s : ser_state) : ser_state := SerState (ss_out s) (S (ss_level s)).
Definition shallower (s : ser_state) : ser_state := SerState (ss_out s) (pred (ss_level s)).
(** [self.level > TOP_LEVEL] *)
Definition nested (s : ser_state) : bool := Nat.ltb 1 (ss_level s).

(** ser.rs 138-147, [serialize_str]. *)
Definition ser_str (t : string) (s : ser_state) : ser_state :=
  if nested s then push (quote +:+ t +:+ quote) s else push t s.

(** ser.rs 325-328 and 438-441, the separator before an element or a key. *)
Definition separate (opener : ascii) (s : ser_state) : ser_state :=
  if ends_in opener (ss_out s) then s else push "," s.

(** ser.rs 467-473, what [SerializeStruct::serialize_field] writes before the key. *)
Definition separate_field (s : ser_state) : ser_state :=
  if nested s then separate "{" s
  else if str_is_empty (ss_out s) then s else push "&" s.

(** ser.rs 83-289 with 321-491: sequences (237-241, 321-335), structs (287-289, 463-491)
    and maps (276-284, 434-456). *)
Fixpoint ser (v : uval) (s : ser_state) {struct v} : ser_state :=
  match v with
  | UStr t => ser_str t s
  | UNum t => push t s
  | UBool b => push (if b then "true" else "false") s
  | UNull => push "null" s
  | USeq l =>
      let s := push "[" (deeper s) in
      let s := (fix go l s := match l with
                | [] => s
                | x :: r => go r (ser x (separate "[" s))
                end) l s in
      shallower (push "]" s)
  | UStruct fs =>
      let s := deeper s in
      let s := if nested s then push "{" s else s in
      let s := (fix go (l : list (string * uval)) s := match l with
                | [] => s
                | (k, x) :: r =>
                    let s := ser_str k (separate_field s) in
                    let s := push (if nested s then ":" else "=") s in
                    go r (ser x s)
                end) fs s in
      if nested s then shallower (push "}" s) else s
  | UMap m =>
      let s := deeper s in
      let s := if nested s then push "{" s else s in
      let s := (fix go (l : list (string * uval)) s := match l with
                | [] => s
                | (k, x) :: r => go r (ser x (push ":" (ser_str k (separate "{" s))))
                end) m s in
      shallower (push "}" s)
  end.

(** ** Percent encoding (the percent-encoding crate) *)

(** ser.rs 7-8, [UNRESERVED]: what is not escaped. *)
Definition keeps (c : ascii) : bool :=
  let n := nat_of_ascii c in
  (Nat.leb 48 n && Nat.leb n 57) || (Nat.leb 65 n && Nat.leb n 90) || (Nat.leb 97 n && Nat.leb n 122) ||
  bool_decide (c ∈ ["&"; "="; "."; "_"; "-"; "~"]%char).

Definition hex_digit (n : nat) : ascii := ascii_of_nat (if Nat.ltb n 10 then 48 + n else 55 + n).
Definition hex_value (c : ascii) : option nat :=
  let n := nat_of_ascii c in
  if Nat.leb 48 n && Nat.leb n 57 then Some (n - 48)
  else if Nat.leb 65 n && Nat.leb n 70 then Some (n - 55)
  else if Nat.leb 97 n && Nat.leb n 102 then Some (n - 87)
  else None.

Fixpoint percent_encode (s : string) : string :=
  match s with
  | EmptyString => EmptyString
  | String c r =>
      if keeps c then String c (percent_encode r)
      else String "%" (String (hex_digit (nat_of_ascii c / 16))
             (String (hex_digit (nat_of_ascii c mod 16)) (percent_encode r)))
  end.
Fixpoint percent_decode (s : string) : string :=
  match s with
  | String "%" (String h (String l r) as r1) =>
      match hex_value h, hex_value l with
      | Some a, Some b => String (ascii_of_nat (16 * a + b)) (percent_decode r)
      | _, _ => String "%" (percent_decode r1)
      end
  | String c r => String c (percent_decode r)
  | EmptyString => EmptyString
  end.

(** ser.rs 44-56, [to_string]. *)
Definition url_to_string (v : uval) : string := percent_encode (ss_out (ser v (SerState "" 0))).

(** ** Decoding *)

(** [str::replace] for a pattern of one and of two characters. *)
Fixpoint replace1 (a : ascii) (t s : string) : string :=
  match s with
  | EmptyString => EmptyString
  | String c r => if bool_decide (c = a) then t +:+ replace1 a t r else String c (replace1 a t r)
  end.
Fixpoint replace2 (a b : ascii) (t s : string) {struct s} : string :=
  match s with
  | EmptyString => EmptyString
  | String c r =>
      match r with
      | String d r' =>
          if bool_decide (c = a) && bool_decide (d = b) then t +:+ replace2 a b t r'
          else String c (replace2 a b t r)
      | EmptyString => String c EmptyString
      end
  end.

(** crates/core/src/urlencode.rs 51-60: the JSON text that is made of a query string.
    The replacement of invalid UTF-8 ([decode_utf8_lossy]) is left out. *)
Definition url_json (s : string) : string :=
  let q := ascii_of_nat 34 in
  let s := "{" +:+ quote +:+ percent_decode s +:+ quote +:+ "}" in
  let s := replace1 "=" (quote +:+ ":" +:+ quote) s in
  let s := replace1 "&" (quote +:+ "," +:+ quote) s in
  let s := replace2 q "[" "[" s in
  let s := replace2 "]" q "]" s in
  let s := replace2 q "{" "{" s in
  replace2 "}" q "}" s.

(** crates/core/src/urlencode.rs 47-63, [from_str]: [parse] is [serde_json::from_str]. *)
Definition url_from_str {T} (parse : string → option T) (s : string) : option T := parse (url_json s).
