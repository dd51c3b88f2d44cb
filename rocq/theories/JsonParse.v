(** Reading JSON text: [serde_json::from_str].  serde_json is not part of the repository; the
    parser is written from RFC 8259 and the crate's documentation.  Texts are UTF-8.  Numbers
    are kept as their text.  Entries of an object are kept as they come, repeated keys
    included: what becomes of those depends on the type that is read (SerdeModel.v). *)
From Verif Require Import Base Json MatcherModel.

Definition ws (c : ascii) : bool :=
  match nat_of_ascii c with 32 | 9 | 10 | 13 => true | _ => false end.
Fixpoint skip_ws (s : string) : string :=
  match s with String c r => if ws c then skip_ws r else s | "" => "" end.

(** ** Strings *)
Definition hex_value (c : ascii) : option nat :=
  let n := nat_of_ascii c in
  if Nat.leb 48 n && Nat.leb n 57 then Some (n - 48)
  else if Nat.leb 65 n && Nat.leb n 70 then Some (n - 55)
  else if Nat.leb 97 n && Nat.leb n 102 then Some (n - 87)
  else None.
Definition hex4 (a b c d : ascii) : option N :=
  match hex_value a, hex_value b, hex_value c, hex_value d with
  | Some a, Some b, Some c, Some d =>
      Some (((N.of_nat a * 16 + N.of_nat b) * 16 + N.of_nat c) * 16 + N.of_nat d)%N
  | _, _, _, _ => None
  end.
(** The UTF-8 bytes of a code point. *)
Definition utf8 (n : N) : string :=
  let byte (x : N) := ascii_of_N x in
  let cont (x : N) := byte (128 + x mod 64)%N in
  if N.ltb n 128 then String (byte n) ""
  else if N.ltb n 2048 then String (byte (192 + n / 64)%N) (String (cont n) "")
  else if N.ltb n 65536 then
    String (byte (224 + n / 4096)%N) (String (cont (n / 64)%N) (String (cont n) ""))
  else
    String (byte (240 + n / 262144)%N) (String (cont (n / 4096)%N) (String (cont (n / 64)%N) (String (cont n) ""))).
Definition high_surrogate (n : N) : bool := N.leb 55296 n && N.leb n 56319.
Definition low_surrogate (n : N) : bool := N.leb 56320 n && N.leb n 57343.
Definition pre (p : string) (x : option (string * string)) : option (string * string) :=
  match x with Some (a, r) => Some (p +:+ a, r) | None => None end.
(** What follows the opening quote: the string, and the rest of the text. *)
Fixpoint parse_str (s : string) : option (string * string) :=
  match s with
  | String c r =>
      match nat_of_ascii c with
      | 34 => Some ("", r)
      | 92 =>
          match r with
          | String e r =>
              match nat_of_ascii e with
              | 34 | 47 | 92 => pre (String e "") (parse_str r)
              | 98 => pre (String (ascii_of_nat 8) "") (parse_str r)
              | 102 => pre (String (ascii_of_nat 12) "") (parse_str r)
              | 110 => pre (String (ascii_of_nat 10) "") (parse_str r)
              | 114 => pre (String (ascii_of_nat 13) "") (parse_str r)
              | 116 => pre (String (ascii_of_nat 9) "") (parse_str r)
              | 117 =>
                  match r with
                  | String h1 (String h2 (String h3 (String h4 r))) =>
                      match hex4 h1 h2 h3 h4 with
                      | Some n =>
                          if high_surrogate n then
                            match r with
                            | String b (String u (String l1 (String l2 (String l3 (String l4 r))))) =>
                                match nat_of_ascii b, nat_of_ascii u, hex4 l1 l2 l3 l4 with
                                | 92, 117, Some m =>
                                    if low_surrogate m
                                    then pre (utf8 (65536 + (n - 55296) * 1024 + (m - 56320))%N) (parse_str r)
                                    else None
                                | _, _, _ => None
                                end
                            | _ => None
                            end
                          else if low_surrogate n then None
                          else pre (utf8 n) (parse_str r)
                      | None => None
                      end
                  | _ => None
                  end
              | _ => None
              end
          | "" => None
          end
      | n => if Nat.ltb n 32 then None else pre (String c "") (parse_str r)
      end
  | "" => None
  end.

(** ** Numbers *)
Definition is_digit (c : ascii) : bool := let n := nat_of_ascii c in Nat.leb 48 n && Nat.leb n 57.
Fixpoint digits (s : string) : string * string :=
  match s with
  | String c r => if is_digit c then let '(a, b) := digits r in (String c a, b) else ("", s)
  | "" => ("", "")
  end.
(** The digits before the point: no leading zero. *)
Definition parse_int (s : string) : option (string * string) :=
  match s with
  | String c r =>
      if Nat.eqb (nat_of_ascii c) 48 then
        match r with
        | String d _ => if is_digit d then None else Some (String c "", r)
        | "" => Some (String c "", r)
        end
      else if is_digit c then let '(a, b) := digits r in Some (String c a, b)
      else None
  | "" => None
  end.
Definition parse_frac (s : string) : option (string * string) :=
  match s with
  | String "."%char r => match digits r with ("", _) => None | (a, b) => Some ("." +:+ a, b) end
  | _ => Some ("", s)
  end.
Definition parse_exp (s : string) : option (string * string) :=
  match s with
  | String ("e"%char as e) r | String ("E"%char as e) r =>
      match r with
      | String ("+"%char as g) r | String ("-"%char as g) r =>
          match digits r with ("", _) => None | (a, b) => Some (String e (String g a), b) end
      | _ => match digits r with ("", _) => None | (a, b) => Some (String e a, b) end
      end
  | _ => Some ("", s)
  end.
Definition parse_unsigned (s : string) : option (string * string) :=
  match parse_int s with
  | Some (i, r) => match parse_frac r with
      | Some (f, r) => match parse_exp r with
          | Some (e, r) => Some (i +:+ f +:+ e, r)
          | None => None end
      | None => None end
  | None => None
  end.
Definition parse_number (s : string) : option (string * string) :=
  match s with
  | String "-"%char r => pre "-" (parse_unsigned r)
  | _ => parse_unsigned s
  end.

(** ** Values *)
Fixpoint strip (p s : string) : option string :=
  match p, s with
  | "", _ => Some s
  | String a p, String b s => if Ascii.eqb a b then strip p s else None
  | _, "" => None
  end.
(** The elements of an array after [[], and the entries of an object after [{]; [n] bounds
    their number. *)
Fixpoint parse_elems (p : string → option (json * string)) (n : nat) (s : string) : option (list json * string) :=
  match n with
  | 0 => None
  | S n =>
      match p s with
      | Some (v, r) =>
          match skip_ws r with
          | String ","%char r => match parse_elems p n r with Some (l, r) => Some (v :: l, r) | None => None end
          | String "]"%char r => Some ([v], r)
          | _ => None
          end
      | None => None
      end
  end.
Definition parse_entry (p : string → option (json * string)) (s : string) : option (string * json * string) :=
  match skip_ws s with
  | String c r =>
      if Nat.eqb (nat_of_ascii c) 34 then
        match parse_str r with
        | Some (k, r) => match skip_ws r with
            | String ":"%char r => match p r with Some (v, r) => Some (k, v, r) | None => None end
            | _ => None end
        | None => None
        end
      else None
  | "" => None
  end.
Fixpoint parse_entries (p : string → option (json * string)) (n : nat) (s : string)
  : option (list (string * json) * string) :=
  match n with
  | 0 => None
  | S n =>
      match parse_entry p s with
      | Some (k, v, r) =>
          match skip_ws r with
          | String ","%char r => match parse_entries p n r with Some (l, r) => Some ((k, v) :: l, r) | None => None end
          | String "}"%char r => Some ([(k, v)], r)
          | _ => None
          end
      | None => None
      end
  end.
(** [d] is the number of levels that may still be opened, plus one (serde_json's
    [remaining_depth]). *)
Fixpoint parse_value (d : nat) (s : string) : option (json * string) :=
  match d with
  | 0 => None
  | S d' =>
      match skip_ws s with
      | String "["%char r =>
          match d' with 0 => None | _ =>
            match skip_ws r with
            | String "]"%char r => Some (JArr [], r)
            | _ => match parse_elems (parse_value d') (String.length r) r with
                   | Some (l, r) => Some (JArr l, r) | None => None end
            end end
      | String "{"%char r =>
          match d' with 0 => None | _ =>
            match skip_ws r with
            | String "}"%char r => Some (JObj [], r)
            | _ => match parse_entries (parse_value d') (String.length r) r with
                   | Some (l, r) => Some (JObj l, r) | None => None end
            end end
      | String c r as s =>
          if Nat.eqb (nat_of_ascii c) 34 then
            match parse_str r with Some (x, r) => Some (JStr x, r) | None => None end
          else match strip "null" s, strip "true" s, strip "false" s with
          | Some r, _, _ => Some (JNull, r)
          | _, Some r, _ => Some (JBool true, r)
          | _, _, Some r => Some (JBool false, r)
          | _, _, _ => match parse_number s with Some (t, r) => Some (JNum t, r) | None => None end
          end
      | "" => None
      end
  end.
(** serde_json opens at most 127 levels. *)
Definition depth_limit : nat := 128.
Definition parse_json (s : string) : option json :=
  match parse_value depth_limit s with
  | Some (v, r) => match skip_ws r with "" => Some v | _ => None end
  | None => None
  end.
