(** CBOR, RFC 8949, as the ciborium crate (crates/iso-mdl/Cargo.toml; not in the repository) writes and
    reads it.  Left out of the reader: values of indefinite length, which it never writes, the check that
    texts are UTF-8, and the limit on nesting. *)
From Verif Require Import Base Sha256.

Inductive cbor : Type :=
| CInt (z : Z)
| CBytes (l : list N)
| CText (s : string)
| CArr (l : list cbor)
| CMap (m : list (cbor * cbor))
| CTag (n : N) (c : cbor)
| CBool (b : bool)
| CNull
| CFloat (bits : list N).

(** RFC 8949, 3: the head of a value, its major type and its argument, as short as it can be. *)
Fixpoint be (k : nat) (x : N) : list N := match k with 0 => [] | S k => be k (x / 256)%N ++ [(x mod 256)%N] end.
Definition head (major : N) (x : N) : list N :=
  (if x <? 24 then [major * 32 + x]
   else if x <? 256 then (major * 32 + 24) :: be 1 x
   else if x <? 65536 then (major * 32 + 25) :: be 2 x
   else if x <? 4294967296 then (major * 32 + 26) :: be 4 x
   else (major * 32 + 27) :: be 8 x)%N.
Definition size {A} (l : list A) : N := N.of_nat (length l).

Fixpoint encode (c : cbor) : list N :=
  match c with
  | CInt z => if (0 <=? z)%Z then head 0 (Z.to_N z) else head 1 (Z.to_N (-1 - z))
  | CBytes l => head 2 (size l) ++ l
  | CText s => head 3 (size (bytes_of_string s)) ++ bytes_of_string s
  | CArr l => head 4 (size l) ++ (fix go l := match l with [] => [] | c :: r => encode c ++ go r end) l
  | CMap m => head 5 (size m) ++
      (fix go (m : list (cbor * cbor)) := match m with [] => [] | (k, v) :: r => encode k ++ encode v ++ go r end) m
  | CTag n c => head 6 n ++ encode c
  | CBool b => if b then [245%N] else [244%N]
  | CNull => [246%N]
  | CFloat bits => (if bool_decide (length bits = 2) then 249%N else if bool_decide (length bits = 4) then 250%N else 251%N) :: bits
  end.

(** The reader: [taken] are the bytes that follow the first one in a head. *)
Definition value (l : list N) : N := fold_left (λ a b, a * 256 + b)%N l 0%N.
Definition read_bytes (n : N) (bs : list N) : option (list N * list N) :=
  if (n <=? size bs)%N then Some (take (N.to_nat n) bs, drop (N.to_nat n) bs) else None.
Definition read_head (bs : list N) : option (N * N * list N * list N) :=
  match bs with
  | [] => None
  | b :: r =>
      let info := (b mod 32)%N in
      (if info <? 24 then Some (b / 32, info, [], r)
       else match (if info =? 24 then Some 1 else if info =? 25 then Some 2 else if info =? 26 then Some 4
                   else if info =? 27 then Some 8 else None) with
            | Some k => match read_bytes k r with Some (taken, r) => Some (b / 32, info, taken, r) | None => None end
            | None => None
            end)%N
  end.
Definition argument (info : N) (taken : list N) : N := if (info <? 24)%N then info else value taken.
Definition string_of_bytes (l : list N) : string := string_of_list_ascii (map ascii_of_N l).

Section many.
Context (one : list N → option (cbor * list N)).
Fixpoint read_many (n : nat) (bs : list N) : option (list cbor * list N) :=
  match n with
  | 0 => Some ([], bs)
  | S n => match one bs with
           | Some (c, bs) => match read_many n bs with Some (l, bs) => Some (c :: l, bs) | None => None end
           | None => None end
  end.
Fixpoint read_pairs (n : nat) (bs : list N) : option (list (cbor * cbor) * list N) :=
  match n with
  | 0 => Some ([], bs)
  | S n => match one bs with
           | Some (k, bs) =>
               match one bs with
               | Some (v, bs) => match read_pairs n bs with Some (l, bs) => Some ((k, v) :: l, bs) | None => None end
               | None => None end
           | None => None end
  end.
End many.
(** Every list element takes a byte or more, so a count above the bytes left cannot be met. *)
Fixpoint read_value (depth : nat) (bs : list N) : option (cbor * list N) :=
  match depth with
  | 0 => None
  | S depth =>
      match read_head bs with
      | None => None
      | Some (major, info, taken, r) =>
          let x := argument info taken in
          (if major =? 0 then Some (CInt (Z.of_N x), r)
           else if major =? 1 then Some (CInt (-1 - Z.of_N x), r)
           else if major =? 2 then match read_bytes x r with Some (l, r) => Some (CBytes l, r) | None => None end
           else if major =? 3 then match read_bytes x r with Some (l, r) => Some (CText (string_of_bytes l), r) | None => None end
           else if major =? 4 then
             if x <=? size r then
               match read_many (read_value depth) (N.to_nat x) r with Some (l, r) => Some (CArr l, r) | None => None end
             else None
           else if major =? 5 then
             if x <=? size r then
               match read_pairs (read_value depth) (N.to_nat x) r with Some (m, r) => Some (CMap m, r) | None => None end
             else None
           else if major =? 6 then match read_value depth r with Some (c, r) => Some (CTag x c, r) | None => None end
           else if info =? 20 then Some (CBool false, r)
           else if info =? 21 then Some (CBool true, r)
           else if info =? 22 then Some (CNull, r)
           else if (25 <=? info) && (info <=? 27) then Some (CFloat taken, r)
           else None)%N
      end
  end.
(** ciborium::from_reader: one value; what follows it is not looked at. *)
Definition decode (bs : list N) : option cbor :=
  match read_value (S (length bs)) bs with Some (c, _) => Some c | None => None end.
