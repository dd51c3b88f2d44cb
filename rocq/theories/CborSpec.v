(** RFC 8949, section 3: which bytes represent a value, with lengths given, not open. *)
From Verif Require Import Base Sha256 CborModel.

(** Bytes in network order. *)
Fixpoint number (l : list N) : N :=
  match l with [] => 0 | b :: r => b * 256 ^ N.of_nat (length r) + number r end%N.
(** A head: the major type in the upper three bits of the first byte; the argument in its other five if it is below
    24, else in the one, two, four or eight bytes that follow. *)
Inductive heads (major x : N) : list N → Prop :=
| head_here : (x < 24)%N → heads major x [32 * major + x]%N
| head_follows info k l : (info, k) ∈ [(24, 1); (25, 2); (26, 4); (27, 8)]%N → N.of_nat (length l) = k →
    Forall (λ b, b < 256)%N l → number l = x → heads major x (32 * major + info :: l)%N.
Inductive represents : cbor → list N → Prop :=
| rep_unsigned x h : heads 0 x h → represents (CInt (Z.of_N x)) h
| rep_negative x h : heads 1 x h → represents (CInt (-1 - Z.of_N x)) h
| rep_bytes l h : heads 2 (N.of_nat (length l)) h → Forall (λ b, b < 256)%N l → represents (CBytes l) (h ++ l)
| rep_text s h : heads 3 (N.of_nat (String.length s)) h → represents (CText s) (h ++ bytes_of_string s)
| rep_array l h b : heads 4 (N.of_nat (length l)) h → represent l b → represents (CArr l) (h ++ b)
| rep_map m h b : heads 5 (N.of_nat (length m)) h → represent (concat (map (λ kv, [kv.1; kv.2]) m)) b → represents (CMap m) (h ++ b)
| rep_tag n c h b : heads 6 n h → represents c b → represents (CTag n c) (h ++ b)
| rep_false : represents (CBool false) [0xf4]%N
| rep_true : represents (CBool true) [0xf5]%N
| rep_null : represents CNull [0xf6]%N
| rep_float first bits k : (first, k) ∈ [(0xf9, 2); (0xfa, 4); (0xfb, 8)]%N → N.of_nat (length bits) = k →
    Forall (λ b, b < 256)%N bits → represents (CFloat bits) (first :: bits)
(** One after the other. *)
with represent : list cbor → list N → Prop :=
| rep_none : represent [] []
| rep_more c l b r : represents c b → represent l r → represent (c :: l) (b ++ r).
Scheme represents_mut := Induction for represents Sort Prop with represent_mut := Induction for represent Sort Prop.
Combined Scheme represents_both from represents_mut, represent_mut.
