(** What the properties of random strings say. *)
From Verif Require Import Base.

Definition between (lo hi : nat) (c : ascii) : Prop := lo ≤ nat_of_ascii c ≤ hi.
Definition digit (c : ascii) : Prop := between 48 57 c.
Definition letter (c : ascii) : Prop := between 65 90 c ∨ between 97 122 c.
(** RFC 7636, section 4.1: the characters of a code verifier. *)
Definition verifier_char (c : ascii) : Prop := letter c ∨ digit c ∨ c ∈ ["-"; "."; "_"; "~"]%char.
(** RFC 4648, section 5: the alphabet that is safe in URLs. *)
Definition url_safe (c : ascii) : Prop := letter c ∨ digit c ∨ c ∈ ["-"; "_"]%char.
Definition every_char (P : ascii → Prop) (s : string) : Prop :=
  ∀ i c, String.get i s = Some c → P c.
