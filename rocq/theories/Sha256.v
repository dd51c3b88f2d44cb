(** SHA-256 and unpadded base64url, as used by crates/core/src/pkce.rs (through the
    [sha2] and [base64ct] crates).  Written from FIPS 180-4 and RFC 4648 rather than
    from those crates' sources, which are not part of the repository. *)
From Verif Require Import Base.
From Coq Require Import NArith.
Local Open Scope N_scope.

Definition mask32 (x : N) : N := N.land x (N.ones 32).
Definition add32 (x y : N) : N := mask32 (x + y).
Definition rotr (n x : N) : N := N.lor (N.shiftr x n) (mask32 (N.shiftl x (32 - n))).
Definition bsig0 x := N.lxor (rotr 2 x) (N.lxor (rotr 13 x) (rotr 22 x)).
Definition bsig1 x := N.lxor (rotr 6 x) (N.lxor (rotr 11 x) (rotr 25 x)).
Definition ssig0 x := N.lxor (rotr 7 x) (N.lxor (rotr 18 x) (N.shiftr x 3)).
Definition ssig1 x := N.lxor (rotr 17 x) (N.lxor (rotr 19 x) (N.shiftr x 10)).
Definition ch x y z := N.lxor (N.land x y) (N.land (N.lxor x (N.ones 32)) z).
Definition maj x y z := N.lxor (N.land x y) (N.lxor (N.land x z) (N.land y z)).

Definition k256 : list N :=
 [0x428a2f98;0x71374491;0xb5c0fbcf;0xe9b5dba5;0x3956c25b;0x59f111f1;0x923f82a4;0xab1c5ed5;
  0xd807aa98;0x12835b01;0x243185be;0x550c7dc3;0x72be5d74;0x80deb1fe;0x9bdc06a7;0xc19bf174;
  0xe49b69c1;0xefbe4786;0x0fc19dc6;0x240ca1cc;0x2de92c6f;0x4a7484aa;0x5cb0a9dc;0x76f988da;
  0x983e5152;0xa831c66d;0xb00327c8;0xbf597fc7;0xc6e00bf3;0xd5a79147;0x06ca6351;0x14292967;
  0x27b70a85;0x2e1b2138;0x4d2c6dfc;0x53380d13;0x650a7354;0x766a0abb;0x81c2c92e;0x92722c85;
  0xa2bfe8a1;0xa81a664b;0xc24b8b70;0xc76c51a3;0xd192e819;0xd6990624;0xf40e3585;0x106aa070;
  0x19a4c116;0x1e376c08;0x2748774c;0x34b0bcb5;0x391c0cb3;0x4ed8aa4a;0x5b9cca4f;0x682e6ff3;
  0x748f82ee;0x78a5636f;0x84c87814;0x8cc70208;0x90befffa;0xa4506ceb;0xbef9a3f7;0xc67178f2].

Definition h256 : list N :=
 [0x6a09e667;0xbb67ae85;0x3c6ef372;0xa54ff53a;0x510e527f;0x9b05688c;0x1f83d9ab;0x5be0cd19].

Definition nthN (i : nat) (l : list N) : N := nth i l 0.

(** Message schedule, kept in reverse: the head is the latest word. *)
Fixpoint schedule (n : nat) (w : list N) : list N :=
  match n with
  | O => w
  | S n' =>
      let x := add32 (add32 (ssig1 (nthN 1 w)) (nthN 6 w))
                     (add32 (ssig0 (nthN 14 w)) (nthN 15 w)) in
      schedule n' (x :: w)
  end.

Definition round (st : list N) (kw : N * N) : list N :=
  match st with
  | [a; b; c; d; e; f; g; h] =>
      let t1 := add32 (add32 h (bsig1 e)) (add32 (ch e f g) (add32 (fst kw) (snd kw))) in
      let t2 := add32 (bsig0 a) (maj a b c) in
      [add32 t1 t2; a; b; c; add32 d t1; e; f; g]
  | _ => st
  end.

Definition compress (h : list N) (block : list N) : list N :=
  let w := rev (schedule 48 (rev block)) in
  zip_with add32 h (foldl round h (zip k256 w)).

Definition bytes_of_word (x : N) : list N :=
  [N.land (N.shiftr x 24) 255; N.land (N.shiftr x 16) 255;
   N.land (N.shiftr x 8) 255; N.land x 255].

Fixpoint words_of_bytes (l : list N) : list N :=
  match l with
  | a :: b :: c :: d :: r =>
      N.lor (N.shiftl a 24) (N.lor (N.shiftl b 16) (N.lor (N.shiftl c 8) d)) :: words_of_bytes r
  | _ => []
  end.

Fixpoint blocks (n : nat) (l : list N) : list (list N) :=
  match n with
  | O => []
  | S n' => take 16 l :: blocks n' (drop 16 l)
  end.

Definition pad (m : list N) : list N :=
  let len := length m in
  let zeros := (Nat.modulo (119 - Nat.modulo len 64) 64)%nat in
  let bits := 8 * N.of_nat len in
  m ++ [128] ++ repeat 0 zeros
    ++ bytes_of_word (N.shiftr bits 32) ++ bytes_of_word (N.land bits (N.ones 32)).

Definition bytes_of_string (s : string) : list N :=
  map N_of_ascii (list_ascii_of_string s).

Definition sha256 (m : list N) : list N :=
  let w := words_of_bytes (pad m) in
  concat (map bytes_of_word (foldl compress h256 (blocks (Nat.div (length w) 16) w))).

Definition b64alphabet : string :=
  "ABCDEFGHIJKLMNOPQRSTUVWXYZabcdefghijklmnopqrstuvwxyz0123456789-_".
Definition b64char (x : N) : ascii :=
  default "A"%char (String.get (N.to_nat (N.land x 63)) b64alphabet).

(** Base64url without padding of a byte string. *)
Fixpoint base64url (l : list N) : string :=
  match l with
  | a :: b :: c :: r =>
      String (b64char (N.shiftr a 2))
     (String (b64char (N.lor (N.shiftl (N.land a 3) 4) (N.shiftr b 4)))
     (String (b64char (N.lor (N.shiftl (N.land b 15) 2) (N.shiftr c 6)))
     (String (b64char c) (base64url r))))
  | [a; b] =>
      String (b64char (N.shiftr a 2))
     (String (b64char (N.lor (N.shiftl (N.land a 3) 4) (N.shiftr b 4)))
     (String (b64char (N.shiftl (N.land b 15) 2)) EmptyString))
  | [a] =>
      String (b64char (N.shiftr a 2))
     (String (b64char (N.shiftl (N.land a 3) 4)) EmptyString)
  | [] => EmptyString
  end.

(** crates/core/src/pkce.rs 20-23, [code_challenge]. *)
Definition code_challenge (verifier : string) : string :=
  base64url (sha256 (bytes_of_string verifier)).

(** The example of RFC 7636, appendix B. *)
Example rfc7636_appendix_b :
  code_challenge "dBjftJeZ4CVP-mB92K27uhbUJU1p1r_wW1gFWFOEjXk"
  = "E9Melhoa2OwvFrEMTJguCHaoeK1t8URWbuGJSstw-cM".
Proof. vm_compute. reflexivity. Qed.
