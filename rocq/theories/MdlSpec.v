(** What the properties of mDLs say. *)
From Verif Require Import Base Json Sha256 MdlModel.

(** What an issued licence consists of: [out] is the text of [m], whose authentication
    carries [s]. *)
Definition consists_of (enc : encoder) (out : string) (m : mdoc) (s : mso) : Prop :=
  (∃ bytes, enc_mdoc enc m = Some bytes ∧ out = base64url bytes) ∧
  enc_mso enc s = Some (cose_payload (md_issuer_auth m)).

(** The items of a name space, and its table of digests. *)
Definition items_of (m : mdoc) (ns : string) : list item := default [] (assoc ns (md_name_spaces m)).
Definition digests_of (s : mso) (ns : string) : list (Z * list N) := default [] (assoc ns (mso_digests s)).

(** Exactly one digest per item, under the item's id, of the item as encoded. *)
Definition covers (enc : encoder) (items : list item) (table : list (Z * list N)) : Prop :=
  NoDup (map it_id items) ∧ NoDup (map fst table) ∧ length table = length items ∧
  ∀ id d, (id, d) ∈ table ↔ ∃ it bytes, it ∈ items ∧ it_id it = id ∧ enc_item enc it = Some bytes ∧ d = sha256 bytes.

(** The elements the data set has for a name space. *)
Definition elements_of (dataset : list (string * json)) (ns : string) : list (string * json) :=
  match assoc ns dataset with Some (JObj m) => m | _ => [] end.
Definition element (it : item) : string * json := (it_element it, it_value it).

(** A digest id as ISO 18013-5 wants it. *)
Definition valid_id (id : Z) : Prop := (0 ≤ id < 2147483648)%Z.
(** What a generator of [i32] values gives. *)
Definition i32 (x : Z) : Prop := (-2147483648 ≤ x < 2147483648)%Z.

(** RFC 9052, 4.4: what a COSE_Sign1 signature is made of.  The array of the context
    string, the protected header (a map with the algorithm EdDSA), no external data, and
    the payload. *)
Fixpoint big_endian (n : nat) (x : N) : list N :=
  match n with 0 => [] | S k => big_endian k (N.shiftr x 8) ++ [N.land x 255] end.
Definition bstr (l : list N) : list N :=
  let n := N.of_nat (length l) in
  (if (n <? 24)%N then [64 + n]
   else if (n <? 256)%N then 88 :: big_endian 1 n
   else if (n <? 65536)%N then 89 :: big_endian 2 n
   else if (n <? 4294967296)%N then 90 :: big_endian 4 n
   else 91 :: big_endian 8 n)%N ++ l.
Definition sig_structure (payload : list N) : list N :=
  [132; 106]%N ++ bytes_of_string "Signature1" ++ bstr [161; 1; 39]%N ++ bstr [] ++ bstr payload.
