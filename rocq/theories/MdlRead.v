(** What a reader of a licence gets. *)
From Verif Require Import Base Json SerdeModel Sha256 MdlModel MdlSpec CborModel CborFacts MdlCbor.

(** The libraries' parts are CBOR: keys, and numbers that are not integers. *)
Definition sound (p : libraries) : Prop :=
  (∀ k, bytes k → in_range (lib_key p k)) ∧
  ∀ t, bytes (lib_float p t) ∧ (length (lib_float p t) = 2 ∨ length (lib_float p t) = 4 ∨ length (lib_float p t) = 8).

(** What goes in: an object, 32-bit draws, and bytes from the generator and the signer. *)
Definition proper (draws : list Z) (salts : list (list N)) (dataset : list (string * json)) (sg : signer) : Prop :=
  NoDup (keys dataset) ∧ (∀ x, x ∈ draws → i32 x) ∧ Forall bytes salts ∧
  (∀ k, sg_public_key sg = Some k → bytes k) ∧ ∀ m, bytes (sg_sign sg m).
(** JSON whose numbers are integers of 64 bits, and what such a value is, read from CBOR. *)
Definition whole_number (t : string) : Prop := ∃ z, t = int_text z ∧ (-9223372036854775808 ≤ z < 18446744073709551616)%Z.
Fixpoint whole (j : json) : Prop :=
  match j with
  | JNum t => whole_number t
  | JArr l => (fix go l := match l with [] => True | j :: r => whole j ∧ go r end) l
  | JObj m => (fix go (m : list (string * json)) := match m with [] => True | (_, j) :: r => whole j ∧ go r end) m
  | _ => True
  end.
Fixpoint cbor_json (c : cbor) : option json :=
  match c with
  | CNull => Some JNull
  | CBool b => Some (JBool b)
  | CInt z => Some (JNum (int_text z))
  | CText s => Some (JStr s)
  | CArr l => match (fix go l := match l with
                     | [] => Some []
                     | c :: r => match cbor_json c with Some j => match go r with Some l => Some (j :: l) | None => None end | None => None end
                     end) l with Some l => Some (JArr l) | None => None end
  | CMap m => match (fix go (m : list (cbor * cbor)) := match m with
                     | [] => Some []
                     | (CText k, c) :: r => match cbor_json c with Some j => match go r with Some l => Some ((k, j) :: l) | None => None end | None => None end
                     | _ => None
                     end) m with Some m => Some (JObj m) | None => None end
  | _ => None
  end.

(** [out] is a text in which a reader finds the licence [l] and the security object [s]. *)
Definition found (p : libraries) (out : string) (l : licence) (s : read_mso) : Prop :=
  (∃ bs, bytes bs ∧ out = base64url bs ∧ from_slice de_licence bs = Some l) ∧
  ∃ content, payload_content p (ra_payload (li_auth l)) = Some content ∧ from_slice de_mso content = Some s.
Definition item_in (b : list N) : option read_item := from_slice de_item b.
(** What the digest of an item is made of: the item with its tag, or without. *)
Definition digested (p : libraries) (b : list N) : list N := if lib_tagged p then encode (CTag 24 (CBytes b)) else b.
(** The data set has the name space, and these elements in it. *)
Definition says_elements (p : libraries) (bs : list (list N)) (elements : list (string * json)) : Prop :=
  Forall2 (λ b e, ∃ it, item_in b = Some it ∧ ri_element it = e.1 ∧ ri_value it = json_cbor p e.2) bs elements.
(** Every item that is found has its digest in the security object, under its id, and there is no other. *)
Definition authentic (p : libraries) (l : licence) (s : read_mso) : Prop :=
  NoDup (keys (li_items l)) ∧ keys (rm_digests s) = keys (li_items l) ∧
  ∀ ns bs table, (ns, bs) ∈ li_items l → (ns, table) ∈ rm_digests s →
    NoDup (map fst table) ∧ length table = length bs ∧
    ∀ id d, (id, d) ∈ table ↔ ∃ b it, b ∈ bs ∧ item_in b = Some it ∧ ri_id it = id ∧ d = sha256 (digested p b).
(** What a reader accepts as an item of the name space: its digest is in the table under its id. *)
Definition accepted (p : libraries) (s : read_mso) (ns : string) (b : list N) : Prop :=
  ∃ it table, item_in b = Some it ∧ (ns, table) ∈ rm_digests s ∧ (ri_id it, sha256 (digested p b)) ∈ table.

(** ** What ISO/IEC 18013-5 says the same things look like

    8.3.2.1.2.2 and 9.1.2.4 of the standard: [IssuerSignedItem] is a map of [digestID] (uint), [random] (bstr),
    [elementIdentifier] and [elementValue]; in the security object a digest is a bstr and a date a [tdate],
    which is a text with the tag 0; the certificate of the signer is in the unprotected header, 33. *)
Definition a_uint (c : cbor) : option Z := match c with CInt z => if (0 <=? z)%Z then Some z else None | _ => None end.
Definition a_tdate (c : cbor) : option string := match c with CTag 0 (CText s) => Some s | _ => None end.
Definition iso_item : cbor → option read_item := a_map (λ m,
  i ← member a_uint "digestID" m; r ← member a_bstr "random" m; e ← member a_text "elementIdentifier" m;
  v ← member Some "elementValue" m; Some (ReadItem i r e v)).
Definition iso_digests : cbor → option (list (string * list (Z * list N))) :=
  a_map (member (entries a_text (entries a_uint a_bstr)) "valueDigests").
Definition iso_dates : cbor → option (string * string * string) :=
  a_map (member (a_map (λ v, a ← member a_tdate "signed" v; b ← member a_tdate "validFrom" v; c ← member a_tdate "validUntil" v; Some (a, b, c))) "validityInfo").
Definition iso_chain : cbor → option cbor := a_map (member (λ c,
  match c with
  | CArr [_; CMap h; _; _] => match omap (λ kv, match kv.1 with CInt 33 => Some kv.2 | _ => None end) h with [x] => Some x | _ => None end
  | _ => None
  end) "issuerAuth").
