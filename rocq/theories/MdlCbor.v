(** crates/iso-mdl: the CBOR of licences, and reading it. *)
From Coq Require Import DecimalString.
From Verif Require Import Base Json Sha256 MdlModel CborModel.

(** What the libraries that are not in the repository decide: whether [Tag24::to_vec] writes the tag or only
    what it holds (vercre_infosec::cose; the round trip test in lib.rs 123-147 reads a security object from
    it), the COSE key, the RFC 3339 text of a time in seconds (chrono) and the bits of a number that is not an
    integer. *)
Record libraries : Type := Libraries {
  lib_tagged : bool;
  lib_key : device_key → cbor;
  lib_date : Z → string;
  lib_float : string → list N;
}.

(** lib.rs 56, [cbor!(v)]: serde_json's [Serialize] of a [Value].  Integers are [u64] or [i64]. *)
Definition number_cbor (p : libraries) (t : string) : cbor :=
  if bool_decide (t = "-0") then CFloat (lib_float p t)
  else match NilZero.int_of_string t with
       | Some i => let z := Z.of_int i in
           if (-9223372036854775808 <=? z)%Z && (z <? 18446744073709551616)%Z then CInt z else CFloat (lib_float p t)
       | None => CFloat (lib_float p t)
       end.
Fixpoint json_cbor (p : libraries) (j : json) : cbor :=
  match j with
  | JNull => CNull
  | JBool b => CBool b
  | JNum t => number_cbor p t
  | JStr s => CText s
  | JArr l => CArr (map (json_cbor p) l)
  | JObj m => CMap ((fix go (m : list (string * json)) :=
      match m with [] => [] | (k, v) :: r => (CText k, json_cbor p v) :: go r end) m)
  end.
(** serde's [Serialize] for [Vec<u8>]: a sequence of numbers. *)
Definition u8s (l : list N) : cbor := CArr (map (λ b, CInt (Z.of_N b)) l).
(** mdoc.rs 57-71: derived, without renaming. *)
Definition item_cbor (p : libraries) (it : item) : cbor :=
  CMap [(CText "digest_id", CInt (it_id it)); (CText "random", u8s (it_random it));
        (CText "element_identifier", CText (it_element it)); (CText "element_value", json_cbor p (it_value it))].
(** mdoc.rs 53-55: [#6.24(bstr .cbor IssuerSignedItem)]. *)
Definition tag24 (c : cbor) : cbor := CTag 24 (CBytes (encode c)).
Definition to_vec (p : libraries) (c : cbor) : list N := if lib_tagged p then encode (tag24 c) else encode c.

(** The order of a BTreeMap: of strings by their bytes, of numbers by value. *)
Fixpoint put {K A} (leb : K → K → bool) (x : K * A) (l : list (K * A)) : list (K * A) :=
  match l with [] => [x] | y :: r => if leb x.1 y.1 then x :: l else y :: put leb x r end.
Definition sorted_by {K A} (leb : K → K → bool) (l : list (K * A)) : list (K * A) := foldr (put leb) [] l.

(** mso.rs 43-64, 100-104, 116-129, 151-172; [version], the algorithm and the document type are those of
    73-75, and no key authorization and information is given. *)
Definition digests_cbor (t : list (Z * list N)) : cbor :=
  CMap (map (λ e, (CInt e.1, u8s e.2)) (sorted_by Z.leb t)).
Definition mso_cbor (p : libraries) (s : mso) : cbor :=
  CMap [(CText "version", CText "1.0"); (CText "digestAlgorithm", CText "SHA-256");
        (CText "valueDigests", CMap (map (λ e, (CText e.1, digests_cbor e.2)) (sorted_by String.leb (mso_digests s))));
        (CText "deviceKeyInfo", CMap [(CText "deviceKey", lib_key p (mso_device_key s))]);
        (CText "docType", CText "org.iso.18013.5.1.mDL");
        (CText "validityInfo", CMap [(CText "signed", CText (lib_date p (mso_signed s)));
           (CText "validFrom", CText (lib_date p (mso_valid_from s))); (CText "validUntil", CText (lib_date p (mso_valid_until s)));
           (CText "expectedUpdate", CNull)])].
(** mso.rs 28-32 with RFC 9052, 4.2 and 3: an array of the protected header as a byte string (the algorithm,
    1, is EdDSA, -8), the unprotected one (the key id, 4), the payload and the signature. *)
Definition cose_cbor (c : cose_sign1) : cbor :=
  CArr [CBytes (encode (CMap [(CInt 1, CInt (match cose_protected c with CoseEdDSA => -8 end))]));
        CMap [(CInt 4, CBytes (bytes_of_string (cose_key_id c)))]; CBytes (cose_payload c); CBytes (cose_signature c)].
(** mdoc.rs 28-37. *)
Definition mdoc_cbor (p : libraries) (m : mdoc) : cbor :=
  CMap [(CText "nameSpaces", CMap (map (λ e, (CText e.1, CArr (map (λ it, tag24 (item_cbor p it)) e.2))) (sorted_by String.leb (md_name_spaces m))));
        (CText "issuerAuth", cose_cbor (md_issuer_auth m))].
(** Writing to memory does not fail. *)
Definition cbor_encoder (p : libraries) : encoder :=
  Encoder (λ it, Some (to_vec p (item_cbor p it))) (λ s, Some (to_vec p (mso_cbor p s))) (λ m, Some (encode (mdoc_cbor p m))).

(** ** Reading: the [Deserialize] of the same types (mso.rs 34-39, otherwise derived)

    What is not looked at: members that are not known, and anything after a value. *)
Definition values_of (k : string) (m : list (cbor * cbor)) : list cbor :=
  omap (λ kv, match kv.1 with CText k' => if bool_decide (k' = k) then Some kv.2 else None | _ => None end) m.
Definition member {A} (d : cbor → option A) (k : string) (m : list (cbor * cbor)) : option A :=
  match values_of k m with [v] => d v | _ => None end.
Definition a_map {A} (f : list (cbor * cbor) → option A) (c : cbor) : option A := match c with CMap m => f m | _ => None end.
Definition a_text (c : cbor) : option string := match c with CText s => Some s | _ => None end.
Definition an_i32 (c : cbor) : option Z :=
  match c with CInt z => if (-2147483648 <=? z)%Z && (z <? 2147483648)%Z then Some z else None | _ => None end.
Definition a_u8 (c : cbor) : option N :=
  match c with CInt z => if (0 <=? z)%Z && (z <? 256)%Z then Some (Z.to_N z) else None | _ => None end.
(** ciborium gives a byte string where a sequence of numbers is wanted. *)
Definition some_u8s (c : cbor) : option (list N) :=
  match c with CArr l => mapM a_u8 l | CBytes l => Some l | _ => None end.
Definition a_bstr (c : cbor) : option (list N) := match c with CBytes l => Some l | _ => None end.
Definition entries {K A} (dk : cbor → option K) (d : cbor → option A) : cbor → option (list (K * A)) :=
  a_map (mapM (λ kv, k ← dk kv.1; v ← d kv.2; Some (k, v))).
Definition seq {A} (d : cbor → option A) (c : cbor) : option (list A) := match c with CArr l => mapM d l | _ => None end.

(** An item as it is read; its value stays CBOR. *)
Record read_item : Type := ReadItem { ri_id : Z; ri_random : list N; ri_element : string; ri_value : cbor }.
Definition de_item : cbor → option read_item := a_map (λ m,
  i ← member an_i32 "digest_id" m; r ← member some_u8s "random" m; e ← member a_text "element_identifier" m;
  v ← member Some "element_value" m; Some (ReadItem i r e v)).
(** [Tag24]: what it holds, as bytes. *)
Definition de_tag24 (c : cbor) : option (list N) := match c with CTag 24 (CBytes b) => Some b | _ => None end.
Record read_mso : Type := ReadMso {
  rm_digests : list (string * list (Z * list N));
  rm_key : cbor;
  rm_doc_type : string;
  rm_signed : string;
  rm_valid_from : string;
  rm_valid_until : string;
}.
Definition de_mso : cbor → option read_mso := a_map (λ m,
  _ ← member a_text "version" m;
  _ ← member (λ c, s ← a_text c; if bool_decide (s = "SHA-256") then Some () else None) "digestAlgorithm" m;
  d ← member (entries a_text (entries an_i32 some_u8s)) "valueDigests" m;
  k ← member (a_map (member Some "deviceKey")) "deviceKeyInfo" m;
  t ← member a_text "docType" m;
  '(a, b, c) ← member (a_map (λ v, a ← member a_text "signed" v; b ← member a_text "validFrom" v; c ← member a_text "validUntil" v; Some (a, b, c))) "validityInfo" m;
  Some (ReadMso d k t a b c)).
Record read_auth : Type := ReadAuth { ra_protected : list N; ra_key_id : list N; ra_payload : list N; ra_signature : list N }.
Definition de_auth (c : cbor) : option read_auth :=
  match c with
  | CArr [CBytes h; CMap [(CInt 4, CBytes k)]; CBytes p; CBytes s] => Some (ReadAuth h k p s)
  | _ => None
  end.
(** A licence: its items as bytes, by name space, and its authentication. *)
Record licence : Type := Licence { li_items : list (string * list (list N)); li_auth : read_auth }.
Definition de_licence : cbor → option licence := a_map (λ m,
  n ← member (entries a_text (seq de_tag24)) "nameSpaces" m; a ← member de_auth "issuerAuth" m; Some (Licence n a)).
(** [cbor::from_slice]. *)
Definition from_slice {A} (d : cbor → option A) (bs : list N) : option A :=
  match decode bs with Some c => d c | None => None end.
(** The bytes of a security object in a payload. *)
Definition payload_content (p : libraries) (payload : list N) : option (list N) :=
  if lib_tagged p then from_slice de_tag24 payload else Some payload.
