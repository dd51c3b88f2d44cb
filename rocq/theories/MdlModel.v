(** crates/iso-mdl: ISO mobile driving licences. *)
From Verif Require Import Base Json Sha256.

(** crates/iso-mdl/src/mdoc.rs 57-71, [IssuerSignedItem].  The CBOR value of the element
    (lib.rs 56, [cbor!(v)]) is represented by the JSON value it is made from. *)
Record item : Type := Item {
  it_id : Z;
  it_random : list N;
  it_element : string;
  it_value : json;
}.

(** crates/iso-mdl/src/mso.rs 116-129 and lib.rs 69-74, the device key: an OKP key on
    Ed25519 with this [x]; key type and curve are constants. *)
Definition device_key : Type := list N.

(** crates/iso-mdl/src/mso.rs 43-64, [MobileSecurityObject]; version, digest algorithm and
    document type are constants and left out.  BTreeMaps are lists of entries (their order
    in the encoding is up to the encoder below).  Dates, written with second precision
    (mso.rs 79-81), are whole seconds since the epoch. *)
Record mso : Type := Mso {
  mso_digests : list (string * list (Z * list N));
  mso_device_key : device_key;
  mso_signed : Z;
  mso_valid_from : Z;
  mso_valid_until : Z;
}.

(** coset's [CoseSign1] as filled in lib.rs 90-97; the protected header has only the
    algorithm, the unprotected one only the key id. *)
Inductive cose_alg : Type := CoseEdDSA.
Record cose_sign1 : Type := CoseSign1 {
  cose_protected : cose_alg;
  cose_key_id : string;
  cose_payload : list N;
  cose_signature : list N;
}.

(** crates/iso-mdl/src/mdoc.rs 28-37, [IssuerSigned]. *)
Record mdoc : Type := Mdoc {
  md_name_spaces : list (string * list item);
  md_issuer_auth : cose_sign1;
}.

(** The CBOR encoder of the libraries (vercre_infosec::cose, ciborium, coset): any
    functions, [None] being an error.  [enc_item] and [enc_mso] are [Tag24(_).to_vec()]. *)
Record encoder : Type := Encoder {
  enc_item : item → option (list N);
  enc_mso : mso → option (list N);
  enc_mdoc : mdoc → option (list N);
}.

(** vercre_infosec's [Signer], as used here. *)
Inductive algorithm : Type := EdDSA | ES256K.
Record signer : Type := Signer {
  sg_public_key : option (list N);
  sg_sign : list N → list N;
  sg_algorithm : algorithm;
  sg_verification_method : string;
}.

(** Rust's [i32::abs]: on the least value it panics when overflow checks are on (debug
    builds) and otherwise gives the least value itself. *)
Definition i32_min : Z := -2147483648.
Definition i32_abs (checked : bool) (x : Z) : option Z :=
  if Z.eqb x i32_min then (if checked then None else Some x) else Some (Z.abs x).

(** crates/iso-mdl/src/mso.rs 190-198, [DigestIdGenerator::gen].  The list is what the
    random number generator will give; the result is [None] if the loop uses it all up
    and still goes on.  It returns the id, the used ids and the draws left. *)
Fixpoint digest_gen (checked : bool) (used draws : list Z) : option (outcome string (Z * list Z * list Z)) :=
  match draws with
  | [] => None
  | x :: rest =>
      match i32_abs checked x with
      | None => Some (Panic "attempt to negate with overflow")
      | Some id => if contains used id then digest_gen checked used rest else Some (Ok (id, id :: used, rest))
      end
  end.

(** [BTreeMap<DigestId, _>::insert]. *)
Fixpoint zinsert {A} (k : Z) (v : A) (l : list (Z * A)) : list (Z * A) :=
  match l with
  | [] => [(k, v)]
  | (k', v') :: l' => if Z.eqb k k' then (k, v) :: l' else (k', v') :: zinsert k v l'
  end.

(** Where [to_credential]'s loops are: the tables so far and the randomness left. *)
Record mdl_state : Type := MdlState {
  ms_items : list (string * list item);
  ms_digests : list (string * list (Z * list N));
  ms_draws : list Z;
  ms_salts : list (list N);
}.

(** crates/iso-mdl/src/lib.rs 50-66, the loop over the elements of the name space [key]. *)
Fixpoint mdl_elements (checked : bool) (enc : encoder) (key : string) (used : list Z)
    (elements : list (string * json)) (s : mdl_state) : option (outcome string mdl_state) :=
  match elements with
  | [] => Some (Ok s)
  | (k, v) :: rest =>
      match digest_gen checked used (ms_draws s) with
      | None => None
      | Some (Err e) => Some (Err e)
      | Some (Panic w) => Some (Panic w)
      | Some (Ok (id, used, draws)) =>
          match ms_salts s with
          | [] => None
          | salt :: salts =>
              let it := Item id salt k v in
              match enc_item enc it with
              | None => Some (Err "cbor")
              | Some bytes =>
                  let digest := sha256 bytes in
                  mdl_elements checked enc key used rest
                    (MdlState
                       (ainsert key (default [] (assoc key (ms_items s)) ++ [it]) (ms_items s))
                       (ainsert key (zinsert id digest (default [] (assoc key (ms_digests s)))) (ms_digests s))
                       draws salts)
              end
          end
      end
  end.

(** crates/iso-mdl/src/lib.rs 41-67, the loop over the data set. *)
Fixpoint mdl_name_spaces (checked : bool) (enc : encoder) (dataset : list (string * json)) (s : mdl_state)
    : option (outcome string mdl_state) :=
  match dataset with
  | [] => Some (Ok s)
  | (key, value) :: rest =>
      match value with
      | JObj elements =>
          match mdl_elements checked enc key [] elements s with
          | Some (Ok s) => mdl_name_spaces checked enc rest s
          | o => o
          end
      | _ => Some (Err "invalid dataset")
      end
  end.

(** crates/iso-mdl/src/lib.rs 34-101, [to_credential].  [t1 t2 t3] are the clock readings
    of [MobileSecurityObject::new] (mso.rs 68-85). *)
Definition to_credential (checked : bool) (enc : encoder) (draws : list Z) (salts : list (list N)) (t1 t2 t3 : Z)
    (dataset : list (string * json)) (sg : signer) : option (outcome string string) :=
  match mdl_name_spaces checked enc dataset (MdlState [] [] draws salts) with
  | None => None
  | Some (Err e) => Some (Err e)
  | Some (Panic w) => Some (Panic w)
  | Some (Ok s) =>
      match sg_public_key sg with
      | None => Some (Err "public key")
      | Some key =>
          let mso := Mso (ms_digests s) key (timestamp t2) (timestamp t3) (timestamp (t1 + seconds (365 * 86400))) in
          match enc_mso enc mso with
          | None => Some (Err "cbor")
          | Some mso_bytes =>
              match sg_algorithm sg with
              | ES256K => Some (Err "unsupported algorithm")
              | EdDSA =>
                  let auth := CoseSign1 CoseEdDSA (sg_verification_method sg) mso_bytes (sg_sign sg mso_bytes) in
                  match enc_mdoc enc (Mdoc (ms_items s) auth) with
                  | None => Some (Err "cbor")
                  | Some bytes => Some (Ok (base64url bytes))
                  end
              end
          end
      end
  end.
