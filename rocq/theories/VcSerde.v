(** How credentials and presentations are written as JSON and read back: the [serde] derives of
    crates/core/src/lib.rs, crates/w3c-vc/src/model/vc.rs, vp.rs, types.rs and
    crates/w3c-vc/src/proof/jose.rs.

    As in SerdeModel.v, what serde's derive macros generate is written from serde's documentation.
    Fields the types of VcModel.v leave out are not written, and ignored when read.  The array
    form of a struct is left out, except for the empty array, which reads as a struct all of whose
    fields have defaults. *)
From Coq Require Import DecimalString.
From Verif Require Import Base Json MatcherModel JsonParse CoreModel VcModel Prog IssuerTypes SerdeModel ErrorModel.

(** crates/core/src/lib.rs 16-25, 52-61: untagged enums, the variants tried in order. *)
Definition ser_kind {A} (f : A → json) (k : kind A) : json :=
  match k with KString s => JStr s | KObject a => f a end.
Definition de_kind {A} (d : json → option A) (j : json) : option (kind A) :=
  match j with JStr s => Some (KString s) | _ => KObject <$> d j end.
Definition ser_quota {A} (f : A → json) (q : quota A) : json :=
  match q with QOne a => f a | QMany l => ser_list f l end.
Definition de_quota {A} (d : json → option A) (j : json) : option (quota A) :=
  match d j with Some a => Some (QOne a) | None => QMany <$> de_list d j end.

(** [serde_json::Value]. *)
Definition de_value (j : json) : option json := Some (value_of j).

(** [usize]. *)
Definition ser_usize (n : N) : json := ser_int (Z.of_N n).
Definition de_usize (j : json) : option N :=
  match j with
  | JNum t => match NilZero.int_of_string t with
      | Some d => let z := Z.of_int d in
                  if bool_decide (int_text z = t) && (Z.leb 0 z && Z.ltb z (2 ^ 64)) then Some (Z.to_N z) else None
      | None => None end
  | _ => None
  end.

(** crates/w3c-vc/src/model/types.rs 107-136. *)
Definition ser_direction (d : direction) : json := JStr (match d with Ltr => "ltr" | Rtl => "rtl" end).
Definition de_direction : json → option direction := unit_variant [("ltr", Ltr); ("rtl", Rtl)].
Definition ser_lang_value (v : lang_value) : json :=
  JObj ([("@value", JStr (lv_value v))] ++ some_entry "@language" JStr (lv_language v)
        ++ some_entry "@direction" ser_direction (lv_direction v)).
Definition de_lang_value : json → option lang_value := obj (λ m,
  match req de_str "@value" m, opt de_str "@language" m, opt de_direction "@direction" m with
  | Some v, Some l, Some d => Some (LangValue v l d)
  | _, _, _ => None
  end).
(** 15-17. *)
Definition ser_lang_string : lang_string → json := ser_kind (ser_quota ser_lang_value).
Definition de_lang_string : json → option lang_string := de_kind (de_quota de_lang_value).

(** crates/w3c-vc/src/model/vc.rs 162-176, [Issuer], reduced to its id; [default]. *)
Definition ser_issuer_id (i : string) : json := JObj [("id", JStr i)].
Definition de_issuer_id : json → option string := obj (λ m, dflt de_str "" "id" m).

(** 178-191, [CredentialSubject]: the claims are flattened beside the id; [default]. *)
Definition ser_subject (s : credential_subject) : json :=
  JObj (some_entry "id" JStr (cs_id s) ++ cs_claims s).
Definition flattened (taken : list string) (m : list (string * json)) : list (string * json) :=
  List.filter (λ kv, bool_decide (kv.1 ∉ taken)) m.
Definition de_subject : json → option credential_subject := obj (λ m,
  match opt de_str "id" m, de_entries de_value (flattened ["id"] m) [] with
  | Some i, Some c => Some (CredentialSubject i c)
  | _, _ => None
  end).

(** 263-275, [StatusPurpose]. *)
Definition ser_purpose (p : status_purpose) : json :=
  JStr (match p with Revocation => "revocation" | Suspension => "suspension" | Message => "message" end).
Definition de_purpose : json → option status_purpose :=
  unit_variant [("revocation", Revocation); ("suspension", Suspension); ("message", Message)].
(** 193-260, [CredentialStatus] with [CredentialStatusType] flattened.  [rename_all] on the variant
    renames the fields of a variant written out in the enum; this one wraps the struct
    [Bitstring], whose fields keep their names. *)
Definition ser_status (s : credential_status) : json :=
  JObj (some_entry "id" JStr (st_id s)
        ++ [("type", JStr "BitstringStatusListEntry"); ("status_purpose", ser_purpose (st_purpose s));
            ("status_list_index", ser_usize (st_index s)); ("status_list_credential", JStr (st_list_credential s))]
        ++ some_entry "status_size" ser_usize (st_size s)).
Definition de_status : json → option credential_status := obj (λ m,
  match opt de_str "id" m, req de_str "type" m, req de_purpose "status_purpose" m, req de_usize "status_list_index" m,
        req de_str "status_list_credential" m, opt de_usize "status_size" m with
  | Some i, Some t, Some p, Some n, Some l, Some z =>
      if bool_decide (t = "BitstringStatusListEntry") then Some (CredentialStatus i p n l z) else None
  | _, _, _, _, _, _ => None
  end).

(** crates/w3c-vc/src/proof/integrity.rs 62-135, reduced to the challenge; all fields have
    defaults, so the empty array is a proof. *)
Definition ser_integrity (p : integrity_proof) : json := JObj (some_entry "challenge" JStr (ip_challenge p)).
Definition de_integrity (j : json) : option integrity_proof :=
  match j with
  | JArr [] => Some (IntegrityProof None)
  | _ => obj (λ m, IntegrityProof <$> opt de_str "challenge" m) j
  end.

Section Dates.
Variable cx : codecs.

(** crates/w3c-vc/src/model/vc.rs 27-133, [VerifiableCredential]; [default]. *)
Definition ser_vc (v : vc) : json :=
  JObj ([("@context", ser_list (ser_kind (λ j, j)) (vc_context v)); ("id", null_or JStr (vc_id v));
         ("type", ser_quota JStr (vc_type v))]
        ++ some_entry "name" ser_lang_string (vc_name v)
        ++ some_entry "description" ser_lang_string (vc_description v)
        ++ [("issuer", ser_kind ser_issuer_id (vc_issuer v)); ("credentialSubject", ser_quota ser_subject (vc_subject v));
            ("validFrom", null_or (ser_date cx) (vc_valid_from v))]
        ++ some_entry "validUntil" (ser_date cx) (vc_valid_until v)
        ++ some_entry "credentialStatus" (ser_quota ser_status) (vc_status v)
        ++ some_entry "proof" (ser_quota ser_integrity) (vc_proof v)).
Definition de_vc : json → option vc := obj (λ m,
  match dflt (de_list (de_kind de_value)) [] "@context" m, opt de_str "id" m, dflt (de_quota de_str) (QOne "") "type" m,
        opt de_lang_string "name" m, opt de_lang_string "description" m,
        dflt (de_kind de_issuer_id) (KString "") "issuer" m,
        dflt (de_quota de_subject) (QOne cs_default) "credentialSubject" m,
        opt (de_date cx) "validFrom" m, opt (de_date cx) "validUntil" m,
        opt (de_quota de_status) "credentialStatus" m, opt (de_quota de_integrity) "proof" m with
  | Some c, Some i, Some t, Some n, Some d, Some u, Some s, Some vf, Some vu, Some st, Some p =>
      Some (VC c i t n d u s vf vu st p)
  | _, _, _, _, _, _, _, _, _, _, _ => None
  end).

(** crates/w3c-vc/src/model/vp.rs 24-63, [VerifiablePresentation]; [default]. *)
Definition ser_vp (p : vp) : json :=
  JObj ([("@context", ser_list (ser_kind (λ j, j)) (vp_context p))]
        ++ some_entry "id" JStr (vp_id p)
        ++ [("type", ser_quota JStr (vp_type p))]
        ++ some_entry "verifiableCredential" (ser_list (ser_kind ser_vc)) (vp_credential p)
        ++ some_entry "holder" JStr (vp_holder p)
        ++ some_entry "proof" (ser_quota ser_integrity) (vp_proof p)).
Definition de_vp : json → option vp := obj (λ m,
  match dflt (de_list (de_kind de_value)) [] "@context" m, opt de_str "id" m, dflt (de_quota de_str) (QOne "") "type" m,
        opt (de_list (de_kind de_vc)) "verifiableCredential" m, opt de_str "holder" m,
        opt (de_quota de_integrity) "proof" m with
  | Some c, Some i, Some t, Some l, Some h, Some p => Some (VP c i t l h p)
  | _, _, _, _, _, _ => None
  end).

(** crates/w3c-vc/src/proof/jose.rs 50-85, [VcClaims]: what is signed. *)
Definition ser_vc_claims (c : vc_claims) : json :=
  JObj ([("sub", JStr (vcc_sub c)); ("nbf", null_or ser_int (vcc_nbf c)); ("iss", JStr (vcc_iss c));
         ("iat", ser_int (vcc_iat c)); ("jti", JStr (vcc_jti c))]
        ++ some_entry "exp" ser_int (vcc_exp c) ++ [("vc", ser_vc (vcc_vc c))]).
Definition de_vc_claims : json → option vc_claims := obj (λ m,
  match req de_str "sub" m, opt (de_int 64) "nbf" m, req de_str "iss" m, req (de_int 64) "iat" m, req de_str "jti" m,
        opt (de_int 64) "exp" m, req de_vc "vc" m with
  | Some s, Some n, Some i, Some a, Some j, Some e, Some v => Some (VcClaims s n i a j e v)
  | _, _, _, _, _, _, _ => None
  end).

(** 114-146, [VpClaims]. *)
Definition ser_vp_claims (c : vp_claims) : json :=
  JObj [("iss", JStr (vpc_iss c)); ("jti", JStr (vpc_jti c)); ("aud", JStr (vpc_aud c)); ("nonce", JStr (vpc_nonce c));
        ("nbf", ser_int (vpc_nbf c)); ("iat", ser_int (vpc_iat c)); ("exp", ser_int (vpc_exp c)); ("vp", ser_vp (vpc_vp c))].
Definition de_vp_claims : json → option vp_claims := obj (λ m,
  match req de_str "iss" m, req de_str "jti" m, req de_str "aud" m, req de_str "nonce" m, req (de_int 64) "nbf" m,
        req (de_int 64) "iat" m, req (de_int 64) "exp" m, req de_vp "vp" m with
  | Some i, Some j, Some a, Some n, Some b, Some t, Some e, Some v => Some (VpClaims i j a n b t e v)
  | _, _, _, _, _, _, _, _ => None
  end).
End Dates.
