(** crates/w3c-vc/src/model/vp.rs 167-180: presentations from strings. *)
From Coq Require Import Ascii.
From Verif Require Import Base Json CoreModel VcModel.

(** Rust's [&s[0..1]]: panics unless the string has a byte 0 and byte 1 is the end of the
    string or starts a character ([str::is_char_boundary]: not 10xxxxxx). *)
Definition continuation_byte (a : ascii) : bool :=
  Nat.leb 128 (nat_of_ascii a) && Nat.ltb (nat_of_ascii a) 192.
Definition slice_0_1 (s : string) : option string :=
  match s with
  | EmptyString => None
  | String a EmptyString => Some (String a EmptyString)
  | String a (String b _) => if continuation_byte b then None else Some (String a EmptyString)
  end.

(** crates/w3c-vc/src/model/vp.rs 170-179, [VerifiablePresentation::from_str].  The
    base64url decoder and the JSON reader of the libraries are arguments; they return
    [None] for an error and never panic. *)
Definition vp_from_str (decode : string → option string) (read : string → option vp) (s : string)
    : outcome string vp :=
  match slice_0_1 s with
  | None => Panic "byte index 1 is out of bounds or not a char boundary"
  | Some first =>
      if String.eqb first "{" then
        match read s with Some v => Ok v | None => Err "JSON" end
      else
        match decode s with
        | None => Err "base64"
        | Some dec => match read dec with Some v => Ok v | None => Err "JSON" end
        end
  end.
