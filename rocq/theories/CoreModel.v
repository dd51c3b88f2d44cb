(** crates/core/src/lib.rs: [Kind] and [Quota];
    crates/w3c-vc/src/model/types.rs: [LangString]. *)
From Verif Require Import Base.

(** crates/core/src/lib.rs 19-25, [Kind]. *)
Inductive kind (A : Type) : Type :=
| KString (s : string)
| KObject (a : A).
Global Arguments KString {A} s.
Global Arguments KObject {A} a.

(** crates/core/src/lib.rs 55-61, [Quota]. *)
Inductive quota (A : Type) : Type :=
| QOne (a : A)
| QMany (l : list A).
Global Arguments QOne {A} a.
Global Arguments QMany {A} l.

(** crates/core/src/lib.rs 88-97, [Quota::add]. *)
Definition quota_add {A} (q : quota A) (x : A) : quota A :=
  match q with
  | QOne one => QMany [one; x]
  | QMany l => QMany (l ++ [x])
  end.

(** crates/core/src/lib.rs 100-105, [Quota::len]. *)
Definition quota_len {A} (q : quota A) : nat :=
  match q with QOne _ => 1 | QMany l => length l end.

(** crates/core/src/lib.rs 108-113, [Quota::is_empty]. *)
Definition quota_is_empty {A} (q : quota A) : bool :=
  match q with QOne _ => false | QMany l => match l with [] => true | _ => false end end.

(** crates/core/src/lib.rs 71-84, [Quota::is_one], [Quota::is_many]. *)
Definition quota_is_one {A} (q : quota A) : bool :=
  match q with QOne _ => true | QMany _ => false end.
Definition quota_is_many {A} (q : quota A) : bool :=
  match q with QOne _ => false | QMany _ => true end.

(** crates/core/src/lib.rs 33-49, [Kind::is_string], [Kind::is_object]. *)
Definition kind_is_string {A} (k : kind A) : bool :=
  match k with KString _ => true | KObject _ => false end.
Definition kind_is_object {A} (k : kind A) : bool :=
  match k with KString _ => false | KObject _ => true end.

(** crates/w3c-vc/src/model/types.rs 128-136, [Direction]. *)
Inductive direction : Type := Ltr | Rtl.

(** crates/w3c-vc/src/model/types.rs 108-124, [LangValue]. *)
Record lang_value : Type := LangValue {
  lv_value : string;
  lv_language : option string;
  lv_direction : option direction;
}.

(** crates/w3c-vc/src/model/types.rs 17, [LangString]. *)
Definition lang_string : Type := kind (quota lang_value).

(** crates/w3c-vc/src/model/types.rs 22-30. *)
Definition ls_new_string (s : string) : lang_string := KString s.
Definition ls_new_object (v : lang_value) : lang_string := KObject (QOne v).

(** crates/w3c-vc/src/model/types.rs 33-48, [LangString::add]. *)
Definition ls_add (ls : lang_string) (v : lang_value) : lang_string :=
  match ls with
  | KString s => KObject (QMany [LangValue s None None; v])
  | KObject q => KObject (quota_add q v)
  end.

(** crates/w3c-vc/src/model/types.rs 52-63, [LangString::len], [is_empty]. *)
Definition ls_len (ls : lang_string) : nat :=
  match ls with KString _ => 1 | KObject q => quota_len q end.
Definition ls_is_empty (ls : lang_string) : bool := Nat.eqb (ls_len ls) 0.

(** crates/w3c-vc/src/model/types.rs 86-90: first entry with the language tag. *)
Fixpoint find_lang (lang : string) (l : list lang_value) : option string :=
  match l with
  | [] => None
  | v :: r => if bool_decide (lv_language v = Some lang) then Some (lv_value v) else find_lang lang r
  end.

(** crates/w3c-vc/src/model/types.rs 74-95, [LangString::value]; [None] is the error
    "Language tag not found". *)
Definition ls_value (ls : lang_string) (lang : string) : option string :=
  match ls with
  | KString s => Some s
  | KObject (QOne v) => if bool_decide (lv_language v = Some lang) then Some (lv_value v) else None
  | KObject (QMany l) => find_lang lang l
  end.
