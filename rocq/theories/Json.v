(** JSON values ([serde_json::Value]).  Numbers are kept as their text. *)
From Verif Require Import Base.

Inductive json : Type :=
| JNull
| JBool (b : bool)
| JNum (text : string)
| JStr (s : string)
| JArr (l : list json)
| JObj (m : list (string * json)).

(** Structural equality ([PartialEq] of [serde_json::Value]).  Objects are
    compared as lists of entries: [serde_json::Map] keeps its keys sorted. *)
Fixpoint json_eqb (a b : json) {struct a} : bool :=
  match a, b with
  | JNull, JNull => true
  | JBool x, JBool y => Bool.eqb x y
  | JNum x, JNum y => bool_decide (x = y)
  | JStr x, JStr y => bool_decide (x = y)
  | JArr l, JArr l' =>
      (fix go l l' {struct l} := match l, l' with
         | [], [] => true
         | x :: r, y :: r' => json_eqb x y && go r r'
         | _, _ => false end) l l'
  | JObj m, JObj m' =>
      (fix go m m' {struct m} := match m, m' with
         | [], [] => true
         | (k, x) :: r, (k', y) :: r' => bool_decide (k = k') && json_eqb x y && go r r'
         | _, _ => false end) m m'
  | _, _ => false
  end.
