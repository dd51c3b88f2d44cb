(** What matching means (presentation exchange 2.0.0, as far as the properties go). *)
From Verif Require Import Base Json MatcherModel.

(** A value passes a filter. *)
Definition passes (eng : engine) (f : filter_value) (node : json) : Prop :=
  match f with
  | FConst c =>
      match node with
      | JArr l => JStr c ∈ l
      | JStr s => s = json_text (JStr c)
      | JNum t => t = c
      | JNull => True
      | JBool _ | JObj _ => False
      end
  | FPattern p => en_regex eng p (json_text node) = Some true
  | FFormat f => ∃ s, node = JStr s ∧
      (f = "date" ∧ en_date eng s = true ∨ f = "date-time" ∧ en_datetime eng s = true)
  end.

(** The first of the field's paths that selects something selects [node] first. *)
Definition selects (eng : engine) (f : field) (v node : json) : Prop :=
  ∃ ps p qs ns, fd_path f = ps ++ p :: qs ∧ (∀ q, q ∈ ps → en_query eng q v = Some []) ∧
    en_query eng p v = Some (node :: ns).

(** A field is matched. *)
Definition matches (eng : engine) (f : field) (v : json) : Prop :=
  ∃ node, selects eng f v node ∧ ∀ flt, fd_filter f = Some flt → passes eng (fl_value flt) node.

(** Every field is matched or optional. *)
Definition meets (eng : engine) (c : constraints) (v : json) : Prop :=
  ∀ fs f, cn_fields c = Some fs → f ∈ fs → matches eng f v ∨ fd_optional f = Some true.

(** What a const filter should accept: the constant, or an array that contains it. *)
Definition equal_to_const (c : string) (node : json) : Prop :=
  node = JStr c ∨ ∃ l, node = JArr l ∧ JStr c ∈ l.

(** The filters for which there is no code: const on an object, and other formats. *)
Definition unsupported (f : filter_value) (node : json) : Prop :=
  match f with
  | FConst _ => ∃ m, node = JObj m
  | FPattern _ => False
  | FFormat f => f ≠ "date" ∧ f ≠ "date-time"
  end.

(** A field that comes down to such a filter. *)
Definition stuck (eng : engine) (f : field) (v : json) : Prop :=
  ∃ node flt, selects eng f v node ∧ fd_filter f = Some flt ∧ unsupported (fl_value flt) node.
