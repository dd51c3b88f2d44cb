(** What the status list properties say. *)
From Verif Require Import Base VcModel StatusModel.

(** All statuses of a log, in order. *)
Definition statuses (log : list status_log_entry) : list status_value := concat (map le_status log).

(** The position of a status in the list, as a number without bounds. *)
Definition place (c : list_config) (s : status_value) : N := (sv_list_index s * lc_size c)%N.

(** The last status satisfying [P]. *)
Definition last_such {A} (P : A → Prop) (l : list A) (x : A) : Prop :=
  ∃ l1 l2, l = l1 ++ x :: l2 ∧ P x ∧ ∀ y, y ∈ l2 → ¬ P y.

(** Positions are machine numbers. *)
Definition addressable (c : list_config) (log : list status_log_entry) : Prop :=
  ∀ s, s ∈ statuses log → sv_purpose s = lc_purpose c → (place c s < usize)%N.

(** The status of the list's purpose at position [p]. *)
Definition at_place (c : list_config) (p : N) (s : status_value) : Prop :=
  sv_purpose s = lc_purpose c ∧ place c s = p.

(** Bit [i] of a byte string as the W3C Bitstring Status List reads it: bit 0 is the
    left-most (most significant) bit of the first byte. *)
Definition w3c_bit (s : string) (i : nat) : option bool :=
  match String.get (i / 8) s with
  | Some a => Some (N.testbit (N_of_ascii a) (7 - N.of_nat (i mod 8)))
  | None => None
  end.

(** The purposes of a status list, as the standard writes them. *)
Definition purpose_name (p : status_purpose) : string :=
  match p with Revocation => "revocation" | Suspension => "suspension" | Message => "message" end.
