(** Vocabulary for statements about executions. *)
From Verif Require Import Base Prog.

(** Every call of request [i] was made before every call of request [j]: the two
    requests did not overlap, and [i] came first. *)
Definition before {S} (log : list (entry S)) (i j : nat) : Prop :=
  ∀ a b ea eb, log !! a = Some ea → log !! b = Some eb →
    e_who ea = i → e_who eb = j → a < b.

(** The two requests overlapped: neither was over before the other started. *)
Definition overlap {S} (log : list (entry S)) (i j : nat) : Prop :=
  ¬ before log i j ∧ ¬ before log j i.
