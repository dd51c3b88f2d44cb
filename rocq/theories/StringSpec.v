(** Vocabulary for strings, independent of the model's own string functions. *)
From Verif Require Import Base.

(** [p] is the part of [s] before the first [c], or all of [s] if [c] is not in it. *)
Definition up_to (c : ascii) (s p : string) : Prop :=
  c ∉ list_ascii_of_string p ∧ (s = p ∨ ∃ r, s = p +:+ String c r).
(** [p] is [s] without the [c]s at its end. *)
Definition without_trailing (c : ascii) (s p : string) : Prop :=
  (∃ n, s = p +:+ string_of_list_ascii (repeat c n)) ∧ ∀ p', p ≠ p' +:+ String c "".

Lemma append_cons a p q : String a p +:+ q = String a (p +:+ q).
Proof. reflexivity. Qed.
Lemma append_nil q : "" +:+ q = q.
Proof. reflexivity. Qed.
Lemma before_char_up_to c s : up_to c s (before_char c s).
Proof.
  induction s as [|a s [IH1 IH2]]; simpl.
  - split; [apply not_elem_of_nil|by left].
  - destruct (Ascii.eqb_spec a c) as [->|Hne].
    + split; [apply not_elem_of_nil|]. right. by exists s.
    + split.
      * simpl. by apply not_elem_of_cons.
      * destruct IH2 as [E|[r E]]; [left; congruence|right; exists r]. rewrite append_cons. congruence.
Qed.
Lemma up_to_unique c s p p' : up_to c s p → up_to c s p' → p = p'.
Proof.
  revert s p'. induction p as [|a p IH]; intros s p' [H1 H2] [H1' H2']; rewrite ?append_nil in *.
  - destruct p' as [|a' p']; [done|]. exfalso. simpl in H1'. apply not_elem_of_cons in H1' as [Hne _].
    destruct H2 as [->|[r ->]], H2' as [E|[r' E]]; rewrite ?append_cons, ?append_nil in E; by simplify_eq.
  - simpl in H1. apply not_elem_of_cons in H1 as [Hne H1]. destruct p' as [|a' p'].
    + exfalso. destruct H2 as [->|[r ->]], H2' as [E|[r' E]]; rewrite ?append_cons, ?append_nil in E; by simplify_eq.
    + simpl in H1'. apply not_elem_of_cons in H1' as [Hne' H1'].
      destruct s as [|b s]; [by destruct H2 as [?|[? ?]]|].
      assert (a = b ∧ a' = b) as [-> ->].
      { destruct H2 as [E|[r E]], H2' as [E'|[r' E']]; rewrite ?append_cons in *; by simplify_eq. }
      f_equal. apply (IH s).
      * split; [done|]. destruct H2 as [E|[r E]]; rewrite ?append_cons in *; simplify_eq; [by left|right; by exists r].
      * split; [done|]. destruct H2' as [E|[r E]]; rewrite ?append_cons in *; simplify_eq; [by left|right; by exists r].
Qed.
