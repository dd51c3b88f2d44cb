(** The text of a JSON value is read back as that value. *)
From Coq Require Import Lia.
From Verif Require Import Base StringSpec Json MatcherModel JsonParse.
Local Arguments String.append : simpl never.

(** Levels of arrays and objects. *)
Fixpoint jdepth (j : json) : nat :=
  match j with
  | JArr l => S (list_max (map jdepth l))
  | JObj m => S (list_max (map (λ kv, jdepth kv.2) m))
  | _ => 0
  end.
(** All numbers are written as JSON wants them. *)
Fixpoint jnumbers (j : json) : Prop :=
  match j with
  | JNum t => parse_number t = Some (t, "")
  | JArr l => (fix all l := match l with [] => True | x :: r => jnumbers x ∧ all r end) l
  | JObj m => (fix all m := match m with [] => True | kv :: r => jnumbers kv.2 ∧ all r end) m
  | _ => True
  end.

Lemma json_ind' (P : json → Prop) :
  P JNull → (∀ b, P (JBool b)) → (∀ t, P (JNum t)) → (∀ s, P (JStr s)) →
  (∀ l, Forall P l → P (JArr l)) → (∀ m, Forall (λ kv, P kv.2) m → P (JObj m)) → ∀ j, P j.
Proof.
  intros Hn Hb Ht Hs Ha Ho. fix IH 1. intros [|b|t|s|l|m]; [done|done|done|done| |].
  - apply Ha. induction l as [|x l IHl]; constructor; [apply IH|exact IHl].
  - apply Ho. induction m as [|[k x] m IHm]; constructor; [apply IH|exact IHm].
Qed.

Lemma append_assoc a b c : (a +:+ b) +:+ c = a +:+ (b +:+ c).
Proof. induction a as [|x a IH]; [done|]. rewrite !append_cons. by rewrite IH. Qed.
Lemma append_nil_r a : a +:+ "" = a.
Proof. induction a as [|x a IH]; [done|]. rewrite append_cons. by rewrite IH. Qed.
Lemma length_append a b : String.length (a +:+ b) = String.length a + String.length b.
Proof. induction a as [|x a IH]; [done|]. rewrite append_cons. simpl. by rewrite IH. Qed.

(** ** Strings *)
Lemma pre_some p a r : pre p (Some (a, r)) = Some (p +:+ a, r).
Proof. done. Qed.
Lemma parse_escape c s rest x : parse_str s = Some (x, rest) → parse_str (json_escape c +:+ s) = Some (String c x, rest).
Proof.
  intros H. destruct c as [[] [] [] [] [] [] [] []]; unfold json_escape; simpl;
    rewrite ?append_assoc; rewrite ?append_cons, ?append_nil; simpl; by rewrite H.
Qed.
Lemma parse_escapes s rest : parse_str (json_escapes s +:+ String """" rest) = Some (s, rest).
Proof.
  induction s as [|c s IH]; [done|]. simpl json_escapes. rewrite append_assoc. by apply parse_escape.
Qed.

(** ** Numbers *)
(** [rest] does not go on with a number. *)
Definition stops (rest : string) : Prop :=
  match rest with
  | "" => True
  | String c _ => is_digit c = false ∧ c ≠ "."%char ∧ c ≠ "e"%char ∧ c ≠ "E"%char
  end.
Lemma digits_app s a b rest : stops rest → digits s = (a, b) → digits (s +:+ rest) = (a, b +:+ rest).
Proof.
  intros Hs. revert a b. induction s as [|c s IH]; intros a b H.
  - injection H as <- <-. rewrite append_nil. destruct rest as [|c r]; [done|]. destruct Hs as [Hd _]. simpl. by rewrite Hd.
  - rewrite append_cons. simpl in *. destruct (is_digit c).
    + destruct (digits s) as [a' b'] eqn:E. injection H as <- <-. by rewrite (IH a' b').
    + by injection H as <- <-.
Qed.
Lemma parse_int_app s a b rest : stops rest → parse_int s = Some (a, b) → parse_int (s +:+ rest) = Some (a, b +:+ rest).
Proof.
  intros Hs H. destruct s as [|c s]; [done|]. rewrite append_cons. simpl in *. destruct (Nat.eqb _ 48).
  - destruct s as [|d s].
    + injection H as <- <-. rewrite append_nil. destruct rest as [|d r]; [done|]. destruct Hs as [Hd _]. by rewrite Hd.
    + rewrite append_cons. destruct (is_digit d); [done|]. by injection H as <- <-.
  - destruct (is_digit c); [|done]. destruct (digits s) as [a' b'] eqn:E. injection H as <- <-.
    by rewrite (digits_app _ _ _ _ Hs E).
Qed.
Lemma parse_frac_stops rest : stops rest → parse_frac rest = Some ("", rest).
Proof.
  destruct rest as [|c r]; [done|]. intros (_ & Hp & _). simpl.
  destruct c as [[] [] [] [] [] [] [] []]; try done.
Qed.
Lemma parse_frac_app s a b rest : stops rest → parse_frac s = Some (a, b) → parse_frac (s +:+ rest) = Some (a, b +:+ rest).
Proof.
  intros Hs H. destruct s as [|c s]; [injection H as <- <-; by apply parse_frac_stops|].
  rewrite append_cons. destruct (decide (c = "."%char)) as [->|Hc].
  - simpl in *. destruct (digits s) as [a' b'] eqn:E. rewrite (digits_app _ _ _ _ Hs E).
    destruct a'; [done|]. by injection H as <- <-.
  - assert (∀ r, parse_frac (String c r) = Some ("", String c r)) as Hn.
    { intros r. simpl. destruct c as [[] [] [] [] [] [] [] []]; try done. }
    rewrite Hn in *. by injection H as <- <-.
Qed.
Lemma parse_exp_stops rest : stops rest → parse_exp rest = Some ("", rest).
Proof.
  destruct rest as [|c r]; [done|]. intros (_ & _ & He & HE). simpl.
  destruct c as [[] [] [] [] [] [] [] []]; try done.
Qed.
Definition is_e (c : ascii) : bool := Ascii.eqb c "e" || Ascii.eqb c "E".
Definition is_sign (c : ascii) : bool := Ascii.eqb c "+" || Ascii.eqb c "-".
Lemma parse_exp_eq c r : parse_exp (String c r) =
  if is_e c then
    match r with
    | String g r' =>
        if is_sign g then match digits r' with ("", _) => None | (a, b) => Some (String c (String g a), b) end
        else match digits r with ("", _) => None | (a, b) => Some (String c a, b) end
    | "" => None
    end
  else Some ("", String c r).
Proof.
  destruct c as [[] [] [] [] [] [] [] []]; try reflexivity; simpl;
    (destruct r as [|g r]; [done|]; destruct g as [[] [] [] [] [] [] [] []]; reflexivity).
Qed.
Lemma parse_exp_app s a b rest : stops rest → parse_exp s = Some (a, b) → parse_exp (s +:+ rest) = Some (a, b +:+ rest).
Proof.
  intros Hs H. destruct s as [|c s]; [injection H as <- <-; by apply parse_exp_stops|].
  rewrite append_cons. rewrite parse_exp_eq in *. destruct (is_e c); [|by injection H as <- <-].
  destruct s as [|g s]; [done|]. rewrite append_cons. destruct (is_sign g).
  - destruct (digits s) as [a' b'] eqn:E. rewrite (digits_app _ _ _ _ Hs E).
    destruct a'; [done|]. by injection H as <- <-.
  - rewrite <-append_cons. destruct (digits (String g s)) as [a' b'] eqn:E. rewrite (digits_app _ _ _ _ Hs E).
    destruct a'; [done|]. by injection H as <- <-.
Qed.
Lemma parse_unsigned_app s a b rest :
  stops rest → parse_unsigned s = Some (a, b) → parse_unsigned (s +:+ rest) = Some (a, b +:+ rest).
Proof.
  intros Hs. unfold parse_unsigned. destruct (parse_int s) as [[i r1]|] eqn:E1; [|done].
  destruct (parse_frac r1) as [[f r2]|] eqn:E2; [|done]. destruct (parse_exp r2) as [[e r3]|] eqn:E3; [|done].
  intros [= <- <-]. rewrite (parse_int_app _ _ _ _ Hs E1), (parse_frac_app _ _ _ _ Hs E2).
  by rewrite (parse_exp_app _ _ _ _ Hs E3).
Qed.
Lemma parse_number_eq c r : parse_number (String c r) =
  if Ascii.eqb c "-" then pre "-" (parse_unsigned r) else parse_unsigned (String c r).
Proof. destruct c as [[] [] [] [] [] [] [] []]; reflexivity. Qed.
Lemma parse_number_app s a b rest :
  stops rest → parse_number s = Some (a, b) → parse_number (s +:+ rest) = Some (a, b +:+ rest).
Proof.
  intros Hs H. destruct s as [|c s]; [done|]. rewrite append_cons. rewrite parse_number_eq in *. destruct (Ascii.eqb c "-").
  - destruct (parse_unsigned s) as [[a' b']|] eqn:E; [|done]. injection H as <- <-.
    by rewrite (parse_unsigned_app _ _ _ _ Hs E).
  - rewrite <-append_cons. by apply parse_unsigned_app.
Qed.
(** A number starts with a digit or a minus sign. *)
Lemma parse_number_head s a b : parse_number s = Some (a, b) →
  ∃ c r, s = String c r ∧ (is_digit c = true ∨ c = "-"%char).
Proof.
  destruct s as [|c s]; [done|]. rewrite parse_number_eq. intros H. exists c, s. split; [done|].
  destruct (Ascii.eqb_spec c "-"); [by right|]. left. unfold parse_unsigned in H. simpl in H.
  destruct (Nat.eqb_spec (nat_of_ascii c) 48) as [E|].
  - unfold is_digit. by rewrite E.
  - by destruct (is_digit c).
Qed.

(** ** Values *)
Lemma stops_char c r : is_digit c = false → c ≠ "."%char → c ≠ "e"%char → c ≠ "E"%char → stops (String c r).
Proof. by repeat split. Qed.
Lemma parse_value_number d c r : is_digit c = true ∨ c = "-"%char →
  parse_value (S d) (String c r) =
    match parse_number (String c r) with Some (t, r) => Some (JNum t, r) | None => None end.
Proof.
  intros Hc. assert (ws c = false ∧ Ascii.eqb "n" c = false ∧ Ascii.eqb "t" c = false ∧ Ascii.eqb "f" c = false
    ∧ nat_of_ascii c ≠ 34 ∧ c ≠ "["%char ∧ c ≠ "{"%char) as (Hw & Hn & Ht & Hf & Hq & Ha & Ho).
  { destruct Hc as [Hc| ->]; [|done]. destruct c as [[] [] [] [] [] [] [] []]; try discriminate Hc; done. }
  cbn [parse_value]. replace (skip_ws (String c r)) with (String c r) by (simpl; by rewrite Hw).
  transitivity (if Nat.eqb (nat_of_ascii c) 34 then
            match parse_str r with Some (x, r) => Some (JStr x, r) | None => None end
          else match strip "null" (String c r), strip "true" (String c r), strip "false" (String c r) with
          | Some r, _, _ => Some (JNull, r)
          | _, Some r, _ => Some (JBool true, r)
          | _, _, Some r => Some (JBool false, r)
          | _, _, _ => match parse_number (String c r) with Some (t, r) => Some (JNum t, r) | None => None end
          end).
  { clear -Ha Ho. destruct c as [[] [] [] [] [] [] [] []]; try reflexivity; done. }
  apply Nat.eqb_neq in Hq. rewrite Hq. cbn [strip]. by rewrite Hn, Ht, Hf.
Qed.
Definition starts (s : string) : Prop := ∃ c r, s = String c r ∧ ws c = false ∧ c ≠ "]"%char ∧ c ≠ "}"%char.
Lemma starts_app s t : starts s → starts (s +:+ t).
Proof. intros (c & r & -> & H). exists c, (r +:+ t). done. Qed.
Lemma json_text_starts j : jnumbers j → starts (json_text j).
Proof.
  destruct j as [|[]|t|s|l|m]; simpl; intros H.
  - by eexists _, _.
  - by eexists _, _.
  - by eexists _, _.
  - destruct (parse_number_head _ _ _ H) as (c & r & -> & Hc). exists c, r. split; [done|].
    destruct Hc as [Hc| ->]; [|done]. destruct c as [[] [] [] [] [] [] [] []]; try discriminate Hc; done.
  - by eexists _, _.
  - eexists _, _. rewrite append_cons. done.
  - eexists _, _. rewrite append_cons. done.
Qed.
Lemma json_quote_starts k : starts (json_quote k).
Proof. by eexists _, _. Qed.
Lemma skip_starts s : starts s → skip_ws s = s.
Proof. intros (c & r & -> & Hw & _). simpl. by rewrite Hw. Qed.

Definition entry_text (kv : string * json) : string := json_quote kv.1 +:+ ":" +:+ json_text kv.2.
Lemma json_text_obj m : json_text (JObj m) = "{" +:+ commas (map entry_text m) +:+ "}".
Proof.
  cbn [json_text]. do 3 f_equal. induction m as [|[k v] m IH]; [done|]. simpl. by rewrite IH.
Qed.
Lemma commas_length l : Forall (λ s, s ≠ "") l → length l ≤ String.length (commas l).
Proof.
  induction l as [|a l IH]; [simpl; lia|]. intros H. apply Forall_cons in H as [Ha Hl]. specialize (IH Hl).
  assert (1 ≤ String.length a). { destruct a; [done|]. simpl. lia. }
  destruct l as [|b l]; [simpl; lia|]. change (commas (a :: b :: l)) with (a +:+ "," +:+ commas (b :: l)).
  rewrite !length_append. simpl length in *. simpl (String.length ","). lia.
Qed.

Lemma parse_elems_text p l n rest :
  Forall (λ x, ∀ rest, stops rest → p (json_text x +:+ rest) = Some (x, rest)) l → l ≠ [] → length l ≤ n →
  parse_elems p n (commas (map json_text l) +:+ String "]" rest) = Some (l, rest).
Proof.
  revert n. induction l as [|x l IH]; intros n H Hne Hn; [done|]. apply Forall_cons in H as [Hx Hl].
  destruct n as [|n]; [simpl in Hn; lia|]. destruct l as [|y l].
  - cbn [parse_elems map commas]. rewrite Hx; [done|]. by apply stops_char.
  - change (commas (map json_text (x :: y :: l))) with (json_text x +:+ "," +:+ commas (map json_text (y :: l))).
    rewrite !append_assoc. rewrite append_cons, append_nil. cbn [parse_elems]. rewrite Hx; [|by apply stops_char].
    cbn [skip_ws]. change (ws ",") with false. cbn match. rewrite IH; [done|done|done|]. simpl in *; lia.
Qed.
Lemma parse_entry_text p kv rest :
  (∀ rest, stops rest → p (json_text kv.2 +:+ rest) = Some (kv.2, rest)) → stops rest →
  parse_entry p (entry_text kv +:+ rest) = Some (kv.1, kv.2, rest).
Proof.
  intros Hp Hs. assert (entry_text kv +:+ rest =
    String """" (json_escapes kv.1 +:+ String """" (String ":" (json_text kv.2 +:+ rest)))) as ->.
  { unfold entry_text, json_quote. by rewrite ?append_assoc, ?append_cons, ?append_nil, ?append_assoc, ?append_cons. }
  unfold parse_entry. cbn [skip_ws]. change (ws """") with false. cbn match.
  change (Nat.eqb (nat_of_ascii """") 34) with true. cbn match. rewrite parse_escapes.
  cbn [skip_ws]. change (ws ":") with false. cbn match. by rewrite Hp.
Qed.
Lemma parse_entries_text p l n rest :
  Forall (λ kv, ∀ rest, stops rest → p (json_text kv.2 +:+ rest) = Some (kv.2, rest)) l → l ≠ [] → length l ≤ n →
  parse_entries p n (commas (map entry_text l) +:+ String "}" rest) = Some (l, rest).
Proof.
  revert n. induction l as [|x l IH]; intros n H Hne Hn; [done|]. apply Forall_cons in H as [Hx Hl].
  destruct n as [|n]; [simpl in Hn; lia|]. destruct l as [|y l].
  - cbn [parse_entries map commas]. rewrite parse_entry_text; [|done|by apply stops_char]. by destruct x.
  - change (commas (map entry_text (x :: y :: l))) with (entry_text x +:+ "," +:+ commas (map entry_text (y :: l))).
    rewrite !append_assoc. rewrite append_cons, append_nil. cbn [parse_entries].
    rewrite parse_entry_text; [|done|by apply stops_char].
    cbn [skip_ws]. change (ws ",") with false. cbn match. rewrite IH; [by destruct x|done|done|]. simpl in *; lia.
Qed.

Lemma jnumbers_arr l : jnumbers (JArr l) ↔ Forall jnumbers l.
Proof.
  cbn [jnumbers]. induction l as [|x l IH]; [by split|]. rewrite Forall_cons. by rewrite IH.
Qed.
Lemma jnumbers_obj m : jnumbers (JObj m) ↔ Forall (λ kv, jnumbers kv.2) m.
Proof.
  cbn [jnumbers]. induction m as [|x l IH]; [by split|]. rewrite Forall_cons. by rewrite IH.
Qed.
Lemma list_max_lt {A} (f : A → nat) l d : list_max (map f l) < d → Forall (λ x, f x < d) l.
Proof. induction l as [|x l IH]; [constructor|]. simpl. intros H. constructor; [lia|]. apply IH. lia. Qed.

Lemma parse_value_text j : ∀ d rest, jnumbers j → jdepth j < d → stops rest →
  parse_value d (json_text j +:+ rest) = Some (j, rest).
Proof.
  induction j as [|b|t|s|l IH|m IH] using json_ind'; intros d rest Hn Hd Hs; (destruct d as [|d]; [lia|]).
  - done.
  - by destruct b.
  - cbn [jnumbers] in Hn. destruct (parse_number_head _ _ _ Hn) as (c & r & -> & Hc).
    cbn [json_text]. rewrite append_cons, parse_value_number by done. rewrite <-append_cons.
    by rewrite (parse_number_app _ _ _ _ Hs Hn).
  - cbn [json_text]. unfold json_quote. rewrite append_cons, append_assoc, append_cons, append_nil.
    cbn [parse_value skip_ws]. change (ws """") with false. cbn match.
    change (Nat.eqb (nat_of_ascii """") 34) with true. cbn match. by rewrite parse_escapes.
  - cbn [jdepth] in Hd. apply jnumbers_arr in Hn. destruct d as [|d]; [lia|].
    assert (Forall (λ x, jdepth x < S d) l) as Hl by (apply list_max_lt; lia).
    cbn [json_text]. rewrite !append_assoc. rewrite !append_cons, !append_nil.
    remember (S d) as d1 eqn:Ed. cbn [parse_value]. cbn [skip_ws]. change (ws "[") with false. cbn match.
    destruct l as [|x l]; [by subst d1|].
    assert (starts (commas (map json_text (x :: l)) +:+ String "]" rest)) as Hst.
    { apply Forall_cons in Hn as [Hx _]. apply json_text_starts in Hx. apply starts_app.
      destruct l; [done|]. by apply (starts_app (json_text x)). }
    rewrite (skip_starts _ Hst). destruct Hst as (c & r & E & _ & Hc & _).
    assert (parse_elems (parse_value d1) (String.length (String c r)) (String c r) = Some (x :: l, rest)) as Hp.
    { rewrite <-E. apply parse_elems_text.
      - rewrite Forall_forall in IH, Hn, Hl. apply Forall_forall. intros y Hy rest' Hs'.
        by apply IH; [|apply Hn|apply Hl|].
      - done.
      - rewrite length_append. trans (String.length (commas (map json_text (x :: l)))); [|lia].
        rewrite <-(map_length json_text). apply commas_length. apply Forall_forall. intros y Hy.
        apply elem_of_list_fmap in Hy as (z & -> & Hz). pose proof (proj1 (Forall_forall _ _) Hn z Hz) as Hz'.
        destruct (json_text_starts _ Hz') as (? & ? & -> & _). done. }
    rewrite E. rewrite Hp. subst d1.
    clear -Hc. destruct c as [[] [] [] [] [] [] [] []]; try reflexivity; done.
  - cbn [jdepth] in Hd. apply jnumbers_obj in Hn. destruct d as [|d]; [lia|].
    assert (Forall (λ x, jdepth x.2 < S d) m) as Hl by (apply list_max_lt; lia).
    rewrite json_text_obj. rewrite !append_assoc. rewrite !append_cons, !append_nil.
    remember (S d) as d1 eqn:Ed. cbn [parse_value]. cbn [skip_ws]. change (ws "{") with false. cbn match.
    destruct m as [|x l]; [by subst d1|].
    assert (starts (commas (map entry_text (x :: l)) +:+ String "}" rest)) as Hst.
    { apply starts_app. pose proof (starts_app _ (":" +:+ json_text x.2) (json_quote_starts x.1)).
      destruct l; [done|]. by apply (starts_app (entry_text x)). }
    rewrite (skip_starts _ Hst). destruct Hst as (c & r & E & _ & _ & Hc).
    assert (parse_entries (parse_value d1) (String.length (String c r)) (String c r) = Some (x :: l, rest)) as Hp.
    { rewrite <-E. apply parse_entries_text.
      - rewrite Forall_forall in IH, Hn, Hl. apply Forall_forall. intros y Hy rest' Hs'.
        by apply IH; [|apply Hn|apply Hl|].
      - done.
      - rewrite length_append. trans (String.length (commas (map entry_text (x :: l)))); [|lia].
        rewrite <-(map_length entry_text). apply commas_length. apply Forall_forall. intros y Hy.
        apply elem_of_list_fmap in Hy as (z & -> & Hz).
        destruct (json_quote_starts z.1) as (? & ? & E' & _). unfold entry_text. by rewrite E'. }
    rewrite E. rewrite Hp. subst d1.
    clear -Hc. destruct c as [[] [] [] [] [] [] [] []]; try reflexivity; done.
Qed.
Theorem parse_json_text j : jnumbers j → jdepth j < depth_limit → parse_json (json_text j) = Some j.
Proof.
  intros Hn Hd. unfold parse_json. rewrite <-(append_nil_r (json_text j)).
  by rewrite (parse_value_text j depth_limit "" Hn Hd I).
Qed.
