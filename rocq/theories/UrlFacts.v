(** Proofs about query strings. *)
From Coq Require Import Lia.
From Verif Require Import Base UrlModel UrlSpec.

Local Arguments append : simpl never.
Notation q := (ascii_of_nat 34).

(** ** Strings *)

Lemma app_cons c s t : String c s +:+ t = String c (s +:+ t).
Proof. done. Qed.
Lemma app_nil_l' s : "" +:+ s = s.
Proof. done. Qed.
Lemma app_nil_r' s : s +:+ "" = s.
Proof. induction s as [|c s IH]; [done|]. by rewrite app_cons, IH. Qed.
Lemma app_assoc' s t u : (s +:+ t) +:+ u = s +:+ (t +:+ u).
Proof. induction s as [|c s IH]; [done|]. by rewrite !app_cons, IH. Qed.

Lemma ends_in_app c s t : ends_in c (s +:+ t) = if str_is_empty t then ends_in c s else ends_in c t.
Proof.
  induction s as [|d s IH]; [by destruct t|]. rewrite app_cons.
  destruct t as [|e t]; simpl str_is_empty in *; cbv iota in *.
  - rewrite app_nil_r'. done.
  - destruct s as [|d' s]; [done|]. rewrite app_cons in IH |- *. exact IH.
Qed.
Lemma is_empty_app s t : str_is_empty (s +:+ t) = str_is_empty s && str_is_empty t.
Proof. by destruct s. Qed.
Lemma starts_in_app c s t : starts_in c (s +:+ t) = if str_is_empty s then starts_in c t else starts_in c s.
Proof. by destruct s. Qed.
Lemma all_chars_app P s t : all_chars P (s +:+ t) = all_chars P s && all_chars P t.
Proof. induction s as [|c s IH]; [done|]. rewrite app_cons. simpl. rewrite IH. by rewrite andb_assoc. Qed.
Lemma all_chars_impl (P Q : ascii → bool) s :
  (∀ c, P c = true → Q c = true) → all_chars P s = true → all_chars Q s = true.
Proof. intros H. induction s as [|c s IH]; simpl; [done|]. rewrite !andb_true_iff. naive_solver. Qed.
Lemma all_chars_ends P c s : all_chars P s = true → P c = false → ends_in c s = false.
Proof.
  intros H Hc. induction s as [|d s IH]; [done|]. simpl in H. apply andb_true_iff in H as [Hd H].
  destruct s as [|d' s]; [|by apply IH]. simpl. apply bool_decide_eq_false. intros ->. congruence.
Qed.
Lemma all_chars_starts P c s : all_chars P s = true → P c = false → starts_in c s = false.
Proof. destruct s as [|d s]; simpl; [done|]. intros [Hd _]%andb_true_iff Hc. apply bool_decide_eq_false. intros ->. congruence. Qed.

(** ** Percent encoding *)

Lemma hex_value_digit n : n < 16 → hex_value (hex_digit n) = Some n.
Proof. intros H. do 16 (destruct n as [|n]; [done|]). lia. Qed.
Lemma decode_other c r : c ≠ "%"%char → percent_decode (String c r) = String c (percent_decode r).
Proof.
  intros H. destruct c as [[] [] [] [] [] [] [] []]; try reflexivity.
  all: destruct r as [|h [|l r]]; try reflexivity; by destruct H.
Qed.
Lemma decode_escape h l a b r : hex_value h = Some a → hex_value l = Some b →
  percent_decode (String "%" (String h (String l r))) = String (ascii_of_nat (16 * a + b)) (percent_decode r).
Proof. intros Ha Hb. cbn [percent_decode]. by rewrite Ha, Hb. Qed.
Lemma decode_encode s : percent_decode (percent_encode s) = s.
Proof.
  induction s as [|c s IH]; [done|]. simpl percent_encode. destruct (keeps c) eqn:Hk.
  - rewrite decode_other, IH; [done|]. intros ->. done.
  - pose proof (nat_ascii_bounded c) as Hb.
    rewrite (decode_escape _ _ (nat_of_ascii c / 16) (nat_of_ascii c mod 16)).
    2: { apply hex_value_digit, Nat.div_lt_upper_bound; lia. }
    2: { by apply hex_value_digit, Nat.mod_upper_bound. }
    rewrite <-Nat.div_mod_eq, ascii_nat_embedding, IH. done.
Qed.

(** ** The serializer *)

Section ind.
Context (P : uval → Prop) (Hs : ∀ s, P (UStr s)) (Hn : ∀ t, P (UNum t)) (Hb : ∀ b, P (UBool b)) (H0 : P UNull)
  (Hl : ∀ l, Forall P l → P (USeq l)) (Hst : ∀ fs, Forall (λ kv, P kv.2) fs → P (UStruct fs))
  (Hm : ∀ fs, Forall (λ kv, P kv.2) fs → P (UMap fs)).
Fixpoint uval_ind' (v : uval) : P v :=
  match v with
  | UStr s => Hs s
  | UNum t => Hn t
  | UBool b => Hb b
  | UNull => H0
  | USeq l => Hl l ((fix go l : Forall P l := match l with
      | [] => @List.Forall_nil _ P | x :: r => @List.Forall_cons _ P x r (uval_ind' x) (go r) end) l)
  | UStruct fs => Hst fs ((fix go fs : Forall (λ kv, P kv.2) fs := match fs with
      | [] => @List.Forall_nil _ (λ kv, P kv.2)
      | kv :: r => @List.Forall_cons _ (λ kv, P kv.2) kv r (uval_ind' kv.2) (go r) end) fs)
  | UMap fs => Hm fs ((fix go fs : Forall (λ kv, P kv.2) fs := match fs with
      | [] => @List.Forall_nil _ (λ kv, P kv.2)
      | kv :: r => @List.Forall_cons _ (λ kv, P kv.2) kv r (uval_ind' kv.2) (go r) end) fs)
  end.
End ind.

(** The fields of an object, and the loops, named. *)
Definition field_text (kv : string * uval) : string := quoted kv.1 +:+ ":" +:+ json_text kv.2.
Lemma json_text_seq l : json_text (USeq l) = "[" +:+ join (map json_text l) +:+ "]".
Proof. done. Qed.
Lemma json_text_fields fs :
  (fix go (fs : list (string * uval)) := match fs with
     | [] => [] | (k, v) :: r => (quoted k +:+ ":" +:+ json_text v) :: go r end) fs = map field_text fs.
Proof. induction fs as [|[k v] fs IH]; [done|]. simpl. by rewrite <-IH. Qed.
Lemma json_text_struct fs : json_text (UStruct fs) = "{" +:+ join (map field_text fs) +:+ "}".
Proof. rewrite <-json_text_fields. done. Qed.
Lemma json_text_map fs : json_text (UMap fs) = "{" +:+ join (map field_text fs) +:+ "}".
Proof. rewrite <-json_text_fields. done. Qed.

Lemma harmless_seq l : harmless (USeq l) ↔ Forall harmless l.
Proof. induction l as [|x l IH]; simpl in *; [by split; [constructor|]|]. rewrite Forall_cons, <-IH. done. Qed.
Lemma harmless_struct fs : harmless (UStruct fs) ↔ Forall (λ kv, innocent kv.1 ∧ harmless kv.2) fs.
Proof. induction fs as [|[k x] l IH]; simpl in *; [by split; [constructor|]|]. rewrite Forall_cons, <-IH. simpl. tauto. Qed.
Lemma harmless_map fs : harmless (UMap fs) ↔ Forall (λ kv, innocent kv.1 ∧ harmless kv.2) fs.
Proof. induction fs as [|[k x] l IH]; simpl in *; [by split; [constructor|]|]. rewrite Forall_cons, <-IH. simpl. tauto. Qed.

Definition tail_text (l : list string) : string := foldr (λ x r, "," +:+ x +:+ r) "" l.
Lemma join_cons x l : join (x :: l) = x +:+ tail_text l.
Proof.
  revert x. induction l as [|y l IH]; intros x; [simpl; by rewrite app_nil_r'|].
  change (join (x :: y :: l)) with (x +:+ "," +:+ join (y :: l)). by rewrite IH.
Qed.

(** Texts of values are not empty and do not end in an opening bracket. *)
Lemma numeric_chars s : numeric s → ends_in "[" s = false ∧ ends_in "{" s = false.
Proof. intros [_ H]. split; (eapply all_chars_ends; [exact H|done]). Qed.
Lemma json_text_closed v : harmless v →
  str_is_empty (json_text v) = false ∧ ends_in "[" (json_text v) = false ∧ ends_in "{" (json_text v) = false.
Proof.
  destruct v as [s|t|b| |l|fs|fs]; intros H.
  - change (json_text (UStr s)) with (quote +:+ s +:+ quote). split; [done|].
    rewrite !ends_in_app, is_empty_app, andb_false_r. done.
  - simpl in *. destruct (numeric_chars t H) as [? ?]. destruct H as [H _]. split; [by destruct t|done].
  - by destruct b.
  - done.
  - rewrite json_text_seq. split; [done|]. rewrite !ends_in_app, is_empty_app, andb_false_r. done.
  - rewrite json_text_struct. split; [done|]. rewrite !ends_in_app, is_empty_app, andb_false_r. done.
  - rewrite json_text_map. split; [done|]. rewrite !ends_in_app, is_empty_app, andb_false_r. done.
Qed.

Lemma push_push a b s : push b (push a s) = push (a +:+ b) s.
Proof. unfold push. simpl. by rewrite app_assoc'. Qed.
Lemma push_nil s : push "" s = s.
Proof. destruct s. unfold push. simpl. by rewrite app_nil_r'. Qed.

Definition seq_loop := (fix go l s := match l with
                | [] => s
                | x :: r => go r (ser x (separate "[" s))
                end).
Definition struct_loop := (fix go (l : list (string * uval)) s := match l with
                | [] => s
                | (k, x) :: r =>
                    let s := ser_str k (separate_field s) in
                    let s := push (if nested s then ":" else "=") s in
                    go r (ser x s)
                end).
Definition map_loop := (fix go (l : list (string * uval)) s := match l with
                | [] => s
                | (k, x) :: r => go r (ser x (push ":" (ser_str k (separate "{" s))))
                end).
Lemma ser_seq l s : ser (USeq l) s = shallower (push "]" (seq_loop l (push "[" (deeper s)))).
Proof. done. Qed.
Lemma ser_struct fs s : ser (UStruct fs) s =
  let s := deeper s in
  let s := if nested s then push "{" s else s in
  let s := struct_loop fs s in
  if nested s then shallower (push "}" s) else s.
Proof. done. Qed.
Lemma ser_map fs s : ser (UMap fs) s =
  let s := deeper s in
  let s := if nested s then push "{" s else s in
  shallower (push "}" (map_loop fs s)).
Proof. done. Qed.

Definition deep (n : nat) (v : uval) : Prop :=
  match v with USeq _ | UStruct _ | UMap _ => 1 ≤ n | _ => 2 ≤ n end.
Definition prints (v : uval) : Prop :=
  harmless v → ∀ s, deep (ss_level s) v → ser v s = push (json_text v) s.

Lemma deep_2 n v : 2 ≤ n → deep n v.
Proof. destruct v; simpl; lia. Qed.
Lemma nested_2 s : 2 ≤ ss_level s → nested s = true.
Proof. intros H. unfold nested. by apply Nat.ltb_lt. Qed.

Lemma separate_true c s : ends_in c (ss_out s) = true → separate c s = s.
Proof. intros H. unfold separate. by rewrite H. Qed.
Lemma separate_false c s : ends_in c (ss_out s) = false → separate c s = push "," s.
Proof. intros H. unfold separate. by rewrite H. Qed.

Lemma seq_loop_rest l s :
  Forall prints l → Forall harmless l → 2 ≤ ss_level s → ends_in "[" (ss_out s) = false →
  seq_loop l s = push (tail_text (map json_text l)) s.
Proof.
  intros Hp. revert s. induction Hp as [|x l Hx Hp IH]; intros s Hh Hs He; simpl; [by rewrite push_nil|].
  apply Forall_cons in Hh as [Hhx Hh]. destruct (json_text_closed x Hhx) as (H1 & H2 & _).
  rewrite separate_false by done. rewrite Hx; [|done|by apply deep_2].
  rewrite IH; [by rewrite !push_push, ?app_assoc'|done|done|]. simpl. by rewrite ends_in_app, H1.
Qed.
Lemma seq_loop_all l s :
  Forall prints l → Forall harmless l → 2 ≤ ss_level s → ends_in "[" (ss_out s) = true →
  seq_loop l s = push (join (map json_text l)) s.
Proof.
  intros Hp Hh Hs He. destruct l as [|x l]; [simpl; by rewrite push_nil|].
  apply Forall_cons in Hh as [Hhx Hh]. apply Forall_cons in Hp as [Hx Hp].
  destruct (json_text_closed x Hhx) as (H1 & H2 & _). simpl. rewrite separate_true by done.
  rewrite Hx; [|done|by apply deep_2].
  change (seq_loop l (push (json_text x) s) = push (join (map json_text (x :: l))) s).
  rewrite seq_loop_rest; [|done..|]; [|simpl; by rewrite ends_in_app, H1].
  rewrite push_push, <-join_cons. done.
Qed.

Lemma fields_rest (loop : list (string * uval) → ser_state → ser_state) l s :
  (∀ k x r s, 2 ≤ ss_level s → loop ((k, x) :: r) s =
     loop r (ser x (push ":" (push (quoted k) (separate "{" s))))) →
  (∀ s, loop [] s = s) →
  Forall (λ kv, prints kv.2) l → Forall (λ kv, innocent kv.1 ∧ harmless kv.2) l →
  2 ≤ ss_level s → ends_in "{" (ss_out s) = false →
  loop l s = push (tail_text (map field_text l)) s.
Proof.
  intros Hloop Hnil Hp. revert s. induction Hp as [|[k x] l Hx Hp IH]; intros s Hh Hs He.
  { rewrite Hnil. simpl. by rewrite push_nil. }
  apply Forall_cons in Hh as [[_ Hhx] Hh]. destruct (json_text_closed x Hhx) as (H1 & _ & H2).
  rewrite Hloop by done. rewrite separate_false by done. simpl in Hx.
  rewrite Hx; [|done|by apply deep_2].
  rewrite IH; [|done|done|]; [|simpl; by rewrite !ends_in_app, H1].
  simpl. unfold field_text. simpl. by rewrite !push_push, ?app_assoc'.
Qed.
Lemma fields_all (loop : list (string * uval) → ser_state → ser_state) l s :
  (∀ k x r s, 2 ≤ ss_level s → loop ((k, x) :: r) s =
     loop r (ser x (push ":" (push (quoted k) (separate "{" s))))) →
  (∀ s, loop [] s = s) →
  Forall (λ kv, prints kv.2) l → Forall (λ kv, innocent kv.1 ∧ harmless kv.2) l →
  2 ≤ ss_level s → ends_in "{" (ss_out s) = true →
  loop l s = push (join (map field_text l)) s.
Proof.
  intros Hloop Hnil Hp Hh Hs He. destruct l as [|[k x] l]; [rewrite Hnil; simpl; by rewrite push_nil|].
  apply Forall_cons in Hp as [Hx Hp].
  apply Forall_cons in Hh as [[_ Hhx] Hh]. destruct (json_text_closed x Hhx) as (H1 & _ & H2).
  rewrite Hloop by done. rewrite separate_true by done. simpl in Hx.
  rewrite Hx; [|done|by apply deep_2].
  rewrite (fields_rest loop); [|done..|]; [|simpl; by rewrite !ends_in_app, H1].
  change (map field_text ((k, x) :: l)) with (field_text (k, x) :: map field_text l).
  rewrite join_cons. unfold field_text at 2. simpl. by rewrite !push_push, ?app_assoc'.
Qed.
Lemma struct_loop_step k x r s : 2 ≤ ss_level s → struct_loop ((k, x) :: r) s =
  struct_loop r (ser x (push ":" (push (quoted k) (separate "{" s)))).
Proof.
  intros H. simpl. unfold separate_field. rewrite (nested_2 s) by done.
  assert (∀ c, 2 ≤ ss_level (separate c s)) as Hs by (intros c; unfold separate; by destruct (ends_in _ _)).
  unfold ser_str. rewrite (nested_2 (separate "{" s)) by done. rewrite nested_2 by (simpl; apply Hs). done.
Qed.
Lemma map_loop_step k x r s : 2 ≤ ss_level s → map_loop ((k, x) :: r) s =
  map_loop r (ser x (push ":" (push (quoted k) (separate "{" s)))).
Proof.
  intros H. simpl.
  assert (∀ c, 2 ≤ ss_level (separate c s)) as Hs by (intros c; unfold separate; by destruct (ends_in _ _)).
  unfold ser_str. rewrite (nested_2 (separate "{" s)) by done. done.
Qed.

Lemma ser_prints v : prints v.
Proof.
  induction v as [s|t|b| |l IH|fs IH|fs IH] using uval_ind'; intros Hh st Hd.
  - simpl in *. unfold ser_str. by rewrite nested_2.
  - done.
  - done.
  - done.
  - simpl in Hd. rewrite ser_seq. rewrite seq_loop_all; [|done|by apply harmless_seq|simpl; lia|].
    + rewrite json_text_seq. destruct st. unfold push, shallower, deeper. simpl. by rewrite ?app_assoc'.
    + simpl. by rewrite ends_in_app.
  - simpl in Hd. rewrite ser_struct. cbv zeta. rewrite (nested_2 (deeper st)) by (simpl; lia).
    rewrite (fields_all struct_loop); [|apply struct_loop_step|done|done|by apply harmless_struct|simpl; lia|].
    + rewrite nested_2 by (simpl; lia).
      rewrite json_text_struct. destruct st. unfold push, shallower, deeper. simpl. by rewrite ?app_assoc'.
    + simpl. by rewrite ends_in_app.
  - simpl in Hd. rewrite ser_map. cbv zeta. rewrite (nested_2 (deeper st)) by (simpl; lia).
    rewrite (fields_all map_loop); [|apply map_loop_step|done|done|by apply harmless_map|simpl; lia|].
    + rewrite json_text_map. destruct st. unfold push, shallower, deeper. simpl. by rewrite ?app_assoc'.
    + simpl. by rewrite ends_in_app.
Qed.

(** ** The query *)

(** A value as the query string carries it. *)
Definition raw (v : uval) : string := match v with UStr s => s | _ => json_text v end.
Definition query_field (kv : string * uval) : string := kv.1 +:+ "=" +:+ raw kv.2.
Fixpoint join_amp (l : list string) : string :=
  match l with [] => "" | [x] => x | x :: r => x +:+ "&" +:+ join_amp r end.
Definition tail_amp (l : list string) : string := foldr (λ x r, "&" +:+ x +:+ r) "" l.
Lemma join_amp_cons x l : join_amp (x :: l) = x +:+ tail_amp l.
Proof.
  revert x. induction l as [|y l IH]; intros x; [simpl; by rewrite app_nil_r'|].
  change (join_amp (x :: y :: l)) with (x +:+ "&" +:+ join_amp (y :: l)). by rewrite IH.
Qed.

Lemma ser_raw v s : harmless v → compound v → ss_level s = 1 → ser v s = push (raw v) s.
Proof.
  intros Hh Hc Hl. destruct v; try done; [|apply ser_prints; [done|simpl; lia]..].
  simpl. unfold ser_str, nested. by rewrite Hl.
Qed.

Lemma top_rest fs s :
  Forall (λ kv, innocent kv.1 ∧ harmless kv.2 ∧ compound kv.2) fs → ss_level s = 1 → ss_out s ≠ "" →
  struct_loop fs s = push (tail_amp (map query_field fs)) s.
Proof.
  revert s. induction fs as [|[k v] fs IH]; intros s Hf Hl Ho; simpl; [by rewrite push_nil|].
  apply Forall_cons in Hf as [(Hk & Hh & Hc) Hf]. simpl in *.
  unfold separate_field, nested. rewrite Hl. simpl. destruct (ss_out s) as [|c o] eqn:Eo; [done|]. simpl.
  unfold ser_str, nested. simpl. rewrite Hl. simpl. rewrite ser_raw by done.
  rewrite IH; [|done|done|]; [|simpl; rewrite Eo; by rewrite !app_cons].
  rewrite !push_push, Hl. f_equal. unfold query_field. simpl. by rewrite ?app_assoc'.
Qed.
Lemma query_text fs : harmless_request fs → ss_out (ser (UStruct fs) (SerState "" 0)) = join_amp (map query_field fs).
Proof.
  intros [Hne Hall]. destruct fs as [|[k v] fs]; [done|].
  assert (Forall (λ kv, innocent kv.1 ∧ harmless kv.2 ∧ compound kv.2) ((k, v) :: fs)) as Hf.
  { apply Forall_forall. intros [k' v'] Hin. by apply Hall. }
  apply Forall_cons in Hf as [(Hk & Hh & Hc) Hf]. simpl in Hk, Hh, Hc.
  rewrite ser_struct.
  assert (struct_loop ((k, v) :: fs) (SerState "" 1) = struct_loop fs (push (query_field (k, v)) (SerState "" 1))) as Heq.
  { simpl. unfold separate_field, nested, ser_str, nested. simpl. rewrite ser_raw by done.
    unfold push. simpl. unfold query_field. simpl. by rewrite ?app_assoc'. }
  change (deeper (SerState "" 0)) with (SerState "" 1). cbv zeta. change (nested (SerState "" 1)) with false. cbv iota.
  rewrite Heq, top_rest; [|done|done|].
  2: { simpl. unfold query_field. simpl. destruct k; done. }
  simpl map. rewrite join_amp_cons. done.
Qed.

(** ** Replacing *)

Lemma replace1_app a t s s' : replace1 a t (s +:+ s') = replace1 a t s +:+ replace1 a t s'.
Proof.
  induction s as [|c s IH]; [done|]. rewrite app_cons. simpl. rewrite IH.
  case_bool_decide; [by rewrite app_assoc'|done].
Qed.
Definition lacks (a : ascii) (s : string) : Prop := all_chars (λ c, negb (bool_decide (c = a))) s = true.
Lemma lacks_app a s t : lacks a (s +:+ t) ↔ lacks a s ∧ lacks a t.
Proof. unfold lacks. rewrite all_chars_app. apply andb_true_iff. Qed.
Lemma replace1_lacks a t s : lacks a s → replace1 a t s = s.
Proof.
  unfold lacks. induction s as [|c s IH]; simpl; [done|]. rewrite andb_true_iff. intros [Hc Hs].
  destruct (bool_decide (c = a)); [done|]. by rewrite IH.
Qed.

Fixpoint nopair (a b : ascii) (s : string) : bool :=
  match s with
  | String c r => negb (bool_decide (c = a) && starts_in b r) && nopair a b r
  | EmptyString => true
  end.
Lemma replace2_nopair a b t s : nopair a b s = true → replace2 a b t s = s.
Proof.
  induction s as [|c s IH]; [done|]. simpl. rewrite andb_true_iff. intros [Hc Hs].
  destruct s as [|d s]; [done|]. simpl in Hc. rewrite (bool_decide_ext (d = b) (b = d)) by done.
  apply negb_true_iff in Hc as ->. by rewrite IH.
Qed.
(** No pair across the junction. *)
Definition apart (a b : ascii) (s t : string) : Prop := ends_in a s = false ∨ starts_in b t = false.
Lemma replace2_cons2 a b t c d r : replace2 a b t (String c (String d r)) =
  if bool_decide (c = a) && bool_decide (d = b) then t +:+ replace2 a b t r
  else String c (replace2 a b t (String d r)).
Proof. done. Qed.
Lemma replace2_app a b t s s' : apart a b s s' → replace2 a b t (s +:+ s') = replace2 a b t s +:+ replace2 a b t s'.
Proof.
  assert (∀ n s, String.length s ≤ n → apart a b s s' →
    replace2 a b t (s +:+ s') = replace2 a b t s +:+ replace2 a b t s') as Hgen; [|by eapply Hgen].
  clear s. induction n as [|n IH]; intros s Hlen H.
  { destruct s; [done|simpl in Hlen; lia]. }
  destruct s as [|c [|d r]]; [done| |].
  - rewrite app_cons, app_nil_l'. destruct s' as [|e s']; [done|]. simpl. rewrite app_cons, app_nil_l'.
    destruct (bool_decide (c = a) && bool_decide (e = b)) eqn:E; [|done]. exfalso.
    apply andb_true_iff in E as [->%bool_decide_eq_true ->%bool_decide_eq_true].
    unfold apart in H. simpl in H. rewrite !bool_decide_true in H by done. naive_solver.
  - rewrite !app_cons, !replace2_cons2. destruct (bool_decide (c = a) && bool_decide (d = b)) eqn:E.
    + rewrite IH; [by rewrite app_assoc'|simpl in Hlen; lia|].
      unfold apart in *. destruct r; [by left|]. exact H.
    + rewrite app_cons. f_equal. rewrite <-app_cons. rewrite (IH (String d r)); [done|simpl in *; lia|].
      unfold apart in *. exact H.
Qed.
Lemma nopair_app a b s t : nopair a b s = true → nopair a b t = true → apart a b s t → nopair a b (s +:+ t) = true.
Proof.
  intros Hs Ht H. induction s as [|c s IH]; [done|]. rewrite app_cons. simpl in Hs |- *.
  apply andb_true_iff in Hs as [Hc Hs]. apply andb_true_iff. split.
  - destruct s as [|d s]; [|by rewrite app_cons]. rewrite app_nil_l'. destruct H as [H|H].
    + simpl in H. rewrite (bool_decide_ext (c = a) (a = c)) by done. by rewrite H.
    + rewrite H. by rewrite andb_false_r.
  - apply IH; [done|]. unfold apart in *. destruct s; [by left|]. exact H.
Qed.
Lemma lacks_ends a s : lacks a s → ends_in a s = false.
Proof. intros H. eapply all_chars_ends; [exact H|]. simpl. by rewrite bool_decide_true. Qed.
Lemma lacks_starts a s : lacks a s → starts_in a s = false.
Proof. intros H. eapply all_chars_starts; [exact H|]. simpl. by rewrite bool_decide_true. Qed.
Lemma nopair_lacks_l a b s : lacks a s → nopair a b s = true.
Proof.
  unfold lacks. induction s as [|c s IH]; simpl; [done|]. rewrite andb_true_iff. intros [Hc Hs].
  apply negb_true_iff in Hc as ->. simpl. by apply IH.
Qed.
Lemma nopair_lacks_r a b s : lacks b s → nopair a b s = true.
Proof.
  unfold lacks. induction s as [|c s IH]; simpl; [done|]. rewrite andb_true_iff. intros [Hc Hs].
  rewrite lacks_starts by done. rewrite andb_false_r. simpl. by apply IH.
Qed.

(** The four patterns. *)
Definition pattern (a b : ascii) : Prop :=
  (a = q ∧ (b = "[" ∨ b = "{")%char) ∨ (b = q ∧ (a = "]" ∨ a = "}")%char).

Lemma innocent_lacks s : innocent s → lacks q s ∧ lacks "=" s ∧ lacks "&" s.
Proof.
  intros [H _]. unfold lacks.
  split; [|split]; (eapply all_chars_impl; [|exact H]); intros c Hc; apply negb_true_iff, bool_decide_eq_false;
    intros ->; done.
Qed.
Lemma numeric_lacks s : numeric s → lacks q s ∧ lacks "=" s ∧ lacks "&" s.
Proof.
  intros [_ H]. unfold lacks.
  split; [|split]; (eapply all_chars_impl; [|exact H]); intros c Hc; apply negb_true_iff, bool_decide_eq_false;
    intros ->; done.
Qed.
Lemma nopair_lacks_q a b s : pattern a b → lacks q s → nopair a b s = true.
Proof. intros [[-> _]|[-> _]] H; [by apply nopair_lacks_l|by apply nopair_lacks_r]. Qed.

Lemma innocent_pair a b s : pattern a b → innocent s → nopair a b (quoted s) = true.
Proof.
  intros Hp Hi. destruct (innocent_lacks s Hi) as (Hq & _). destruct Hi as (_ & H1 & H2 & H3 & H4).
  unfold quoted. apply nopair_app; [by destruct Hp as [[-> [-> | ->]]|[-> [-> | ->]]]| |].
  - apply nopair_app; [by apply nopair_lacks_q|by destruct Hp as [[-> [-> | ->]]|[-> [-> | ->]]]|].
    destruct Hp as [[-> [-> | ->]]|[-> [-> | ->]]]; [by right|by right|left; done|left; done].
  - unfold apart. rewrite starts_in_app.
    destruct Hp as [[-> [-> | ->]]|[-> [-> | ->]]]; [right|right|by left|by left]; by destruct (str_is_empty s).
Qed.

(** Junctions with punctuation. *)
Definition open_left (s : string) : Prop := s = "," ∨ s = ":" ∨ s = "[" ∨ s = "{".
Definition open_right (s : string) : Prop := s = "," ∨ s = ":" ∨ s = "]" ∨ s = "}".
Lemma apart_left a b s t : pattern a b → open_left s → apart a b s t.
Proof. intros [[-> _]|[_ [-> | ->]]] [-> |[-> |[-> | ->]]]; by left. Qed.
Lemma starts_right a b s t : pattern a b → open_right s → starts_in b (s +:+ t) = false.
Proof. intros [[_ [-> | ->]]|[-> _]] [-> |[-> |[-> | ->]]]; done. Qed.
Lemma apart_right a b s t u : pattern a b → open_right t → apart a b s (t +:+ u).
Proof. intros Hp Ho. right. by eapply starts_right. Qed.
Lemma nopair_left a b s : pattern a b → open_left s → nopair a b s = true.
Proof. intros [[-> [-> | ->]]|[-> [-> | ->]]] [-> |[-> |[-> | ->]]]; done. Qed.
Lemma nopair_right a b s : pattern a b → open_right s → nopair a b s = true.
Proof. intros [[-> [-> | ->]]|[-> [-> | ->]]] [-> |[-> |[-> | ->]]]; done. Qed.

Lemma tail_pair a b l : pattern a b → Forall (λ s, nopair a b s = true) l → nopair a b (tail_text l) = true.
Proof.
  intros Hp. induction 1 as [|x l Hx Hl IH]; [done|].
  change (tail_text (x :: l)) with ("," +:+ x +:+ tail_text l).
  apply nopair_app; [apply nopair_left; [done|by left]| |apply apart_left; [done|by left]].
  apply nopair_app; [done|done|]. destruct l; [by right|]. simpl. apply apart_right; [done|by left].
Qed.
Lemma join_pair a b l : pattern a b → Forall (λ s, nopair a b s = true) l → nopair a b (join l) = true.
Proof.
  intros Hp Hl. destruct l as [|x l]; [done|]. rewrite join_cons. apply Forall_cons in Hl as [Hx Hl].
  apply nopair_app; [done|by apply tail_pair|]. destruct l; [by right|]. simpl. apply apart_right; [done|by left].
Qed.
Lemma wrap_pair a b o c s : pattern a b → open_left o → open_right c → nopair a b s = true →
  nopair a b (o +:+ s +:+ c) = true.
Proof.
  intros Hp Ho Hc Hs. apply nopair_app; [by apply nopair_left| |by apply apart_left].
  apply nopair_app; [done|by apply nopair_right|]. rewrite <-(app_nil_r' c). by apply apart_right.
Qed.
Lemma field_pair a b k t : pattern a b → innocent k → nopair a b t = true → nopair a b (quoted k +:+ ":" +:+ t) = true.
Proof.
  intros Hp Hk Ht. apply nopair_app; [by apply innocent_pair| |apply apart_right; [done|by right; left]].
  apply nopair_app; [apply nopair_left; [done|by right; left]|done|apply apart_left; [done|by right; left]].
Qed.

Lemma json_text_pair a b v : pattern a b → harmless v → nopair a b (json_text v) = true.
Proof.
  intros Hp. induction v as [s|t|b'| |l IH|fs IH|fs IH] using uval_ind'; intros Hh.
  - by apply innocent_pair.
  - apply nopair_lacks_q; [done|]. by apply numeric_lacks.
  - apply nopair_lacks_q; [done|]. by destruct b'.
  - by apply nopair_lacks_q.
  - apply harmless_seq in Hh. rewrite json_text_seq. apply wrap_pair; [done|by right; right; left..|].
    apply join_pair; [done|]. apply Forall_fmap. rewrite Forall_forall in IH, Hh |- *. intros x Hx. simpl.
    by apply IH, Hh.
  - apply harmless_struct in Hh. rewrite json_text_struct. apply wrap_pair; [done|by right; right; right..|].
    apply join_pair; [done|]. apply Forall_fmap. rewrite Forall_forall in IH, Hh |- *. intros x Hx. simpl.
    apply field_pair; [done|by apply Hh|by apply IH, Hh].
  - apply harmless_map in Hh. rewrite json_text_map. apply wrap_pair; [done|by right; right; right..|].
    apply join_pair; [done|]. apply Forall_fmap. rewrite Forall_forall in IH, Hh |- *. intros x Hx. simpl.
    apply field_pair; [done|by apply Hh|by apply IH, Hh].
Qed.

(** Neither = nor & in the texts. *)
Definition sign (c : ascii) : Prop := (c = "=" ∨ c = "&")%char.
Lemma innocent_sign c s : sign c → innocent s → lacks c s.
Proof. intros [-> | ->] H; by apply innocent_lacks. Qed.
Lemma quoted_sign c s : sign c → lacks c s → lacks c (quoted s).
Proof. intros Hc Hs. unfold quoted. apply lacks_app. split; [by destruct Hc as [-> | ->]|]. apply lacks_app. split; [done|by destruct Hc as [-> | ->]]. Qed.
Lemma tail_sign c l : sign c → Forall (lacks c) l → lacks c (tail_text l).
Proof.
  intros Hc. induction 1 as [|x l Hx Hl IH]; simpl; [done|]. apply lacks_app. split; [by destruct Hc as [-> | ->]|].
  by apply lacks_app.
Qed.
Lemma join_sign c l : sign c → Forall (lacks c) l → lacks c (join l).
Proof.
  intros Hc Hl. destruct l as [|x l]; [done|]. rewrite join_cons. apply Forall_cons in Hl as [Hx Hl].
  apply lacks_app. split; [done|by apply tail_sign].
Qed.
Lemma json_text_sign c v : sign c → harmless v → lacks c (json_text v).
Proof.
  intros Hc. induction v as [s|t|b'| |l IH|fs IH|fs IH] using uval_ind'; intros Hh.
  - by apply quoted_sign, innocent_sign.
  - destruct Hc as [-> | ->]; by apply numeric_lacks.
  - by destruct Hc as [-> | ->], b'.
  - by destruct Hc as [-> | ->].
  - apply harmless_seq in Hh. rewrite json_text_seq. apply lacks_app. split; [by destruct Hc as [-> | ->]|].
    apply lacks_app. split; [|by destruct Hc as [-> | ->]].
    apply join_sign; [done|]. apply Forall_fmap. rewrite Forall_forall in IH, Hh |- *. intros x Hx. simpl.
    by apply IH, Hh.
  - apply harmless_struct in Hh. rewrite json_text_struct. apply lacks_app. split; [by destruct Hc as [-> | ->]|].
    apply lacks_app. split; [|by destruct Hc as [-> | ->]].
    apply join_sign; [done|]. apply Forall_fmap. rewrite Forall_forall in IH, Hh |- *. intros x Hx. simpl.
    unfold field_text. apply lacks_app. split; [by apply quoted_sign, innocent_sign, Hh|].
    apply lacks_app. split; [by destruct Hc as [-> | ->]|by apply IH, Hh].
  - apply harmless_map in Hh. rewrite json_text_map. apply lacks_app. split; [by destruct Hc as [-> | ->]|].
    apply lacks_app. split; [|by destruct Hc as [-> | ->]].
    apply join_sign; [done|]. apply Forall_fmap. rewrite Forall_forall in IH, Hh |- *. intros x Hx. simpl.
    unfold field_text. apply lacks_app. split; [by apply quoted_sign, innocent_sign, Hh|].
    apply lacks_app. split; [by destruct Hc as [-> | ->]|by apply IH, Hh].
Qed.
Lemma raw_sign c v : sign c → harmless v → lacks c (raw v).
Proof. intros Hc Hh. destruct v; try by apply json_text_sign. simpl in *. by apply innocent_sign. Qed.

(** ** The decoder *)

(** A field with quotes around its value, or not. *)
Definition part_field (l r : uval → bool) (kv : string * uval) : string :=
  quoted kv.1 +:+ ":" +:+ (if l kv.2 then quote else "") +:+ raw kv.2 +:+ (if r kv.2 then quote else "").
Definition object (f : string * uval → string) (fs : list (string * uval)) : string :=
  "{" +:+ join (map f fs) +:+ "}".
Definition allowed (kv : string * uval) : Prop := innocent kv.1 ∧ harmless kv.2 ∧ compound kv.2.

Lemma split_query fs : fs ≠ [] → Forall allowed fs →
  replace1 "&" (quote +:+ "," +:+ quote) (replace1 "=" (quote +:+ ":" +:+ quote)
    ("{" +:+ quote +:+ join_amp (map query_field fs) +:+ quote +:+ "}")) =
  object (part_field (λ _, true) (λ _, true)) fs.
Proof.
  intros Hne Hall. set (eq_sep := quote +:+ ":" +:+ quote). set (amp_sep := quote +:+ "," +:+ quote).
  assert (∀ kv, allowed kv → replace1 "&" amp_sep (replace1 "=" eq_sep (query_field kv)) = kv.1 +:+ eq_sep +:+ raw kv.2) as Hf.
  { intros [k v] (Hk & Hh & _). unfold query_field. simpl in *. rewrite !replace1_app.
    rewrite (replace1_lacks "=" _ k) by (apply innocent_sign; [by left|done]).
    rewrite (replace1_lacks "&" _ k) by (apply innocent_sign; [by right|done]).
    rewrite (replace1_lacks "=" _ (raw v)) by (apply raw_sign; [by left|done]).
    rewrite (replace1_lacks "&" _ (raw v)) by (apply raw_sign; [by right|done]). done. }
  set (pf := part_field (λ _, true) (λ _, true)).
  assert (∀ kv, pf kv = quote +:+ kv.1 +:+ eq_sep +:+ raw kv.2 +:+ quote) as Hpf.
  { intros kv. unfold pf, part_field, quoted, eq_sep. by rewrite !app_assoc'. }
  clearbody pf.
  assert (∀ fs, Forall allowed fs → replace1 "&" amp_sep (replace1 "=" eq_sep (tail_amp (map query_field fs))) +:+ quote =
    quote +:+ tail_text (map pf fs)) as Ht.
  { clear fs Hne Hall. induction 1 as [|kv fs Hkv Hfs IH]; [by rewrite app_nil_r'|].
    change (tail_amp (map query_field (kv :: fs))) with ("&" +:+ query_field kv +:+ tail_amp (map query_field fs)).
    change (tail_text (map pf (kv :: fs))) with ("," +:+ pf kv +:+ tail_text (map pf fs)).
    rewrite !replace1_app, Hf by done.
    change (replace1 "&" amp_sep (replace1 "=" eq_sep "&")) with (amp_sep +:+ ""). rewrite app_nil_r', !app_assoc', IH, Hpf.
    unfold amp_sep. by rewrite !app_assoc'. }
  destruct fs as [|kv fs]; [done|]. apply Forall_cons in Hall as [Hkv Hall].
  change (map query_field (kv :: fs)) with (query_field kv :: map query_field fs).
  rewrite join_amp_cons. rewrite !replace1_app, Hf by done.
  change (replace1 "&" amp_sep (replace1 "=" eq_sep "{")) with "{".
  change (replace1 "&" amp_sep (replace1 "=" eq_sep "}")) with "}".
  change (replace1 "&" amp_sep (replace1 "=" eq_sep quote)) with quote.
  unfold object. change (map pf (kv :: fs)) with (pf kv :: map pf fs). rewrite join_cons, Hpf, !app_assoc'.
  do 5 f_equal. rewrite <-!app_assoc'. f_equal. by apply Ht.
Qed.

Lemma replace2_object a b t f f' fs :
  pattern a b → Forall (λ kv, replace2 a b t (f kv) = f' kv) fs →
  replace2 a b t (object f fs) = object f' fs.
Proof.
  intros Hp Hf. unfold object.
  assert (∀ s, open_left s ∨ open_right s → replace2 a b t s = s) as Hid.
  { intros s [H|H]; apply replace2_nopair; [by apply nopair_left|by apply nopair_right]. }
  rewrite replace2_app by (apply apart_left; [done|by right; right; right]).
  rewrite replace2_app by (rewrite <-(app_nil_r' "}"); apply apart_right; [done|by right; right; right]).
  rewrite !Hid by (unfold open_left, open_right; naive_solver). do 2 f_equal.
  assert (∀ fs, Forall (λ kv, replace2 a b t (f kv) = f' kv) fs →
    replace2 a b t (tail_text (map f fs)) = tail_text (map f' fs)) as Ht.
  { clear fs Hf. induction 1 as [|kv fs Hkv Hfs IH]; [done|].
    change (tail_text (map f (kv :: fs))) with ("," +:+ f kv +:+ tail_text (map f fs)).
    change (tail_text (map f' (kv :: fs))) with ("," +:+ f' kv +:+ tail_text (map f' fs)).
    rewrite replace2_app by (apply apart_left; [done|by left]).
    rewrite replace2_app by (destruct fs; [by right|]; apply apart_right; [done|by left]).
    rewrite Hkv, IH, Hid by (left; by left). done. }
  destruct Hf as [|kv fs Hkv Hfs]; [done|]. simpl map. rewrite !join_cons.
  rewrite replace2_app by (destruct fs; [by right|]; apply apart_right; [done|by left]).
  rewrite Hkv, Ht by done. done.
Qed.

Definition is_seq (v : uval) : bool := match v with USeq _ => true | _ => false end.
Definition is_obj (v : uval) : bool := match v with UStruct _ | UMap _ => true | _ => false end.

Lemma key_part a b t k s : pattern a b → innocent k →
  replace2 a b t (quoted k +:+ ":" +:+ s) = quoted k +:+ ":" +:+ replace2 a b t s.
Proof.
  intros Hp Hk. rewrite replace2_app by (apply apart_right; [done|by right; left]).
  rewrite replace2_app by (apply apart_left; [done|by right; left]).
  rewrite (replace2_nopair _ _ _ (quoted k)) by (by apply innocent_pair).
  rewrite (replace2_nopair _ _ _ ":") by (apply nopair_left; [done|by right; left]). done.
Qed.
(** An opening quote before a bracket goes, and a closing quote after one. *)
Lemma drop_open b s : (b = "[" ∨ b = "{")%char → nopair q b s = true →
  replace2 q b (String b "") (quote +:+ String b s) = String b s.
Proof.
  intros Hb Hs. change (quote +:+ String b s) with (String q (String b s)). simpl.
  rewrite (bool_decide_true (b = b)) by done. simpl. rewrite replace2_nopair by done. done.
Qed.
Lemma drop_close a s : (a = "]" ∨ a = "}")%char → nopair a q s = true →
  replace2 a q (String a "") (s +:+ String a quote) = s +:+ String a "".
Proof.
  intros Ha Hs. rewrite replace2_app by (right; by destruct Ha as [-> | ->]).
  rewrite replace2_nopair by done. f_equal. simpl. by rewrite bool_decide_true.
Qed.

Definition yes (v : uval) : bool := true.

Ltac pat := unfold pattern; tauto.

Lemma string_part a b t k s l r : pattern a b → innocent k → innocent s →
  l (UStr s) = true → r (UStr s) = true →
  replace2 a b t (part_field l r (k, UStr s)) = part_field l r (k, UStr s).
Proof.
  intros Hp Hk Hs Hl Hr. unfold part_field. cbn [fst snd raw]. rewrite Hl, Hr. rewrite key_part by done.
  do 2 f_equal. apply replace2_nopair. by apply innocent_pair.
Qed.

Lemma nopair_quote_l b s : (b = "[" ∨ b = "{")%char → nopair q b s = true → starts_in b s = false → nopair q b (quote +:+ s) = true.
Proof. intros Hb Hs He. apply nopair_app; [by destruct Hb as [-> | ->]|done|by right]. Qed.
Lemma nopair_quote_r a s : (a = "]" ∨ a = "}")%char → nopair a q s = true → ends_in a s = false → nopair a q (s +:+ quote) = true.
Proof. intros Ha Hs He. apply nopair_app; [done|by destruct Ha as [-> | ->]|by left]. Qed.
Lemma nopair_quote_l' a s : (a = "]" ∨ a = "}")%char → nopair a q s = true → nopair a q (quote +:+ s) = true.
Proof. intros Ha Hs. apply nopair_app; [by destruct Ha as [-> | ->]|done|left; by destruct Ha as [-> | ->]]. Qed.
Lemma nopair_quote_r' b s : (b = "[" ∨ b = "{")%char → nopair q b s = true → nopair q b (s +:+ quote) = true.
Proof. intros Hb Hs. apply nopair_app; [done|by destruct Hb as [-> | ->]|right; by destruct Hb as [-> | ->]]. Qed.

(** Texts of compound values: what is between the brackets. *)
Lemma json_text_shape v : harmless v → compound v → (∀ s, v ≠ UStr s) →
  ∃ o c m, json_text v = String o "" +:+ m +:+ String c "" ∧
    (is_seq v = true ∧ is_obj v = false ∧ o = "[" ∧ c = "]" ∨ is_seq v = false ∧ is_obj v = true ∧ o = "{" ∧ c = "}")%char ∧
    ∀ a b, pattern a b → nopair a b m = true.
Proof.
  intros Hh Hc Hs. destruct v as [s|t|b'| |l|fs|fs]; try done.
  - by destruct (Hs s).
  - exists "["%char, "]"%char, (join (map json_text l)). split; [done|]. split; [by left|]. intros a b Hp.
    apply join_pair; [done|]. apply harmless_seq in Hh. apply Forall_fmap. eapply Forall_impl; [exact Hh|].
    intros x Hx. by apply json_text_pair.
  - exists "{"%char, "}"%char, (join (map field_text fs)). split; [apply json_text_struct|]. split; [by right|]. intros a b Hp.
    apply join_pair; [done|]. apply harmless_struct in Hh. apply Forall_fmap. eapply Forall_impl; [exact Hh|].
    intros x [Hk Hx]. apply field_pair; [done|done|by apply json_text_pair].
  - exists "{"%char, "}"%char, (join (map field_text fs)). split; [apply json_text_map|]. split; [by right|]. intros a b Hp.
    apply join_pair; [done|]. apply harmless_map in Hh. apply Forall_fmap. eapply Forall_impl; [exact Hh|].
    intros x [Hk Hx]. apply field_pair; [done|done|by apply json_text_pair].
Qed.

Lemma raw_compound v : (∀ s, v ≠ UStr s) → raw v = json_text v.
Proof. intros H. destruct v; try done. by destruct (H s). Qed.
Lemma str_dec v : (∃ s, v = UStr s) ∨ ∀ s, v ≠ UStr s.
Proof. destruct v; [left; eauto|right; done..]. Qed.

Lemma json_text_starts v o : harmless v → compound v → (∀ s, v ≠ UStr s) →
  (o = "[" ∧ is_seq v = false ∨ o = "{" ∧ is_obj v = false)%char → starts_in o (json_text v) = false.
Proof.
  intros Hh Hc Hs Ho. destruct (json_text_shape v Hh Hc Hs) as (o' & c & m & -> & Hk & _).
  destruct Hk as [(Hq & Hj & -> & ->)|(Hq & Hj & -> & ->)], Ho as [[-> H]|[-> H]]; first [done|congruence].
Qed.
Lemma json_text_ends v o : harmless v → compound v → (∀ s, v ≠ UStr s) →
  (o = "]" ∧ is_seq v = false ∨ o = "}" ∧ is_obj v = false)%char → ends_in o (json_text v) = false.
Proof.
  intros Hh Hc Hs Ho. destruct (json_text_shape v Hh Hc Hs) as (o' & c & m & -> & Hk & _).
  rewrite !ends_in_app, is_empty_app, andb_false_r. simpl.
  destruct Hk as [(Hq & Hj & -> & ->)|(Hq & Hj & -> & ->)], Ho as [[-> H]|[-> H]]; first [done|congruence].
Qed.
Lemma json_text_open v : harmless v → compound v → (∀ s, v ≠ UStr s) →
  (is_seq v = true → ∃ m, json_text v = String "[" m ∧ ∀ a b, pattern a b → nopair a b m = true) ∧
  (is_obj v = true → ∃ m, json_text v = String "{" m ∧ ∀ a b, pattern a b → nopair a b m = true).
Proof.
  intros Hh Hc Hs. destruct (json_text_shape v Hh Hc Hs) as (o & c & m & -> & Hk & Hm).
  assert (∀ a b, pattern a b → nopair a b (m +:+ String c "") = true) as Hm'.
  { intros a b Hp. apply nopair_app; [by apply Hm| |].
    - destruct Hk as [(_ & _ & -> & ->)|(_ & _ & -> & ->)]; apply nopair_right; try done; unfold open_right; tauto.
    - rewrite <-(app_nil_r' (String c "")). apply apart_right; [done|].
      destruct Hk as [(_ & _ & -> & ->)|(_ & _ & -> & ->)]; unfold open_right; tauto. }
  destruct Hk as [(-> & -> & -> & ->)|(-> & -> & -> & ->)]; split; try done; intros _; eauto.
Qed.
Lemma json_text_close v : harmless v → compound v → (∀ s, v ≠ UStr s) →
  (is_seq v = true → ∃ m, json_text v = m +:+ "]" ∧ ∀ a b, pattern a b → nopair a b m = true) ∧
  (is_obj v = true → ∃ m, json_text v = m +:+ "}" ∧ ∀ a b, pattern a b → nopair a b m = true).
Proof.
  intros Hh Hc Hs. destruct (json_text_shape v Hh Hc Hs) as (o & c & m & -> & Hk & Hm).
  assert (∀ a b, pattern a b → nopair a b (String o "" +:+ m) = true) as Hm'.
  { intros a b Hp. apply nopair_app; [|by apply Hm|].
    - destruct Hk as [(_ & _ & -> & ->)|(_ & _ & -> & ->)]; apply nopair_left; try done; unfold open_left; tauto.
    - apply apart_left; [done|].
      destruct Hk as [(_ & _ & -> & ->)|(_ & _ & -> & ->)]; unfold open_left; tauto. }
  destruct Hk as [(-> & -> & -> & ->)|(-> & -> & -> & ->)]; split; try done; intros _;
    (eexists; split; [symmetry; apply app_assoc'|exact Hm']).
Qed.

(** The four steps. *)
Lemma step1 kv : allowed kv →
  replace2 q "[" "[" (part_field yes yes kv) = part_field (λ v, negb (is_seq v)) yes kv.
Proof.
  destruct kv as [k v]. intros (Hk & Hh & Hc). cbn [fst snd] in Hk, Hh, Hc. destruct (str_dec v) as [(s & ->)|Hs].
  { etransitivity; [apply string_part; first [done|pat]|reflexivity]. }
  unfold part_field. cbn [fst snd]. rewrite raw_compound by done. rewrite key_part by (pat || done). do 2 f_equal.
  assert (pattern q "[") as Hp by pat. pose proof (json_text_pair _ _ v Hp Hh) as Hn.
  destruct (is_seq v) eqn:Eq.
  - destruct (proj1 (json_text_open v Hh Hc Hs) Eq) as (m & -> & Hm). rewrite app_cons.
    apply drop_open; [by left|]. apply nopair_quote_r'; [by left|by apply Hm].
  - apply replace2_nopair. apply nopair_quote_l; [by left|by apply nopair_quote_r'; [left|]|].
    rewrite starts_in_app. destruct (str_is_empty _); [done|]. by apply json_text_starts; [..|left].
Qed.
Lemma step2 kv : allowed kv →
  replace2 "]" q "]" (part_field (λ v, negb (is_seq v)) yes kv) = part_field (λ v, negb (is_seq v)) (λ v, negb (is_seq v)) kv.
Proof.
  destruct kv as [k v]. intros (Hk & Hh & Hc). cbn [fst snd] in Hk, Hh, Hc. destruct (str_dec v) as [(s & ->)|Hs].
  { etransitivity; [apply string_part; first [done|pat]|reflexivity]. }
  unfold part_field. cbn [fst snd]. rewrite raw_compound by done. rewrite key_part by (pat || done). do 2 f_equal.
  assert (pattern "]" q) as Hp by pat. pose proof (json_text_pair _ _ v Hp Hh) as Hn.
  destruct (is_seq v) eqn:Eq; cbn [negb andb].
  - destruct (proj1 (json_text_close v Hh Hc Hs) Eq) as (m & -> & Hm). rewrite !app_nil_l', app_nil_r', app_assoc'.
    apply drop_close; [by left|by apply Hm].
  - apply replace2_nopair. apply nopair_quote_l'; [by left|]. apply nopair_quote_r; [by left|done|].
    by apply json_text_ends; [..|left].
Qed.
Lemma step3 kv : allowed kv →
  replace2 q "{" "{" (part_field (λ v, negb (is_seq v)) (λ v, negb (is_seq v)) kv) =
  part_field (λ v, negb (is_seq v) && negb (is_obj v)) (λ v, negb (is_seq v)) kv.
Proof.
  destruct kv as [k v]. intros (Hk & Hh & Hc). cbn [fst snd] in Hk, Hh, Hc. destruct (str_dec v) as [(s & ->)|Hs].
  { etransitivity; [apply string_part; first [done|pat]|reflexivity]. }
  unfold part_field. cbn [fst snd]. rewrite raw_compound by done. rewrite key_part by (pat || done). do 2 f_equal.
  assert (pattern q "{") as Hp by pat. pose proof (json_text_pair _ _ v Hp Hh) as Hn.
  destruct (is_seq v) eqn:Eq; cbn [negb andb].
  - rewrite app_nil_l', app_nil_r'. by apply replace2_nopair.
  - destruct (is_obj v) eqn:Eo; cbn [negb].
    + destruct (proj2 (json_text_open v Hh Hc Hs) Eo) as (m & -> & Hm). rewrite app_cons.
      apply drop_open; [by right|]. apply nopair_quote_r'; [by right|by apply Hm].
    + destruct v; try done. by destruct (Hs s).
Qed.
Lemma step4 kv : allowed kv →
  replace2 "}" q "}" (part_field (λ v, negb (is_seq v) && negb (is_obj v)) (λ v, negb (is_seq v)) kv) = field_text kv.
Proof.
  destruct kv as [k v]. intros (Hk & Hh & Hc). cbn [fst snd] in Hk, Hh, Hc. destruct (str_dec v) as [(s & ->)|Hs].
  { etransitivity; [apply string_part; first [done|pat]|reflexivity]. }
  unfold part_field, field_text. cbn [fst snd]. rewrite raw_compound by done. rewrite key_part by (pat || done). do 2 f_equal.
  assert (pattern "}" q) as Hp by pat. pose proof (json_text_pair _ _ v Hp Hh) as Hn.
  destruct (is_seq v) eqn:Eq; cbn [negb andb].
  - rewrite app_nil_l', app_nil_r'. by apply replace2_nopair.
  - destruct (is_obj v) eqn:Eo; cbn [negb].
    + destruct (proj2 (json_text_close v Hh Hc Hs) Eo) as (m & -> & Hm). rewrite !app_nil_l', app_assoc'.
      apply drop_close; [by right|by apply Hm].
    + destruct v; try done. by destruct (Hs s).
Qed.

Lemma url_json_text fs : harmless_request fs → url_json (url_to_string (UStruct fs)) = json_text (UStruct fs).
Proof.
  intros H. unfold url_json, url_to_string. rewrite decode_encode, query_text by done.
  destruct H as [Hne Hall].
  assert (Forall allowed fs) as Hf by (apply Forall_forall; intros [k v] Hin; by apply Hall).
  cbv zeta. rewrite split_query by done.
  rewrite (replace2_object _ _ _ _ (part_field (λ v, negb (is_seq v)) yes)); [|pat|eapply Forall_impl; [exact Hf|apply step1]].
  rewrite (replace2_object _ _ _ _ (part_field (λ v, negb (is_seq v)) (λ v, negb (is_seq v)))); [|pat|eapply Forall_impl; [exact Hf|apply step2]].
  rewrite (replace2_object _ _ _ _ (part_field (λ v, negb (is_seq v) && negb (is_obj v)) (λ v, negb (is_seq v)))); [|pat|eapply Forall_impl; [exact Hf|apply step3]].
  rewrite (replace2_object _ _ _ _ field_text); [|pat|eapply Forall_impl; [exact Hf|apply step4]].
  by rewrite json_text_struct.
Qed.

Lemma round_trip T (fields : T → list (string * uval)) (parse : string → option T) :
  (∀ x, harmless_request (fields x) → parse (json_text (UStruct (fields x))) = Some x) →
  ∀ x, harmless_request (fields x) →
    url_from_str parse (url_to_string (UStruct (fields x))) = Some x.
Proof. intros Hp x Hx. unfold url_from_str. rewrite url_json_text by done. by apply Hp. Qed.

Lemma query_injective a b :
  harmless_request a → harmless_request b →
  url_to_string (UStruct a) = url_to_string (UStruct b) → json_text (UStruct a) = json_text (UStruct b).
Proof. intros Ha Hb He. rewrite <-!url_json_text by done. by rewrite He. Qed.

Lemma injected :
  ∃ a b : list (string * uval), a ≠ b ∧
    a = [("client_id", UStr "x&state=y")] ∧ b = [("client_id", UStr "x"); ("state", UStr "y")] ∧
    url_to_string (UStruct a) = url_to_string (UStruct b) ∧
    ∀ T (meaning : list (string * uval) → T) (parse : string → option T),
      url_from_str parse (url_to_string (UStruct b)) = Some (meaning b) →
      meaning a ≠ meaning b → url_from_str parse (url_to_string (UStruct a)) ≠ Some (meaning a).
Proof.
  eexists _, _. split; [|split; [reflexivity|split; [reflexivity|]]]; [done|].
  assert (url_to_string (UStruct [("client_id", UStr "x&state=y")]) =
          url_to_string (UStruct [("client_id", UStr "x"); ("state", UStr "y")])) as He by (vm_compute; reflexivity).
  split; [exact He|]. intros T meaning parse Hb Hne. rewrite He, Hb. congruence.
Qed.

Lemma redirect_query :
  let a := [("redirect_uri", UStr "https://w.example/cb?flow=1")] in
  url_json (url_to_string (UStruct a)) =
    "{" +:+ quoted "redirect_uri" +:+ ":" +:+ quoted "https://w.example/cb?flow" +:+ ":" +:+ quoted "1" +:+ "}" ∧
  url_json (url_to_string (UStruct a)) ≠ json_text (UStruct a).
Proof. split; [vm_compute; reflexivity|]. vm_compute. discriminate. Qed.

Lemma numbers :
  let a := [("interval", UNum "5"); ("user_pin", UBool true); ("x", UNull)] in
  let b := [("interval", UStr "5"); ("user_pin", UStr "true"); ("x", UStr "null")] in
  url_to_string (UStruct a) = url_to_string (UStruct b) ∧
  url_json (url_to_string (UStruct a)) = json_text (UStruct b).
Proof. split; vm_compute; reflexivity. Qed.

(** A parser of one-parameter requests, for the example: drops the first ten and the
    last two characters. *)
Fixpoint drop_first (n : nat) (s : string) : string :=
  match n, s with S n', String _ r => drop_first n' r | _, _ => s end.
Fixpoint take_first (n : nat) (s : string) : string :=
  match n, s with S n', String c r => String c (take_first n' r) | _, _ => "" end.
Definition ex_parse (s : string) : option string :=
  let r := drop_first 10 s in Some (take_first (String.length r - 2) r).
Lemma take_first_app s t : take_first (String.length (s +:+ t) - String.length t) (s +:+ t) = s.
Proof.
  assert (String.length (s +:+ t) = String.length s + String.length t) as ->.
  { induction s as [|c s IH]; [done|]. rewrite app_cons. simpl. by rewrite IH. }
  replace (String.length s + String.length t - String.length t) with (String.length s) by lia.
  induction s as [|c s IH]; [done|]. rewrite app_cons. simpl. by rewrite IH.
Qed.
Lemma ex_parse_ok x : harmless_request [("state", UStr x)] → ex_parse (json_text (UStruct [("state", UStr x)])) = Some x.
Proof.
  intros _. rewrite json_text_struct. unfold ex_parse.
  change (drop_first 10 ("{" +:+ join (map field_text [("state", UStr x)]) +:+ "}")) with ((x +:+ quote) +:+ "}").
  cbv zeta. rewrite app_assoc'. exact (f_equal Some (take_first_app x (quote +:+ "}"))).
Qed.

(** ** Other encoders *)
Lemma hex_of_value n c : hex_of n c → hex_value c = Some n.
Proof.
  unfold hex_of. do 16 (destruct n as [|n]; [intros [[= <-]|[= <-]]; reflexivity|]). intros [H|H]; done.
Qed.
Lemma escapes_decode q s : escapes q s → percent_decode q = s.
Proof.
  induction 1 as [|c q s Hc _ IH|a b x y q s Ha Hb _ IH]; [done| |].
  - by rewrite decode_other, IH.
  - by rewrite (decode_escape _ _ a b), IH by (by apply hex_of_value).
Qed.
Lemma escapes_encode s : escapes (percent_encode s) s.
Proof.
  induction s as [|c s IH]; [constructor|]. cbn [percent_encode]. destruct (keeps c) eqn:Hk.
  - constructor; [|done]. intros ->. done.
  - pose proof (nat_ascii_bounded c) as Hb.
    assert (∀ n, n < 16 → hex_of n (hex_digit n)) as Hh.
    { intros n Hn. left. do 16 (destruct n as [|n]; [reflexivity|]). lia. }
    rewrite <-(ascii_nat_embedding c) at 3. rewrite (Nat.div_mod_eq (nat_of_ascii c) 16) at 3.
    constructor; [apply Hh, Nat.div_lt_upper_bound; lia|apply Hh; by apply Nat.mod_upper_bound|done].
Qed.
Lemma escapes_read {T} (parse : string → option T) q q' s : escapes q s → escapes q' s → url_from_str parse q = url_from_str parse q'.
Proof.
  intros H H'. unfold url_from_str, url_json. by rewrite (escapes_decode _ _ H), (escapes_decode _ _ H').
Qed.
Lemma any_escaping v : ∃ s, escapes (url_to_string v) s ∧
  ∀ q, escapes q s → ∀ T (parse : string → option T), url_from_str parse q = url_from_str parse (url_to_string v).
Proof.
  eexists. split; [apply escapes_encode|]. intros q Hq T parse. exact (escapes_read parse _ _ _ Hq (escapes_encode _)).
Qed.
