(** Forms: what is written is read back. *)
From Verif Require Import Base Json CoreModel VcModel Prog IssuerTypes SerdeModel QueryModel FormModel UrlFacts.
From Verif Require UrlModel SerdeQuery SerdeRequest DifQuery SerdeSpec.
Import UrlModel.

Lemma form_keeps_safe c : form_keeps c = true → c ≠ "%"%char ∧ c ≠ "+"%char ∧ c ≠ "&"%char ∧ c ≠ "="%char.
Proof. intros H. repeat split; intros ->; vm_compute in H; done. Qed.
Lemma hex_digit_safe n : n < 16 → UrlModel.hex_digit n ≠ "&"%char ∧ UrlModel.hex_digit n ≠ "="%char ∧ UrlModel.hex_digit n ≠ "+"%char.
Proof. intros H. do 16 (destruct n as [|n]; [by repeat split|]). lia. Qed.
Lemma code_bounds c : nat_of_ascii c / 16 < 16 ∧ nat_of_ascii c mod 16 < 16.
Proof.
  pose proof (nat_ascii_bounded c). split; [apply Nat.div_lt_upper_bound; lia|apply Nat.mod_upper_bound; lia].
Qed.
Lemma unplus_keep c r : c ≠ "+"%char → unplus (String c r) = String c (unplus r).
Proof. intros H. simpl. by rewrite bool_decide_false. Qed.
Lemma form_round s : form_decode (form_encode s) = s.
Proof.
  unfold form_decode. induction s as [|c s IH]; [done|]. cbn [form_encode]. destruct (form_keeps c) eqn:Hk.
  - destruct (form_keeps_safe c Hk) as (H1 & H2 & _). rewrite unplus_keep by done. rewrite decode_other by done. by rewrite IH.
  - case_bool_decide as Hb.
    + subst c. cbn [unplus]. rewrite bool_decide_true by done. rewrite decode_other by done. by rewrite IH.
    + destruct (code_bounds c) as [B1 B2]. destruct (hex_digit_safe _ B1) as (_ & _ & P1), (hex_digit_safe _ B2) as (_ & _ & P2).
      rewrite unplus_keep by done. rewrite unplus_keep by done. rewrite unplus_keep by done.
      rewrite (decode_escape _ _ (nat_of_ascii c / 16) (nat_of_ascii c mod 16)) by (by apply hex_value_digit). rewrite IH. f_equal.
      by rewrite <-Nat.div_mod_eq, ascii_nat_embedding.
Qed.
Lemma form_encode_clean c s : c = "&"%char ∨ c = "="%char → has_char c (form_encode s) = false.
Proof.
  intros Hc. induction s as [|d s IH]; [done|]. cbn [form_encode]. destruct (form_keeps d) eqn:Hk; [|case_bool_decide].
  - destruct (form_keeps_safe d Hk) as (_ & _ & H1 & H2). cbn [has_char]. rewrite IH. rewrite bool_decide_false; [done|]. naive_solver.
  - cbn [has_char]. rewrite IH. by destruct Hc as [->| ->].
  - cbn [has_char]. rewrite IH. destruct (code_bounds d) as [B1 B2].
    destruct (hex_digit_safe _ B1) as (P1 & P1' & _), (hex_digit_safe _ B2) as (P2 & P2' & _).
    rewrite !bool_decide_false; [done|destruct Hc; congruence..].
Qed.

Lemma cut_at c a b : has_char c a = false → cut c (a +:+ String c EmptyString +:+ b) = (a, Some b).
Proof.
  induction a as [|d a IH]; cbn [has_char].
  - intros _. rewrite app_nil_l', app_cons, app_nil_l'. cbn [cut]. by rewrite bool_decide_true.
  - intros [Hd H]%orb_false_iff. rewrite app_cons. cbn [cut]. rewrite Hd. by rewrite IH.
Qed.
Lemma pieces_plain a : has_char "&" a = false → pieces a = [a].
Proof.
  induction a as [|d a IH]; [done|]. cbn [has_char pieces]. intros [Hd H]%orb_false_iff. rewrite Hd. by rewrite IH.
Qed.
Lemma pieces_amp a b : has_char "&" a = false → pieces (a +:+ String "&" b) = a :: pieces b.
Proof.
  induction a as [|d a IH]; cbn [has_char].
  - intros _. rewrite app_nil_l'. cbn [pieces]. by rewrite bool_decide_true.
  - intros [Hd H]%orb_false_iff. rewrite app_cons. cbn [pieces]. rewrite Hd. by rewrite IH.
Qed.
Lemma pieces_join l : l ≠ [] → Forall (λ p, has_char "&" p = false) l → pieces (join l) = l.
Proof.
  induction l as [|x l IH]; [done|]. intros _ [Hx Hl]%Forall_cons. destruct l as [|y l].
  - by apply pieces_plain.
  - change (join (x :: y :: l)) with (x +:+ String "&" (join (y :: l))). rewrite pieces_amp by done. by rewrite IH.
Qed.
(** Any escaping of names and values that decodes to them and keeps the separators out is read back. *)
Lemma pairs_of_pieces (l : list (string * string)) (texts : list (string * string)) :
  Forall2 (λ kv t, form_decode t.1 = kv.1 ∧ form_decode t.2 = kv.2 ∧ has_char "&" t.1 = false ∧ has_char "=" t.1 = false ∧
     has_char "&" t.2 = false) l texts →
  form_pairs (join (map (λ t, t.1 +:+ "=" +:+ t.2) texts)) = l.
Proof.
  intros H. unfold form_pairs. destruct (decide (texts = [])) as [->|Hne].
  { apply Forall2_nil_inv_r in H as ->. done. }
  rewrite pieces_join.
  - assert (List.filter (λ p, negb (bool_decide (p = ""))) (map (λ t, t.1 +:+ "=" +:+ t.2) texts) = map (λ t, t.1 +:+ "=" +:+ t.2) texts) as ->.
    { clear. induction texts as [|[a b] l IH]; [done|]. simpl. rewrite bool_decide_false by (by destruct a). simpl. by rewrite IH. }
    clear Hne. induction H as [|[k v] [a b] l texts (H1 & H2 & H3 & H4 & H5) H IH]; [done|]. simpl in *. rewrite IH.
    rewrite cut_at by done. simpl. by rewrite H1, H2.
  - by destruct texts.
  - clear Hne. induction H as [|[k v] [a b] l texts (H1 & H2 & H3 & H4 & H5) H IH]; [constructor|]. simpl in *. constructor; [|done].
    rewrite SerdeQuery.has_char_app. rewrite H3. simpl. done.
Qed.
Lemma form_pairs_text l : form_pairs (form_text l) = l.
Proof.
  unfold form_text.
  replace (map (λ kv, form_encode kv.1 +:+ "=" +:+ form_encode kv.2) l)
    with (map (λ t : string * string, t.1 +:+ "=" +:+ t.2) (map (λ kv : string * string, (form_encode kv.1, form_encode kv.2)) l)).
  2:{ rewrite map_map. done. }
  apply pairs_of_pieces. induction l as [|[k v] l IH]; [constructor|]. simpl. constructor; [|done]. simpl.
  rewrite !form_round. repeat split; auto using form_encode_clean.
Qed.

(** ** What is sent *)
Lemma form_parts_strings l : form_parts (map (λ kv : string * string, (kv.1, JStr kv.2)) l) = Some l.
Proof. induction l as [|[k v] l IH]; [done|]. simpl. by rewrite IH. Qed.
Lemma form_parts_bad m k j : (k, j) ∈ m → form_part j = None → form_parts m = None.
Proof.
  intros H Hj. induction m as [|[k' j'] m IH]; [by apply elem_of_nil in H|]. simpl.
  apply elem_of_cons in H as [[= <- <-]|H]; [by rewrite Hj|]. rewrite IH by done. by destruct (form_part j') as [[]|].
Qed.
(** The texts among the entries of an object. *)
Lemma form_read_write {A} (d : json → option A) m l : form_parts m = Some l →
  ∃ s, form_write (JObj m) = Some s ∧ form_read d s = d (JObj (map (λ kv, (kv.1, JStr kv.2)) l)).
Proof.
  intros H. exists (form_text l). split; [simpl; by rewrite H|]. unfold form_read. by rewrite form_pairs_text.
Qed.

(** ** Query strings, read as forms *)
Lemma struct_cons k v fs s : struct_loop ((k, v) :: fs) s =
  let s1 := ser_str k (separate_field s) in struct_loop fs (ser v (push (if nested s1 then ":" else "=") s1)).
Proof. done. Qed.
Lemma map_cons k v fs s : map_loop ((k, v) :: fs) s = map_loop fs (ser v (push ":" (ser_str k (separate "{" s)))).
Proof. done. Qed.
Lemma ser_grows v s : ∃ t, ss_out (ser v s) = ss_out s +:+ t.
Proof.
  assert (∀ c s, ∃ t, ss_out (separate c s) = ss_out s +:+ t) as Hsep.
  { intros c s0. unfold separate. destruct (ends_in _ _); [|by eexists]. exists "". by rewrite app_nil_r'. }
  assert (∀ c s, ∃ t, ss_out (ser_str c s) = ss_out s +:+ t) as Hstr.
  { intros c s0. unfold ser_str. destruct (nested _); by eexists. }
  assert (∀ s, ∃ t, ss_out (separate_field s) = ss_out s +:+ t) as Hf.
  { intros s0. unfold separate_field. destruct (nested _); [apply Hsep|]. destruct (str_is_empty _); [|by eexists].
    exists "". by rewrite app_nil_r'. }
  revert s. induction v as [x|x|b| |l IH|fs IH|fs IH] using uval_ind'; intros s.
  - apply Hstr.
  - by eexists.
  - by eexists.
  - by eexists.
  - rewrite ser_seq. simpl. enough (∀ s, ∃ t, ss_out (seq_loop l s) = ss_out s +:+ t) as H.
    { destruct (H (push "[" (deeper s))) as [t ->]. simpl. rewrite !app_assoc'. by eexists. }
    induction IH as [|v l Hv Hl IH2]; intros s0; [exists ""; by rewrite app_nil_r'|].
    change (seq_loop (v :: l) s0) with (seq_loop l (ser v (separate "[" s0))).
    destruct (Hsep "["%char s0) as [t1 E1]. destruct (Hv (separate "[" s0)) as [t2 E2].
    destruct (IH2 (ser v (separate "[" s0))) as [t3 E3]. rewrite E3, E2, E1. rewrite !app_assoc'. by eexists.
  - rewrite ser_struct. cbv zeta. enough (∀ s, ∃ t, ss_out (struct_loop fs s) = ss_out s +:+ t) as H.
    { destruct (nested (deeper s)).
      - destruct (H (push "{" (deeper s))) as [t E]. destruct (nested (struct_loop fs (push "{" (deeper s)))); simpl; rewrite E; simpl;
          rewrite !app_assoc'; by eexists.
      - destruct (H (deeper s)) as [t E]. destruct (nested (struct_loop fs (deeper s))); simpl; rewrite E; simpl;
          rewrite ?app_assoc'; by eexists. }
    induction IH as [|[k v] l Hv Hl IH2]; intros s0; [exists ""; by rewrite app_nil_r'|]. cbn [snd] in Hv.
    rewrite struct_cons. cbv zeta. destruct (Hf s0) as [t1 E1]. destruct (Hstr k (separate_field s0)) as [t2 E2]. set (s1 := ser_str k (separate_field s0)) in *.
    set (s2 := push (if nested s1 then ":" else "=") s1) in *.
    destruct (Hv s2) as [t3 E3]. destruct (IH2 (ser v s2)) as [t4 E4]. rewrite E4. rewrite E3.
    unfold s2. simpl. rewrite E2, E1. rewrite !app_assoc'. by eexists.
  - rewrite ser_map. cbv zeta. enough (∀ s, ∃ t, ss_out (map_loop fs s) = ss_out s +:+ t) as H.
    { destruct (nested (deeper s)).
      - destruct (H (push "{" (deeper s))) as [t E]. simpl. rewrite E; simpl; rewrite !app_assoc'; by eexists.
      - destruct (H (deeper s)) as [t E]. simpl. rewrite E; simpl; rewrite ?app_assoc'; by eexists. }
    induction IH as [|[k v] l Hv Hl IH2]; intros s0; [exists ""; by rewrite app_nil_r'|]. cbn [snd] in Hv.
    rewrite map_cons. destruct (Hsep "{"%char s0) as [t1 E1]. destruct (Hstr k (separate "{" s0)) as [t2 E2]. set (s1 := ser_str k (separate "{" s0)) in *.
    destruct (Hv (push ":" s1)) as [t3 E3]. destruct (IH2 (ser v (push ":" s1))) as [t4 E4]. rewrite E4.
    rewrite E3. simpl. rewrite E2, E1. rewrite !app_assoc'. by eexists.
Qed.
Lemma struct_grows fs s : ∃ t, ss_out (struct_loop fs s) = ss_out s +:+ t.
Proof.
  revert s. induction fs as [|[k v] fs IH]; intros s; [exists ""; simpl; by rewrite app_nil_r'|].
  rewrite struct_cons. cbv zeta. set (s1 := ser_str k (separate_field s)). set (s2 := push (if nested s1 then ":" else "=") s1).
  destruct (ser_grows v s2) as [t3 E3]. destruct (IH (ser v s2)) as [t4 E4]. rewrite E4, E3. unfold s2, s1. simpl.
  unfold ser_str, separate_field, separate. repeat match goal with |- context [if ?b then _ else _] => destruct b end;
    simpl; rewrite ?app_assoc'; by eexists.
Qed.

Definition ustr (kv : string * string) : string * uval := (kv.1, UStr kv.2).
Definition pair_text (kv : string * string) : string := kv.1 +:+ "=" +:+ kv.2.
Lemma str_rest l s : ss_level s = 1 → ss_out s ≠ "" → struct_loop (map ustr l) s = push (tail_amp (map pair_text l)) s.
Proof.
  revert s. induction l as [|[k v] l IH]; intros s Hl Ho; [simpl; by rewrite push_nil|].
  change (map ustr ((k, v) :: l)) with ((k, UStr v) :: map ustr l). rewrite struct_cons. cbv zeta.
  destruct s as [out lv]. cbn [ss_level ss_out] in Hl, Ho. subst lv. destruct out as [|c o]; [done|].
  assert (separate_field (SerState (String c o) 1) = SerState (String c o +:+ "&") 1) as -> by done.
  change (ser_str k (SerState (String c o +:+ "&") 1)) with (SerState ((String c o +:+ "&") +:+ k) 1).
  change (nested (SerState _ 1)) with false. cbv iota.
  change (ser (UStr v) (push "=" (SerState ((String c o +:+ "&") +:+ k) 1))) with (SerState ((((String c o +:+ "&") +:+ k) +:+ "=") +:+ v) 1).
  rewrite IH; [|done|by rewrite !app_cons]. unfold push, pair_text. cbn [map tail_amp foldr ss_out ss_level fst snd]. f_equal.
  by rewrite ?app_assoc'.
Qed.
Lemma str_start k v l : struct_loop (map ustr ((k, v) :: l)) (SerState "" 1) = SerState (pair_text (k, v) +:+ tail_amp (map pair_text l)) 1.
Proof.
  change (map ustr ((k, v) :: l)) with ((k, UStr v) :: map ustr l). rewrite struct_cons. cbv zeta.
  change (separate_field (SerState "" 1)) with (SerState "" 1). change (ser_str k (SerState "" 1)) with (SerState k 1).
  change (nested (SerState _ 1)) with false. cbv iota.
  change (ser (UStr v) (push "=" (SerState k 1))) with (SerState ((k +:+ "=") +:+ v) 1).
  rewrite str_rest; [|done|by destruct k]. unfold push, pair_text. cbn [ss_out ss_level fst snd]. f_equal. by rewrite ?app_assoc'.
Qed.
Lemma join_is l : join_amp l = join l.
Proof. induction l as [|x [|y l] IH]; [done|done|]. simpl in *. by rewrite IH. Qed.
Lemma str_text l : ss_out (ser (UStruct (map ustr l)) (SerState "" 0)) = join (map pair_text l).
Proof.
  destruct l as [|[k v] l]; [done|]. rewrite ser_struct. change (deeper (SerState "" 0)) with (SerState "" 1). cbv zeta.
  change (nested (SerState "" 1)) with false. cbv iota. rewrite str_start. change (nested (SerState _ 1)) with false. cbv iota.
  cbn [ss_out]. rewrite <-join_is. cbn [map]. by rewrite join_amp_cons.
Qed.
Lemma encode_pair kv : percent_encode (pair_text kv) = pair_text (percent_encode kv.1, percent_encode kv.2).
Proof. unfold pair_text. rewrite !DifQuery.encode_app. done. Qed.
Lemma encode_join l : percent_encode (join (map pair_text l)) =
  join (map pair_text (map (λ kv : string * string, (percent_encode kv.1, percent_encode kv.2)) l)).
Proof.
  induction l as [|x [|y l] IH]; [done|apply encode_pair|].
  change (join (map pair_text (x :: y :: l))) with (pair_text x +:+ "&" +:+ join (map pair_text (y :: l))).
  rewrite !DifQuery.encode_app, IH, encode_pair. done.
Qed.
Lemma unplus_encode s : unplus (percent_encode s) = percent_encode s.
Proof.
  induction s as [|c s IH]; [done|]. cbn [percent_encode]. destruct (keeps c) eqn:Hk.
  - rewrite unplus_keep; [by rewrite IH|]. intros ->. by vm_compute in Hk.
  - destruct (code_bounds c) as [B1 B2]. destruct (hex_digit_safe _ B1) as (_ & _ & P1), (hex_digit_safe _ B2) as (_ & _ & P2).
    rewrite !unplus_keep by done. by rewrite IH.
Qed.
Lemma query_decode s : form_decode (percent_encode s) = s.
Proof. unfold form_decode. by rewrite unplus_encode, decode_encode. Qed.
Lemma encode_no_char c s : keeps c = true → (∀ n, n < 16 → hex_digit n ≠ c) → c ≠ "%"%char → has_char c s = false → has_char c (percent_encode s) = false.
Proof.
  intros Hc Hh Hp. induction s as [|d s IH]; [done|]. cbn [has_char percent_encode]. intros [Hd Hs]%orb_false_iff. destruct (keeps d).
  - cbn [has_char]. by rewrite Hd, IH.
  - cbn [has_char]. rewrite IH by done. destruct (code_bounds d) as [B1 B2].
    rewrite !bool_decide_false; [done|by apply Hh..|congruence].
Qed.
Lemma query_pairs l : Forall (λ kv, has_char "&" kv.1 = false ∧ has_char "=" kv.1 = false ∧ has_char "&" kv.2 = false) l →
  form_pairs (query_of (map (λ kv : string * string, (kv.1, JStr kv.2)) l)) = l.
Proof.
  intros H. unfold query_of, url_to_string.
  assert (parameters (map (λ kv : string * string, (kv.1, JStr kv.2)) l) = map ustr l) as ->.
  { unfold parameters. rewrite map_map. done. }
  rewrite str_text, encode_join. apply pairs_of_pieces. induction H as [|[k v] l (H1 & H2 & H3) H IH]; [constructor|].
  simpl in *. constructor; [|done]. simpl. rewrite !query_decode.
  assert (∀ n, n < 16 → hex_digit n ≠ "&"%char) as Ha by (intros n Hn; by apply hex_digit_safe).
  assert (∀ n, n < 16 → hex_digit n ≠ "="%char) as He by (intros n Hn; by apply hex_digit_safe).
  repeat split; apply encode_no_char; done.
Qed.

(** The texts of a request. *)
Definition opt_list (o : option string) : list string := match o with Some s => [s] | None => [] end.
Definition request_texts (r : request_object) : list string :=
  [ro_credential_issuer r; ro_client_id r; ro_code_challenge r; ro_subject_id r]
  ++ opt_list (ro_redirect_uri r) ++ opt_list (ro_state r) ++ opt_list (ro_scope r) ++ opt_list (ro_issuer_state r).
Definition plain_pair (kv : string * string) : Prop := has_char "&" kv.1 = false ∧ has_char "=" kv.1 = false ∧ has_char "&" kv.2 = false.
Lemma entries_strings r : ro_authorization_details r = None → Forall (λ s, has_char "&" s = false) (request_texts r) →
  ∃ l, ser_request_entries r = map (λ kv : string * string, (kv.1, JStr kv.2)) l ∧ Forall plain_pair l.
Proof.
  destruct r as [i rt c ru st cc cm ad sc su is]. simpl. intros -> H. unfold request_texts in H. simpl in H.
  repeat (apply Forall_cons in H as [? H]). repeat (apply Forall_app in H as [? H]).
  assert (∀ k s, has_char "&" k = false → has_char "=" k = false → has_char "&" s = false →
    ∃ l, str_entry k s = map (λ kv : string * string, (kv.1, JStr kv.2)) l ∧ Forall plain_pair l) as Hs.
  { intros k s ? ? ?. unfold str_entry. case_bool_decide; [exists []|exists [(k, s)]]; (split; [done|]); repeat constructor; done. }
  assert (∀ k o, has_char "&" k = false → has_char "=" k = false → Forall (λ s, has_char "&" s = false) (opt_list o) →
    ∃ l, some_entry k JStr o = map (λ kv : string * string, (kv.1, JStr kv.2)) l ∧ Forall plain_pair l) as Ho.
  { intros k [s|] ? ? Hf; [exists [(k, s)]|exists []]; (split; [done|]); repeat constructor; try done. simpl in Hf.
    by apply Forall_cons in Hf as [? _]. }
  unfold ser_request_entries. simpl.
  destruct (Hs "credential_issuer" i) as (l1 & -> & ?); [done..|]. destruct (Ho "redirect_uri" ru) as (l2 & -> & ?); [done..|].
  destruct (Ho "state" st) as (l3 & -> & ?); [done..|]. destruct (Ho "scope" sc) as (l4 & -> & ?); [done..|].
  destruct (Ho "issuer_state" is) as (l5 & -> & ?); [done..|].
  assert (∃ t, ser_response_type rt = JStr t ∧ has_char "&" t = false) as (t1 & -> & ?) by (destruct rt; by eexists).
  assert (∃ t, ser_method cm = JStr t ∧ has_char "&" t = false) as (t2 & -> & ?) by (destruct cm; by eexists).
  exists (l1 ++ [("response_type", t1); ("client_id", c)] ++ l2 ++ l3 ++ [("code_challenge", cc); ("code_challenge_method", t2)] ++ l4
    ++ [("subject_id", su)] ++ l5).
  split; [by rewrite !map_app|]. repeat (apply Forall_app; split); try done; repeat constructor; done.
Qed.
Lemma auth_form_round r : ro_authorization_details r = None → Forall (λ s, has_char "&" s = false) (request_texts r) →
  auth_form (authorization_query (ARObject r)) = Some (ARObject r).
Proof.
  intros Hd Ht. destruct (entries_strings r Hd Ht) as (l & E & Hl). unfold auth_form, form_read, authorization_query.
  cbn [authorization_entries]. rewrite E, query_pairs by done. rewrite <-E.
  apply (SerdeRequest.de_authorization_request_ser false (ARObject r)). unfold SerdeSpec.readable_request. by rewrite Hd.
Qed.

(** A name after an ampersand is read as a name. *)
Lemma pieces_app a b : pieces (a +:+ String "&" b) = pieces a ++ pieces b.
Proof.
  induction a as [|d a IH].
  - rewrite app_nil_l'. cbn [pieces]. by rewrite bool_decide_true.
  - rewrite app_cons. cbn [pieces]. rewrite IH. case_bool_decide; [done|]. 
    assert (pieces a ≠ []) as Hne. { clear. destruct a as [|x a]; simpl; [done|]. case_bool_decide; [done|]. by destruct (pieces a). }
    by destruct (pieces a).
Qed.
Lemma pieces_head a b : has_char "&" a = false → ∃ c l, pieces (a +:+ b) = (a +:+ c) :: l.
Proof.
  induction a as [|d a IH]; cbn [has_char].
  - intros _. rewrite app_nil_l'. destruct b as [|d b]; simpl; [by exists "", []|]. case_bool_decide; [by eexists "", _|].
    destruct (pieces b); by eexists _, _.
  - intros [Hd H]%orb_false_iff. destruct (IH H) as (c & l & E). rewrite app_cons. cbn [pieces]. rewrite Hd, E. exists c, l.
    by rewrite app_cons.
Qed.
Lemma named_pair a k b : has_char "&" k = false → has_char "=" k = false →
  ∃ v, (form_decode k, v) ∈ form_pairs (a +:+ String "&" (k +:+ "=" +:+ b)).
Proof.
  intros Ha He. unfold form_pairs. rewrite pieces_app.
  destruct (pieces_head (k +:+ "=") b) as (c & l & E).
  { rewrite SerdeQuery.has_char_app, Ha. done. }
  rewrite app_assoc' in E. rewrite E. eexists. apply elem_of_list_fmap. exists ((k +:+ "=") +:+ c). split.
  - rewrite app_assoc', cut_at by done. reflexivity.
  - apply elem_of_list_In, filter_In. split.
    + apply elem_of_list_In, elem_of_app. right. apply elem_of_list_here.
    + rewrite bool_decide_false; [done|]. by destruct k.
Qed.
Lemma read_keys_details m v r uri : ("authorization_details", JStr v) ∈ m → read_keys false m r uri = None.
Proof.
  revert r uri. induction m as [|[k j] m IH]; intros r uri H; [by apply elem_of_nil in H|]. simpl.
  apply elem_of_cons in H as [[= <- <-]|H].
  - destruct r. reflexivity.
  - destruct (read_key false k j r uri) as [[r' uri']|]; [by apply IH|done].
Qed.
Lemma details_unread a b : auth_form (a +:+ String "&" ("authorization_details=" +:+ b)) = None.
Proof.
  destruct (named_pair a "authorization_details" b) as [v Hv]; [done..|]. unfold auth_form, form_read, de_authorization_request. cbn [obj].
  rewrite (read_keys_details _ v); [done|].
  apply (elem_of_list_fmap_1 (λ kv : string * string, (kv.1, JStr kv.2))) in Hv. exact Hv.
Qed.
Lemma struct_loop_app fs fs' s : struct_loop (fs ++ fs') s = struct_loop fs' (struct_loop fs s).
Proof. revert s. induction fs as [|[k v] fs IH]; intros s; [done|]. apply IH. Qed.
Lemma details_query r d : ro_authorization_details r = Some d →
  auth_form (authorization_query (ARObject r)) = None.
Proof.
  destruct r as [i rt c ru st cc cm ad sc su is]. simpl. intros ->. unfold authorization_query, query_of, url_to_string.
  cbn [authorization_entries]. unfold ser_request_entries.
  cbn [ro_credential_issuer ro_response_type ro_client_id ro_redirect_uri ro_state ro_code_challenge ro_code_challenge_method
    ro_authorization_details ro_scope ro_subject_id ro_issuer_state].
  change (some_entry "authorization_details" (ser_list ser_detail) (Some d)) with [("authorization_details", ser_list ser_detail d)].
  assert (∀ k s, ∃ l, str_entry k s = map (λ kv : string * string, (kv.1, JStr kv.2)) l) as Hs.
  { intros k s. unfold str_entry. case_bool_decide; [by exists []|by exists [(k, s)]]. }
  assert (∀ k o, ∃ l, some_entry k JStr o = map (λ kv : string * string, (kv.1, JStr kv.2)) l) as Ho.
  { intros k [s|]; [by exists [(k, s)]|by exists []]. }
  destruct (Hs "credential_issuer" i) as (l1 & ->). destruct (Ho "redirect_uri" ru) as (l2 & ->). destruct (Ho "state" st) as (l3 & ->).
  assert (∃ t, ser_response_type rt = JStr t) as (t1 & ->) by (destruct rt; by eexists).
  assert (∃ t, ser_method cm = JStr t) as (t2 & ->) by (destruct cm; by eexists).
  set (j := ser_list ser_detail d).
  match goal with |- context [parameters ?m] => replace m with
    (map (λ kv : string * string, (kv.1, JStr kv.2)) (l1 ++ [("response_type", t1); ("client_id", c)] ++ l2 ++ l3
      ++ [("code_challenge", cc); ("code_challenge_method", t2)]) ++ ("authorization_details", j) ::
      (some_entry "scope" JStr sc ++ [("subject_id", JStr su)] ++ some_entry "issuer_state" JStr is)) end.
  2:{ rewrite !map_app. rewrite <-!app_assoc. done. }
  set (l := l1 ++ _). set (m := some_entry "scope" JStr sc ++ _).
  rewrite SerdeQuery.parameters_app.
  assert (parameters (map (λ kv : string * string, (kv.1, JStr kv.2)) l) = map ustr l) as ->.
  { unfold parameters. rewrite map_map. done. }
  rewrite ser_struct. change (deeper (SerState "" 0)) with (SerState "" 1). cbv zeta.
  change (nested (SerState "" 1)) with false. cbv iota. rewrite struct_loop_app.
  assert (∃ k v l', l = (k, v) :: l') as (k & v & l' & ->).
  { unfold l. destruct l1 as [|[k v] l1]; by eexists _, _, _. }
  rewrite str_start. set (out := pair_text _ +:+ _).
  assert (out ≠ "") as Hout. { unfold out, pair_text. simpl. by destruct k. }
  change (parameters (("authorization_details", j) :: m)) with (("authorization_details", to_uval j) :: parameters m).
  rewrite struct_cons. cbv zeta.
  assert (separate_field (SerState out 1) = SerState (out +:+ "&") 1) as ->.
  { unfold separate_field, nested. simpl. destruct out; [done|]. done. }
  change (ser_str "authorization_details" (SerState (out +:+ "&") 1)) with (SerState ((out +:+ "&") +:+ "authorization_details") 1).
  change (nested (SerState _ 1)) with false. cbv iota.
  set (s2 := push "=" _). destruct (ser_grows (to_uval j) s2) as [u1 E1]. destruct (struct_grows (parameters m) (ser (to_uval j) s2)) as [u2 E2].
  assert (∃ u, ss_out (if nested (struct_loop (parameters m) (ser (to_uval j) s2)) then shallower (push "}" (struct_loop (parameters m) (ser (to_uval j) s2)))
      else struct_loop (parameters m) (ser (to_uval j) s2)) = out +:+ "&" +:+ "authorization_details=" +:+ u) as [u Eu].
  { destruct (nested _); unfold shallower, push; cbn [ss_out]; rewrite E2, E1; unfold s2, push; cbn [ss_out]; rewrite !app_assoc'; by eexists. }
  rewrite Eu. rewrite !DifQuery.encode_app. change (percent_encode "&") with "&". change (percent_encode "authorization_details=") with "authorization_details=".
  apply details_unread.
Qed.

(** A list is not read from a form. *)
Lemma lookups_texts k (m : list (string * string)) :
  lookups k (map (λ kv : string * string, (kv.1, JStr kv.2)) m) = map JStr (lookups k m).
Proof.
  unfold lookups. induction m as [|[k' v] m IH]; [done|]. simpl.
  destruct (bool_decide (k' = k)); [simpl; f_equal|]; exact IH.
Qed.
Lemma lookups_in {A} k (v : A) m : (k, v) ∈ m → v ∈ lookups k m.
Proof.
  intros H. unfold lookups. apply elem_of_list_omap. exists (k, v). split; [done|]. simpl. by rewrite bool_decide_true.
Qed.
Lemma list_unread {A} (f : json → option A) k m o :
  opt (de_list f) k (map (λ kv : string * string, (kv.1, JStr kv.2)) m) = Some o → o = None ∧ ∀ v, (k, v) ∉ m.
Proof.
  unfold opt. rewrite lookups_texts. destruct (lookups k m) as [|x [|y l]] eqn:E; [|done|done]. intros [= <-]. split; [done|].
  intros v Hv. apply lookups_in in Hv. rewrite E in Hv. by apply elem_of_nil in Hv.
Qed.
