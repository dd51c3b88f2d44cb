From Coq Require Import Lia.
From Verif Require Import Base StringSpec Json MatcherModel JsonParse JsonText CoreModel VcModel Prog IssuerTypes
  IssuerClaims SerdeSpec SerdeModel SerdeFacts SerdeTrips SerdeText SerdeRequest QueryModel.
From Verif Require UrlModel UrlSpec UrlFacts.
Local Arguments String.append : simpl never.

Definition innocents (j : json) : Prop := UrlSpec.harmless (to_uval j).

Lemma escapes_plain s : UrlSpec.all_chars UrlSpec.unescaped s = true → json_escapes s = s.
Proof.
  induction s as [|c s IH]; [done|]. simpl. intros [Hc Hs]%andb_true_iff. rewrite IH by done.
  assert (json_escape c = String c "") as ->; [|by rewrite append_cons, append_nil].
  clear -Hc. unfold UrlSpec.unescaped in Hc. by destruct c as [[] [] [] [] [] [] [] []].
Qed.
Lemma quote_plain s : UrlSpec.all_chars UrlSpec.unescaped s = true → json_quote s = UrlSpec.quoted s.
Proof. intros H. unfold json_quote, UrlSpec.quoted. by rewrite escapes_plain. Qed.
Lemma innocent_plain s : UrlSpec.innocent s → UrlSpec.all_chars UrlSpec.unescaped s = true.
Proof.
  intros [H _]. eapply UrlFacts.all_chars_impl; [|exact H]. simpl. intros c [? _]%andb_true_iff. done.
Qed.
Lemma join_commas l : UrlSpec.join l = commas l.
Proof. done. Qed.
Lemma to_uval_obj m : to_uval (JObj m) = UrlModel.UMap (parameters m).
Proof. simpl. f_equal. induction m as [|[k v] m IH]; simpl; by rewrite ?IH. Qed.
Lemma text_agree j : innocents j → UrlSpec.json_text (to_uval j) = json_text j.
Proof.
  unfold innocents. induction j as [|b|t|s|l IH|m IH] using json_ind'.
  - done.
  - by destruct b.
  - done.
  - simpl. intros H. symmetry. by apply quote_plain, innocent_plain.
  - intros H. cbn [to_uval] in *. rewrite UrlFacts.harmless_seq in H. rewrite UrlFacts.json_text_seq. cbn [json_text].
    do 2 f_equal. rewrite join_commas. f_equal. rewrite map_map. apply map_ext_in. intros x Hx.
    apply elem_of_list_In in Hx. apply (proj1 (Forall_forall _ _) IH x Hx).
    apply (proj1 (Forall_forall _ _) H). by apply elem_of_list_fmap_1.
  - rewrite to_uval_obj. rewrite UrlFacts.harmless_map. intros H. rewrite UrlFacts.json_text_map, json_text_obj.
    do 2 f_equal. rewrite join_commas. f_equal. unfold parameters in *. rewrite map_map. apply map_ext_in. intros x Hx.
    apply elem_of_list_In in Hx. pose proof (proj1 (Forall_forall _ _) H _ (elem_of_list_fmap_1 _ _ _ Hx)) as [H1 H2].
    unfold UrlFacts.field_text, entry_text. simpl in *. rewrite quote_plain by (by apply innocent_plain).
    by rewrite (proj1 (Forall_forall _ _) IH x Hx).
Qed.
Lemma struct_agree m : innocents (JObj m) → UrlSpec.json_text (UrlModel.UStruct (parameters m)) = json_text (JObj m).
Proof. intros H. rewrite <-text_agree by done. rewrite to_uval_obj. by rewrite UrlFacts.json_text_struct, UrlFacts.json_text_map. Qed.

(** Parameters that are strings, lists or objects. *)
Definition plain_value (j : json) : Prop := match j with JStr _ | JArr _ | JObj _ => True | _ => False end.
Lemma parameters_harmless m : m ≠ [] → innocents (JObj m) → Forall (λ kv, plain_value kv.2) m →
  UrlSpec.harmless_request (parameters m).
Proof.
  intros Hne H Hp. split; [by destruct m|]. intros k v Hin. unfold innocents in H.
  rewrite to_uval_obj, UrlFacts.harmless_map in H. destruct (proj1 (Forall_forall _ _) H _ Hin) as [H1 H2].
  split; [done|]. split; [done|]. apply elem_of_list_fmap in Hin as ([k' j] & [= -> ->] & Hin).
  pose proof (proj1 (Forall_forall _ _) Hp _ Hin) as Hj. by destruct j.
Qed.
Lemma query_read {A} (d : json → option A) m : m ≠ [] → innocents (JObj m) → Forall (λ kv, plain_value kv.2) m →
  jnumbers (JObj m) → jdepth (JObj m) < depth_limit →
  UrlModel.url_from_str (read d) (query_of m) = d (JObj m).
Proof.
  intros Hne H Hp Hn Hd. unfold UrlModel.url_from_str, query_of.
  rewrite UrlFacts.url_json_text by (by apply parameters_harmless). rewrite struct_agree by done.
  unfold read. by rewrite parse_json_text.
Qed.

Lemma has_char_app c s t : has_char c (s +:+ t) = has_char c s || has_char c t.
Proof. induction s as [|d s IH]; [done|]. rewrite append_cons. simpl. rewrite IH. by rewrite orb_assoc. Qed.
Lemma has_char_encode c s : UrlModel.keeps c = true → has_char c s = true → has_char c (UrlModel.percent_encode s) = true.
Proof.
  intros Hc. induction s as [|d s IH]; [done|]. simpl. rewrite orb_true_iff. intros [Hd|Hd].
  - apply bool_decide_eq_true in Hd as ->. rewrite Hc. simpl. by rewrite bool_decide_true.
  - destruct (UrlModel.keeps d); simpl; rewrite IH by done; by rewrite ?orb_true_r.
Qed.
Lemma hex_digit_amp n : n < 16 → UrlModel.hex_digit n ≠ "&"%char.
Proof. intros H. do 16 (destruct n as [|n]; [done|]). lia. Qed.
Lemma encode_no_amp s : has_char "&" s = false → has_char "&" (UrlModel.percent_encode s) = false.
Proof.
  induction s as [|d s IH]; [done|]. cbn [has_char UrlModel.percent_encode]. intros [Hd Hs]%orb_false_iff. destruct (UrlModel.keeps d).
  - cbn [has_char]. by rewrite Hd, IH.
  - pose proof (nat_ascii_bounded d) as Hb. cbn [has_char]. rewrite IH by done.
    rewrite !bool_decide_false; [done|..]; try done; apply hex_digit_amp.
    + apply Nat.mod_upper_bound. lia.
    + apply Nat.div_lt_upper_bound; lia.
Qed.

Lemma uri_query u : authorization_query (ARUri u) = UrlModel.percent_encode ("request_uri=" +:+ u).
Proof.
  unfold authorization_query, query_of, UrlModel.url_to_string. f_equal.
Qed.
Lemma uri_unread u : has_char "&" u = false → authorization_from_str (authorization_query (ARUri u)) = None.
Proof.
  intros H. rewrite uri_query. unfold authorization_from_str. rewrite encode_no_amp.
  2:{ by rewrite has_char_app, H. }
  rewrite andb_false_r. rewrite !append_cons, append_nil. unfold read.
  replace (parse_json _) with (@None json); [done|]. symmetry. reflexivity.
Qed.

Lemma parameters_app a b : parameters (a ++ b) = parameters a ++ parameters b.
Proof. apply map_app. Qed.
Lemma request_plain r : Forall (λ kv, plain_value kv.2) (ser_request_entries r).
Proof.
  unfold ser_request_entries.
  assert (∀ k s, Forall (λ kv, plain_value kv.2) (str_entry k s)) as H1.
  { intros. unfold str_entry. case_bool_decide; repeat constructor. }
  assert (∀ k o, Forall (λ kv, plain_value kv.2) (some_entry k JStr o)) as H2.
  { intros k []; repeat constructor. }
  repeat (apply Forall_app; split); auto; repeat constructor.
  - by destruct (ro_code_challenge_method r).
  - destruct (ro_authorization_details r); repeat constructor.
Qed.

Lemma query_marks m m' k v k' v' : UrlSpec.harmless_request (parameters (m ++ (k, v) :: (k', v') :: m')) →
  has_char "=" (query_of (m ++ (k, v) :: (k', v') :: m')) && has_char "&" (query_of (m ++ (k, v) :: (k', v') :: m')) = true.
Proof.
  intros H. unfold query_of, UrlModel.url_to_string. rewrite UrlFacts.query_text by done.
  assert (∀ x l, has_char "=" (UrlFacts.join_amp (map UrlFacts.query_field (x :: l))) = true) as He.
  { intros x l. simpl map. rewrite UrlFacts.join_amp_cons. unfold UrlFacts.query_field. rewrite !has_char_app.
    simpl. by rewrite ?orb_true_r. }
  assert (∀ x y l, has_char "&" (UrlFacts.join_amp (map UrlFacts.query_field (x :: y :: l))) = true) as Ha.
  { intros x y l. simpl map. rewrite UrlFacts.join_amp_cons. simpl. rewrite !has_char_app. simpl. by rewrite ?orb_true_r. }
  rewrite parameters_app. simpl. destruct (parameters m) as [|x [|y l]]; simpl app;
    rewrite !has_char_encode; try done.
Qed.

Lemma object_query r : readable_request r → innocents (ser_request r) →
  (∀ c, c ∈ details_claims (ro_authorization_details r) → claims_depth c ≤ 122) →
  authorization_from_str (authorization_query (ARObject r)) = Some (ARObject r).
Proof.
  intros Hr Hi Hd. unfold authorization_query, authorization_from_str. cbn [authorization_entries].
  assert (UrlSpec.harmless_request (parameters (ser_request_entries r))) as Hh.
  { apply parameters_harmless; [|done|apply request_plain]. unfold ser_request_entries, str_entry. by case_bool_decide. }
  assert (has_char "=" (query_of (ser_request_entries r)) && has_char "&" (query_of (ser_request_entries r)) = true) as ->.
  { unfold ser_request_entries in *. by apply query_marks. }
  destruct (fine_request 122 r Hd) as [H1 H2].
  rewrite query_read; [| |done|apply request_plain|done|unfold depth_limit; unfold ser_request in H2; lia].
  - apply (de_authorization_request_ser true (ARObject r)). done.
  - unfold ser_request_entries, str_entry. by case_bool_decide.
Qed.

Definition known : list string :=
  ["credential_issuer"; "response_type"; "client_id"; "redirect_uri"; "state"; "code_challenge"; "code_challenge_method";
   "authorization_details"; "scope"; "resource"; "subject_id"; "wallet_issuer"; "user_hint"; "issuer_state"; "request_uri"].
Lemma unknown_key k v r u : k ∉ known → read_key true k v r u = None.
Proof.
  intros H. destruct r. unfold read_key.
  repeat (rewrite bool_decide_false; [|intros E; apply H; unfold known; rewrite ?E; set_solver]). done.
Qed.
Lemma unknown_refused r k v : readable_request r → innocents (ser_request r) →
  (∀ c, c ∈ details_claims (ro_authorization_details r) → claims_depth c ≤ 122) →
  UrlSpec.innocent k → UrlSpec.innocent v → k ∉ known →
  authorization_from_str (query_of (ser_request_entries r ++ [(k, JStr v)])) = None.
Proof.
  intros Hr Hi Hd Hk Hv Hkn. unfold authorization_from_str.
  assert (innocents (JObj (ser_request_entries r ++ [(k, JStr v)]))) as Hi'.
  { unfold innocents, ser_request in *. rewrite to_uval_obj, UrlFacts.harmless_map in *. rewrite parameters_app.
    apply Forall_app. split; [done|]. by apply Forall_singleton. }
  assert (Forall (λ kv, plain_value kv.2) (ser_request_entries r ++ [(k, JStr v)])) as Hp.
  { apply Forall_app. split; [apply request_plain|]. by apply Forall_singleton. }
  assert (ser_request_entries r ++ [(k, JStr v)] ≠ []) as Hne by (by destruct (ser_request_entries r)).
  assert (has_char "=" (query_of (ser_request_entries r ++ [(k, JStr v)])) &&
          has_char "&" (query_of (ser_request_entries r ++ [(k, JStr v)])) = true) as ->.
  { pose proof (parameters_harmless _ Hne Hi' Hp) as Hh. unfold ser_request_entries in *. rewrite <-!app_assoc in *.
    by apply query_marks. }
  destruct (fine_request 122 r Hd) as [H1 H2]. unfold ser_request in H1, H2.
  assert (fine 127 (JObj (ser_request_entries r ++ [(k, JStr v)]))) as [Hn Hj].
  { apply (fine_obj 126). unfold fines. apply Forall_app. split; [|apply Forall_singleton, fine_str].
    rewrite jnumbers_obj in H1. apply Forall_forall. intros x Hx. split; [by apply (proj1 (Forall_forall _ _) H1)|].
    cbn [jdepth] in H2. clear -H2 Hx. apply le_S_n in H2. etransitivity; [|exact H2].
    revert Hx. generalize (ser_request_entries r). intros l. induction l as [|y l IH]; [by intros ?%elem_of_nil|].
    intros [->|Hx]%elem_of_cons; cbn; [lia|]. specialize (IH Hx). unfold list_max in IH. lia. }
  rewrite query_read; [|done..|unfold depth_limit; lia].
  unfold de_authorization_request. cbn [obj]. rewrite read_keys_app, read_keys_request by done. cbn [read_keys].
  by rewrite unknown_key.
Qed.
