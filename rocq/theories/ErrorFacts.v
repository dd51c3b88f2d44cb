(** What clients see of errors: lemmas. *)
From Coq Require Import Lia.
From Verif Require Import Base StringSpec Json MatcherModel JsonParse JsonText Prog SerdeModel SerdeFacts SerdeTrips SerdeText
  SerdeQuery QueryModel IssuerTypes ErrorSpec ErrorModel.
From Verif Require UrlModel UrlSpec UrlFacts.
Local Arguments String.append : simpl never.

Definition plain (s : string) : Prop := UrlSpec.all_chars UrlSpec.unescaped s = true.

Lemma described_code_inj d d' : described_code d = described_code d' → d = d'.
Proof. by destruct d, d'. Qed.
Lemma described_plain d : plain (described_code d).
Proof. by destruct d. Qed.

(** Entries written with a space after each colon and comma. *)
Definition spaced_entry (kv : string * json) : string := json_quote kv.1 +:+ ": " +:+ json_text kv.2.
Fixpoint spaced (l : list string) : string :=
  match l with [] => "" | [s] => s | s :: r => s +:+ ", " +:+ spaced r end.

Lemma parse_value_space d s : parse_value d (String " " s) = parse_value d s.
Proof. destruct d; [done|]. cbn [parse_value]. cbn [skip_ws]. change (ws " ") with true. done. Qed.
Lemma parse_entry_space p s : parse_entry p (String " " s) = parse_entry p s.
Proof. unfold parse_entry. cbn [skip_ws]. by change (ws " ") with true. Qed.
Lemma parse_entries_space p n s : parse_entries p n (String " " s) = parse_entries p n s.
Proof. destruct n; [done|]. cbn [parse_entries]. by rewrite parse_entry_space. Qed.
Lemma parse_spaced_entry d kv rest : jnumbers kv.2 → jdepth kv.2 < d → stops rest →
  parse_entry (parse_value d) (spaced_entry kv +:+ rest) = Some (kv.1, kv.2, rest).
Proof.
  intros Hn Hd Hs. assert (spaced_entry kv +:+ rest =
    String """" (json_escapes kv.1 +:+ String """" (String ":" (String " " (json_text kv.2 +:+ rest))))) as ->.
  { unfold spaced_entry, json_quote. by rewrite ?append_assoc, ?append_cons, ?append_nil, ?append_assoc, ?append_cons. }
  unfold parse_entry. cbn [skip_ws]. change (ws """") with false. cbn match.
  change (Nat.eqb (nat_of_ascii """") 34) with true. cbn match. rewrite parse_escapes.
  cbn [skip_ws]. change (ws ":") with false. cbn match. rewrite parse_value_space.
  by rewrite parse_value_text.
Qed.
Lemma parse_spaced d l n rest : Forall (λ kv, jnumbers kv.2 ∧ jdepth kv.2 < d) l → l ≠ [] → length l ≤ n →
  parse_entries (parse_value d) n (spaced (map spaced_entry l) +:+ String "}" rest) = Some (l, rest).
Proof.
  revert n. induction l as [|x l IH]; intros n H Hne Hn; [done|]. apply Forall_cons in H as [[Hx1 Hx2] Hl].
  destruct n as [|n]; [simpl in Hn; lia|]. destruct l as [|y l].
  - cbn [parse_entries map spaced]. rewrite parse_spaced_entry; [|done|done|by apply stops_char]. by destruct x.
  - change (spaced (map spaced_entry (x :: y :: l))) with (spaced_entry x +:+ ", " +:+ spaced (map spaced_entry (y :: l))).
    rewrite !append_assoc. rewrite !append_cons, append_nil. cbn [parse_entries].
    rewrite parse_spaced_entry; [|done|done|by apply stops_char].
    cbn [skip_ws]. change (ws ",") with false. cbn match. rewrite parse_entries_space.
    rewrite IH; [by destruct x|done|done|]. simpl in *; lia.
Qed.
Lemma spaced_length l : length l ≤ S (String.length (spaced l)).
Proof.
  induction l as [|x [|y l] IH]; [simpl; lia|simpl; lia|].
  change (spaced (x :: y :: l)) with (x +:+ ", " +:+ spaced (y :: l)). rewrite !length_append. simpl in *. lia.
Qed.
Lemma parse_spaced_object d l : l ≠ [] → Forall (λ kv, jnumbers kv.2 ∧ jdepth kv.2 < S d) l →
  parse_value (S (S d)) ("{" +:+ spaced (map spaced_entry l) +:+ "}") = Some (JObj l, "").
Proof.
  intros Hne H. rewrite !append_cons, !append_nil.
  assert (∃ r, spaced (map spaced_entry l) +:+ "}" = String """" r) as (r & E).
  { destruct l as [|x l]; [done|]. unfold spaced_entry, json_quote. destruct l; simpl map; cbn [spaced];
      rewrite ?append_assoc, !append_cons; eauto. }
  assert (parse_entries (parse_value (S d)) (String.length (String """" r)) (String """" r) = Some (l, "")) as Hp.
  { rewrite <-E. apply parse_spaced; [done|done|]. rewrite length_append. pose proof (spaced_length (map spaced_entry l)) as Hl.
    rewrite map_length in Hl. simpl. lia. }
  remember (S d) as d1 eqn:Ed. cbn [parse_value skip_ws].
  change (ws "{") with false. cbn match. rewrite E. cbn [skip_ws]. change (ws """") with false. cbn match.
  rewrite Hp. by rewrite Ed.
Qed.
Lemma parse_error_text l : l ≠ [] → Forall (λ kv, jnumbers kv.2 ∧ jdepth kv.2 < 127) l →
  parse_json ("{" +:+ spaced (map spaced_entry l) +:+ "}") = Some (JObj l).
Proof. intros Hne H. pose proof (parse_spaced_object 126 l Hne H) as E. unfold parse_json, depth_limit. rewrite E. done. Qed.

Lemma described_text d t : plain t → error_text (Described d t) =
  "{" +:+ spaced (map spaced_entry [("error", JStr (described_code d)); ("error_description", JStr t)]) +:+ "}".
Proof.
  intros Ht. unfold error_text. cbn [map spaced]. unfold spaced_entry. cbn [fst snd json_text].
  rewrite (quote_plain t Ht), (quote_plain _ (described_plain d)). unfold UrlSpec.quoted.
  rewrite !append_assoc. reflexivity.
Qed.
Lemma proof_text h n z : plain h → plain n → error_text (ProofError h n z) =
  "{" +:+ spaced (map spaced_entry [("error", JStr "invalid_proof"); ("error_description", JStr h); ("c_nonce", JStr n);
    ("c_nonce_expires_in", ser_int z)]) +:+ "}".
Proof.
  intros Hh Hn. unfold error_text. cbn [map spaced]. unfold spaced_entry, ser_int. cbn [fst snd json_text].
  rewrite (quote_plain h Hh), (quote_plain n Hn). unfold UrlSpec.quoted.
  rewrite !append_assoc. reflexivity.
Qed.
Lemma pending_text z : error_text (PendingError z) =
  "{" +:+ spaced (map spaced_entry [("error", JStr "issuance_pending"); ("interval", ser_int z)]) +:+ "}".
Proof.
  unfold error_text. cbn [map spaced]. unfold spaced_entry, ser_int. cbn [fst snd json_text].
  rewrite !append_assoc. reflexivity.
Qed.

Lemma fine_lt z : jnumbers (ser_int z) ∧ jdepth (ser_int z) < 127.
Proof. split; [apply (fine_int 0)|]. simpl. lia. Qed.
Lemma described_parse d t : plain t → parse_json (error_text (Described d t)) =
  Some (JObj [("error", JStr (described_code d)); ("error_description", JStr t)]).
Proof. intros H. rewrite described_text by done. apply parse_error_text; [done|]. repeat constructor; simpl; lia. Qed.
Lemma proof_parse h n z : plain h → plain n → parse_json (error_text (ProofError h n z)) =
  Some (JObj [("error", JStr "invalid_proof"); ("error_description", JStr h); ("c_nonce", JStr n);
    ("c_nonce_expires_in", ser_int z)]).
Proof.
  intros Hh Hn. rewrite proof_text by done. apply parse_error_text; [done|]. constructor; [simpl; split; [done|lia]|].
  constructor; [simpl; split; [done|lia]|]. constructor; [simpl; split; [done|lia]|]. constructor; [apply fine_lt|constructor].
Qed.
Lemma pending_parse z : parse_json (error_text (PendingError z)) =
  Some (JObj [("error", JStr "issuance_pending"); ("interval", ser_int z)]).
Proof.
  rewrite pending_text. apply parse_error_text; [done|]. constructor; [simpl; split; [done|lia]|].
  constructor; [apply fine_lt|constructor].
Qed.

Lemma described_json d t : plain t → error_json (Described d t) =
  JObj [("error", JStr (described_code d)); ("error_description", JStr t)].
Proof. intros H. unfold error_json. by rewrite described_parse. Qed.
Lemma proof_json h n z : plain h → plain n → error_json (ProofError h n z) =
  JObj [("error", JStr "invalid_proof"); ("error_description", JStr h); ("c_nonce", JStr n);
    ("c_nonce_expires_in", ser_int z)].
Proof. intros Hh Hn. unfold error_json. by rewrite proof_parse. Qed.
Lemma pending_json z : error_json (PendingError z) = JObj [("error", JStr "issuance_pending"); ("interval", ser_int z)].
Proof. unfold error_json. by rewrite pending_parse. Qed.

Lemma encode_app a b : UrlModel.percent_encode (a +:+ b) = UrlModel.percent_encode a +:+ UrlModel.percent_encode b.
Proof.
  induction a as [|c a IH]; [done|]. rewrite append_cons. cbn [UrlModel.percent_encode]. rewrite IH. by destruct (UrlModel.keeps c).
Qed.
Lemma described_query d t : plain t → error_query (Described d t) =
  "error=" +:+ described_code d +:+ "&error_description=" +:+ UrlModel.percent_encode t.
Proof.
  intros H. unfold error_query, error_serialize, read. rewrite described_parse by done.
  unfold de_oid_error. cbn [obj]. unfold req, opt. simpl lookups. cbn [de_str].
  assert (UrlModel.ss_out (UrlModel.ser (UrlModel.UStruct (oid_fields (OidError (described_code d) t None None None)))
    (UrlModel.SerState "" 0)) = "error=" +:+ described_code d +:+ "&error_description=" +:+ t) as E by (by destruct d).
  unfold UrlModel.url_to_string. rewrite E. rewrite !encode_app. by destruct d.
Qed.
Lemma pending_query z : error_query (PendingError z) = "".
Proof. unfold error_query, error_serialize, read. by rewrite pending_parse. Qed.

(** The issuer's errors. *)
Lemma issuer_error_json e : Forall plain (texts e) → error_json (error_of e) = JObj (reported ser_int e).
Proof.
  intros H. destruct e; cbn [texts error_of reported] in *;
    repeat match goal with H : Forall _ (_ :: _) |- _ => apply Forall_cons in H as [? H] end.
  all: first [ rewrite described_json by assumption | rewrite proof_json by assumption | rewrite pending_json ]; reflexivity.
Qed.
Lemma issuer_error_json_inj e e' : Forall plain (texts e) → Forall plain (texts e') →
  error_json (error_of e) = error_json (error_of e') → e = e'.
Proof.
  intros H H'. rewrite !issuer_error_json by done. clear H H'. intros E.
  assert (∀ z z', ser_int z = ser_int z' → z = z') as Hz.
  { intros z z' Ez. unfold ser_int in Ez. assert (int_text z = int_text z') as Et by congruence.
    pose proof (int_text_inv z) as E1. rewrite Et, int_text_inv in E1. injection E1 as E1.
    rewrite <-(DecimalZ.of_to z), <-(DecimalZ.of_to z'). by rewrite E1. }
  destruct e, e'; cbn [reported told app] in E; first [discriminate E | injection E as E]; subst;
    repeat match goal with H : int_text _ = int_text _ |- _ => apply (f_equal JNum), Hz in H; subst end; reflexivity.
Qed.
Lemma issuer_error_query e t : texts e = [t] → plain t →
  error_query (error_of e) = "error=" +:+ code_of e +:+ "&error_description=" +:+ UrlModel.percent_encode t.
Proof.
  intros E H. destruct e; cbn [texts] in E; simplify_eq; cbn [error_of]; by rewrite described_query.
Qed.
