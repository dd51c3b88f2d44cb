(** Text that is nested too deep is not read. *)
From Coq Require Import Lia.
From Verif Require Import Base StringSpec Json MatcherModel JsonParse JsonText.
Local Arguments String.append : simpl never.

Lemma parse_elems_deep d l n rest :
  Forall (λ x, jnumbers x ∧ (d ≤ jdepth x → ∀ rest, stops rest → parse_value d (json_text x +:+ rest) = None)) l →
  (∃ x, x ∈ l ∧ d ≤ jdepth x) →
  parse_elems (parse_value d) n (commas (map json_text l) +:+ String "]" rest) = None.
Proof.
  revert n. induction l as [|x l IH]; intros n H (y & Hy & Hd); [by apply elem_of_nil in Hy|].
  apply Forall_cons in H as [[Hn Hx] Hl]. destruct n as [|n]; [done|]. destruct l as [|z l].
  - apply elem_of_list_singleton in Hy as ->. cbn [parse_elems map commas]. rewrite Hx; [done|done|by apply stops_char].
  - change (commas (map json_text (x :: z :: l))) with (json_text x +:+ "," +:+ commas (map json_text (z :: l))).
    rewrite !append_assoc. rewrite append_cons, append_nil. cbn [parse_elems].
    destruct (decide (d ≤ jdepth x)) as [Hle|Hgt]; [rewrite Hx; [done|done|by apply stops_char]|].
    rewrite parse_value_text; [|done|lia|by apply stops_char].
    cbn [skip_ws]. change (ws ",") with false. cbn match. rewrite IH; [done|done|].
    apply elem_of_cons in Hy as [->|Hy]; [lia|]. eauto.
Qed.
Lemma parse_entry_deep d kv rest : (∀ rest, stops rest → parse_value d (json_text kv.2 +:+ rest) = None) → stops rest →
  parse_entry (parse_value d) (entry_text kv +:+ rest) = None.
Proof.
  intros Hp Hs. assert (entry_text kv +:+ rest =
    String """" (json_escapes kv.1 +:+ String """" (String ":" (json_text kv.2 +:+ rest)))) as ->.
  { unfold entry_text, json_quote. by rewrite ?append_assoc, ?append_cons, ?append_nil, ?append_assoc, ?append_cons. }
  unfold parse_entry. cbn [skip_ws]. change (ws """") with false. cbn match.
  change (Nat.eqb (nat_of_ascii """") 34) with true. cbn match. rewrite parse_escapes.
  cbn [skip_ws]. change (ws ":") with false. cbn match. by rewrite Hp.
Qed.
Lemma parse_entries_deep d l n rest :
  Forall (λ kv, jnumbers kv.2 ∧ (d ≤ jdepth kv.2 → ∀ rest, stops rest → parse_value d (json_text kv.2 +:+ rest) = None)) l →
  (∃ x, x ∈ l ∧ d ≤ jdepth x.2) →
  parse_entries (parse_value d) n (commas (map entry_text l) +:+ String "}" rest) = None.
Proof.
  revert n. induction l as [|x l IH]; intros n H (y & Hy & Hd); [by apply elem_of_nil in Hy|].
  apply Forall_cons in H as [[Hn Hx] Hl]. destruct n as [|n]; [done|]. destruct l as [|z l].
  - apply elem_of_list_singleton in Hy as ->. cbn [parse_entries map commas].
    rewrite parse_entry_deep; [done|by apply Hx|by apply stops_char].
  - change (commas (map entry_text (x :: z :: l))) with (entry_text x +:+ "," +:+ commas (map entry_text (z :: l))).
    rewrite !append_assoc. rewrite append_cons, append_nil. cbn [parse_entries].
    destruct (decide (d ≤ jdepth x.2)) as [Hle|Hgt]; [rewrite parse_entry_deep; [done|by apply Hx|by apply stops_char]|].
    rewrite parse_entry_text; [| |by apply stops_char].
    2:{ intros r Hr. apply parse_value_text; [done|lia|done]. }
    cbn [skip_ws]. change (ws ",") with false. cbn match. rewrite IH; [done|done|].
    apply elem_of_cons in Hy as [->|Hy]; [lia|]. eauto.
Qed.
Lemma list_max_ge {A} (f : A → nat) l d : d ≠ 0 → d ≤ list_max (map f l) → ∃ x, x ∈ l ∧ d ≤ f x.
Proof.
  intros H0. induction l as [|x l IH]; simpl; [lia|]. intros H. destruct (decide (d ≤ f x)); [exists x; split; [by left|done]|].
  destruct IH as (y & Hy & Hd); [lia|]. exists y. split; [by right|done].
Qed.
Lemma parse_value_deep j : ∀ d rest, jnumbers j → d ≤ jdepth j → stops rest → parse_value d (json_text j +:+ rest) = None.
Proof.
  induction j as [|b|t|s|l IH|m IH] using json_ind'; intros d rest Hn Hd Hs; (destruct d as [|d]; [done|]);
    try (simpl in Hd; lia).
  - cbn [jdepth] in Hd. apply jnumbers_arr in Hn. cbn [json_text]. rewrite !append_assoc. rewrite !append_cons, !append_nil.
    destruct d as [|d].
    { cbn [parse_value skip_ws]. by change (ws "[") with false. }
    destruct (list_max_ge jdepth l (S d)) as (x & Hx & Hdx); [done|lia|].
    remember (S d) as d1 eqn:Ed. cbn [parse_value skip_ws]. change (ws "[") with false. cbn match.
    assert (starts (commas (map json_text l) +:+ String "]" rest)) as Hst.
    { destruct l as [|y l]; [by apply elem_of_nil in Hx|]. apply Forall_cons in Hn as [Hy _]. apply json_text_starts in Hy.
      apply starts_app. destruct l; [done|]. by apply (starts_app (json_text y)). }
    rewrite (skip_starts _ Hst). destruct Hst as (c & r & E & _ & Hc & _). rewrite E.
    assert (parse_elems (parse_value d1) (String.length (String c r)) (String c r) = None) as ->.
    { rewrite <-E. apply parse_elems_deep; [|by eauto]. apply Forall_forall. intros y Hy.
      pose proof (proj1 (Forall_forall _ _) Hn y Hy). split; [done|]. intros Hle rest' Hs'.
      by apply (proj1 (Forall_forall _ _) IH y Hy). }
    subst d1. clear -Hc. destruct c as [[] [] [] [] [] [] [] []]; try reflexivity; done.
  - cbn [jdepth] in Hd. apply jnumbers_obj in Hn. rewrite json_text_obj. rewrite !append_assoc. rewrite !append_cons, !append_nil.
    destruct d as [|d].
    { cbn [parse_value skip_ws]. by change (ws "{") with false. }
    destruct (list_max_ge (λ kv, jdepth kv.2) m (S d)) as (x & Hx & Hdx); [done|lia|].
    remember (S d) as d1 eqn:Ed. cbn [parse_value skip_ws]. change (ws "{") with false. cbn match.
    assert (starts (commas (map entry_text m) +:+ String "}" rest)) as Hst.
    { destruct m as [|y m]; [by apply elem_of_nil in Hx|]. apply starts_app.
      pose proof (starts_app _ (":" +:+ json_text y.2) (json_quote_starts y.1)).
      destruct m; [done|]. by apply (starts_app (entry_text y)). }
    rewrite (skip_starts _ Hst). destruct Hst as (c & r & E & _ & _ & Hc). rewrite E.
    assert (parse_entries (parse_value d1) (String.length (String c r)) (String c r) = None) as ->.
    { rewrite <-E. apply parse_entries_deep; [|by eauto]. apply Forall_forall. intros y Hy.
      pose proof (proj1 (Forall_forall _ _) Hn y Hy). split; [done|]. intros Hle rest' Hs'.
      by apply (proj1 (Forall_forall _ _) IH y Hy). }
    subst d1. clear -Hc. destruct c as [[] [] [] [] [] [] [] []]; try reflexivity; done.
Qed.
Theorem parse_json_deep j : jnumbers j → depth_limit ≤ jdepth j → parse_json (json_text j) = None.
Proof.
  intros Hn Hd. unfold parse_json. rewrite <-(append_nil_r (json_text j)).
  by rewrite (parse_value_deep j depth_limit "" Hn Hd I).
Qed.
