(** Proofs about the status list. *)
From Coq Require Import Lia.
From Verif Require Import Base Json CoreModel VcModel StatusModel StatusSpec.

Local Opaque max_entries usize.

Lemma for_each_app {E A S} (f : S → A → outcome E S) s l l' :
  for_each f s (l ++ l') =
    match for_each f s l with Ok s' => for_each f s' l' | Err e => Err e | Panic w => Panic w end.
Proof. revert s. induction l as [|x l IH]; intros s; simpl; [done|]. destruct (f s x); [apply IH|done..]. Qed.

Lemma for_each_statuses checks c bits log :
  for_each (λ bits e, for_each (set_status checks c) bits (le_status e)) bits log =
  for_each (set_status checks c) bits (statuses log).
Proof.
  unfold statuses. revert bits. induction log as [|e log IH]; intros bits; simpl; [done|].
  rewrite for_each_app. destruct (for_each _ bits (le_status e)); [apply IH|done..].
Qed.

(** ** One status *)

(** What a status writes at bit [q]. *)
Definition writes (c : list_config) (s : status_value) (q : nat) : option bool :=
  if decide (sv_purpose s ≠ lc_purpose c) then None else
  match lc_purpose c with
  | Message =>
      if decide (N.to_nat (place c s) ≤ q < N.to_nat (place c s) + 8)
      then Some (N.testbit (sv_value s) (N.of_nat q - place c s)) else None
  | _ => if decide (q = N.to_nat (place c s)) then Some (negb (sv_value s =? 0)%N) else None
  end.

Lemma bit_set_ok {E} bits p b bits' :
  @bit_set E bits p b = Ok bits' → length bits' = length bits ∧ N.to_nat p < length bits ∧
  ∀ q, bits' !! q = if decide (q = N.to_nat p) then Some b else bits !! q.
Proof.
  unfold bit_set. destruct (Nat.ltb_spec (N.to_nat p) (length bits)) as [Hlt|]; [|done]. intros [= <-].
  split; [by rewrite insert_length|]. split; [done|]. intros q. destruct (decide (q = N.to_nat p)) as [->|Hne].
  - by apply list_lookup_insert.
  - by apply list_lookup_insert_ne.
Qed.
Lemma bit_set_fits {E} bits p b : N.to_nat p < length bits → ∃ bits', @bit_set E bits p b = Ok bits'.
Proof. intros H. unfold bit_set. apply Nat.ltb_lt in H as ->. eauto. Qed.
Lemma bit_set_no_err {E} bits p b e : @bit_set E bits p b ≠ Err e.
Proof. unfold bit_set. by destruct (Nat.ltb _ _). Qed.

Lemma set_message_loop {E} (p v : N) (l : list N) (bits bits' : list bool) :
  NoDup l → for_each (λ bits i, @bit_set E bits (p + i) (N.testbit v i)) bits l = Ok bits' →
  length bits' = length bits ∧
  ∀ q, (∀ i, i ∈ l → q = N.to_nat (p + i) → bits' !! q = Some (N.testbit v i)) ∧
       ((∀ i, i ∈ l → q ≠ N.to_nat (p + i)) → bits' !! q = bits !! q).
Proof.
  intros Hn. revert bits. induction Hn as [|i l Hi Hn IH]; intros bits; simpl.
  { intros [= <-]. split; [done|]. intros q. split; [|done]. by intros ? ?%elem_of_nil. }
  destruct (bit_set bits (p + i) _) as [b1| |] eqn:E1; [|done..].
  apply bit_set_ok in E1 as (Hl & _ & Hb). intros H. destruct (IH _ H) as [Hl' Hq]. split; [lia|].
  intros q. destruct (Hq q) as [H1 H2]. split.
  - intros j [->|Hj]%elem_of_cons ->; [|by apply H1]. rewrite H2.
    + rewrite Hb. by rewrite decide_True.
    + intros k Hk Heq. assert (k = i) as -> by lia. done.
  - intros Hne. rewrite H2; [|intros; apply Hne; by right]. rewrite Hb. rewrite decide_False; [done|].
    apply Hne. by left.
Qed.

Lemma set_message_ok {E} bits p v bits' :
  @set_message E bits p v = Ok bits' → length bits' = length bits ∧
  ∀ q, bits' !! q = if decide (N.to_nat p ≤ q < N.to_nat p + 8)
                    then Some (N.testbit v (N.of_nat q - p)) else bits !! q.
Proof.
  unfold set_message. intros H. apply set_message_loop in H as [Hl Hq]; [|by apply (bool_decide_unpack _); vm_compute].
  split; [done|]. intros q. destruct (Hq q) as [H1 H2].
  assert (∀ i : N, i ∈ [0; 1; 2; 3; 4; 5; 6; 7]%N ↔ (i < 8)%N) as Hin.
  { intros i. split.
    - intros Hi. repeat (apply elem_of_cons in Hi as [->|Hi]; [lia|]). by apply elem_of_nil in Hi.
    - intros Hi. apply elem_of_list_lookup. exists (N.to_nat i).
      destruct (decide (i = 0)%N) as [->|]; [done|]. destruct (decide (i = 1)%N) as [->|]; [done|].
      destruct (decide (i = 2)%N) as [->|]; [done|]. destruct (decide (i = 3)%N) as [->|]; [done|].
      destruct (decide (i = 4)%N) as [->|]; [done|]. destruct (decide (i = 5)%N) as [->|]; [done|].
      destruct (decide (i = 6)%N) as [->|]; [done|]. destruct (decide (i = 7)%N) as [->|]; [done|]. lia. }
  destruct (decide _) as [Hr|Hr].
  - rewrite (H1 (N.of_nat q - p)%N); [done|apply Hin; lia|lia].
  - apply H2. intros i Hi%Hin ->. apply Hr. lia.
Qed.

Lemma for_each_inv {E A S} (P : S → Prop) (f : S → A → outcome E S) l s :
  P s → (∀ s x, P s → x ∈ l → ∃ s', f s x = Ok s' ∧ P s') → ∃ s', for_each f s l = Ok s' ∧ P s'.
Proof.
  revert s. induction l as [|x l IH]; intros s Hs Hf; simpl; [eauto|].
  destruct (Hf s x Hs ltac:(by left)) as (s1 & -> & H1). apply IH; [done|].
  intros; apply Hf; [done|by right].
Qed.

Lemma set_message_fits {E} bits p v :
  N.to_nat p + 8 ≤ length bits → ∃ bits', @set_message E bits p v = Ok bits'.
Proof.
  intros H. destruct (for_each_inv (E := E) (λ b, length b = length bits)
    (λ bits i, bit_set bits (p + i) (N.testbit v i)) [0; 1; 2; 3; 4; 5; 6; 7]%N bits eq_refl) as (b & Hb & _); [|eauto].
  intros b i Hb Hi. destruct (bit_set_fits (E := E) b (p + i) (N.testbit v i)) as (b' & Hb').
  - rewrite Hb. repeat (apply elem_of_cons in Hi as [->|Hi]; [lia|]). by apply elem_of_nil in Hi.
  - exists b'. split; [done|]. apply bit_set_ok in Hb' as (-> & _). done.
Qed.
(** Writing past the end. *)
Lemma set_message_overruns {E} bits p v :
  N.to_nat p < length bits → length bits < N.to_nat p + 8 → @set_message E bits p v = Panic "index out of bounds".
Proof.
  intros H1 H2. unfold set_message.
  assert (∀ l bits0, length bits0 = length bits → (∃ i : N, i ∈ l ∧ length bits ≤ N.to_nat (p + i)) →
    for_each (λ bits i, @bit_set E bits (p + i) (N.testbit v i)) bits0 l = Panic "index out of bounds") as Hgen.
  { induction l as [|i l IH]; intros b Hb (j & Hj & Hlen); [by apply elem_of_nil in Hj|]. simpl.
    destruct (bit_set b (p + i) _) as [b'|e|w] eqn:Eb.
    - apply bit_set_ok in Eb as (Hl & Hlt & _). apply IH; [lia|]. apply elem_of_cons in Hj as [->|Hj]; [lia|eauto].
    - by apply bit_set_no_err in Eb.
    - unfold bit_set in Eb. destruct (Nat.ltb _ _); [done|]. by injection Eb as <-. }
  apply Hgen; [done|]. exists 7%N. split; [|lia]. apply elem_of_list_lookup. by exists 7.
Qed.

Lemma usize_mul_addressable {E} checks a b : (a * b < usize)%N → @usize_mul E checks a b = Ok (a * b)%N.
Proof. intros H. unfold usize_mul. apply N.ltb_lt in H as ->. done. Qed.

Lemma set_status_ok checks c bits s bits' :
  (sv_purpose s = lc_purpose c → place c s < usize)%N →
  set_status checks c bits s = Ok bits' →
  length bits' = length bits ∧ (sv_purpose s = lc_purpose c → place c s < N.of_nat (length bits))%N ∧
  ∀ q, q < length bits → bits' !! q = match writes c s q with Some b => Some b | None => bits !! q end.
Proof.
  intros Hadd. unfold set_status, writes. case_bool_decide as Hp.
  { intros [= <-]. split; [done|]. split; [done|]. intros q Hq. by rewrite decide_True. }
  
  rewrite usize_mul_addressable by (by apply Hadd). fold (place c s).
  destruct (N.leb_spec (N.of_nat (length bits)) (place c s)) as [|Hlt]; [done|].
  destruct (lc_purpose c).
  1,2: intros (Hl & _ & Hq)%bit_set_ok; split; [done|]; split; [done|]; intros q Hqq; rewrite Hq;
    rewrite (decide_False (P := sv_purpose s ≠ _)) by (intros Hn; by apply Hn); by destruct (decide _).
  intros (Hl & Hq)%set_message_ok. split; [done|]. split; [done|]. intros q Hqq. rewrite Hq.
  rewrite (decide_False (P := sv_purpose s ≠ _)) by (intros Hn; by apply Hn). by destruct (decide _).
Qed.

(** ** The list *)

Lemma last_such_cons {A} (P : A → Prop) x l y :
  last_such P (x :: l) y ↔ last_such P l y ∨ (x = y ∧ P x ∧ ∀ z, z ∈ l → ¬ P z).
Proof.
  split.
  - intros (l1 & l2 & Heq & Hy & Hn). destruct l1 as [|x' l1]; injection Heq as -> ->.
    + right. done.
    + left. exists l1, l2. done.
  - intros [(l1 & l2 & -> & Hy & Hn)|(-> & Hy & Hn)].
    + exists (x :: l1), l2. done.
    + exists [], l. done.
Qed.
Lemma last_such_unique {A} (P : A → Prop) l x y : last_such P l x → last_such P l y → x = y.
Proof.
  induction l as [|z l IH].
  { by intros (l1 & l2 & H & _); destruct l1. }
  intros [Hx|(<- & Hx & Hn)]%last_such_cons [Hy|(<- & Hy & Hn')]%last_such_cons; [by apply IH| | |done].
  - exfalso. destruct Hx as (l1 & l2 & -> & Hx & _). apply (Hn' x); [set_solver|done].
  - exfalso. destruct Hy as (l1 & l2 & -> & Hy & _). apply (Hn y); [set_solver|done].
Qed.
Lemma last_such_dec {A} (P : A → Prop) `{∀ x, Decision (P x)} l :
  (∃ x, last_such P l x) ∨ ∀ z, z ∈ l → ¬ P z.
Proof.
  induction l as [|x l [(y & Hy)|IH]].
  - right. intros ? ?%elem_of_nil. done.
  - left. exists y. apply last_such_cons. by left.
  - destruct (decide (P x)) as [Hx|Hx].
    + left. exists x. apply last_such_cons. by right.
    + right. intros z [->|Hz]%elem_of_cons; [done|by apply IH].
Qed.

Lemma writes_dec_is_some c s q : {∃ b, writes c s q = Some b} + {writes c s q = None}.
Proof. destruct (writes c s q); [left; eauto|by right]. Qed.

Lemma set_statuses_ok checks c l bits bits' :
  (∀ s, s ∈ l → sv_purpose s = lc_purpose c → place c s < usize)%N →
  for_each (set_status checks c) bits l = Ok bits' →
  length bits' = length bits ∧
  (∀ s, s ∈ l → sv_purpose s = lc_purpose c → place c s < N.of_nat (length bits))%N ∧
  ∀ q, q < length bits →
    (∀ s b, last_such (λ s, is_Some (writes c s q)) l s → writes c s q = Some b → bits' !! q = Some b) ∧
    ((∀ s, s ∈ l → writes c s q = None) → bits' !! q = bits !! q).
Proof.
  revert bits. induction l as [|s l IH]; intros bits Hadd; simpl.
  { intros [= <-]. split; [done|]. split; [by intros ? ?%elem_of_nil|]. intros q Hq. split; [|done].
    by intros ? ? (l1 & l2 & H & _); destruct l1. }
  destruct (set_status checks c bits s) as [b1| |] eqn:E1; [|done..].
  apply set_status_ok in E1 as (Hl & Hin & Hb); [|apply Hadd; by left].
  intros H. destruct (IH b1) as (Hl' & Hin' & Hq'); [intros; apply Hadd; [by right|done]|done|].
  split; [lia|]. split.
  { intros s' [->|Hs]%elem_of_cons Hp; [by apply Hin|]. rewrite <-Hl. by apply Hin'. }
  intros q Hq. destruct (Hq' q ltac:(lia)) as [H1 H2]. split.
  - intros s' b [Hlast|(-> & Hx & Hn)]%last_such_cons Hw; [by eapply H1|].
    rewrite H2.
    + rewrite Hb by done. by rewrite Hw.
    + intros z Hz. destruct (writes c z q) eqn:Ez; [|done]. exfalso. apply (Hn z Hz). rewrite Ez. eauto.
  - intros Hn. rewrite H2 by (intros; apply Hn; by right). rewrite Hb by done. rewrite Hn by (by left). done.
Qed.

Lemma set_statuses_fine checks c l bits :
  (∀ s, s ∈ l → sv_purpose s = lc_purpose c → place c s < usize)%N →
  lc_purpose c ≠ Message →
  (∀ s, s ∈ l → sv_purpose s = lc_purpose c → place c s < N.of_nat (length bits))%N →
  ∃ bits', for_each (set_status checks c) bits l = Ok bits'.
Proof.
  intros Hadd Hm Hin.
  destruct (for_each_inv (λ b, length b = length bits) (set_status checks c) l bits eq_refl) as (b & Hb & _); [|eauto].
  intros b s Hb Hs. destruct (set_status checks c b s) as [b'|e|w] eqn:E.
  - exists b'. split; [done|]. apply set_status_ok in E as (-> & _); [done|by apply Hadd].
  - exfalso. unfold set_status in E. case_bool_decide as Hp; [done|]. 
    rewrite usize_mul_addressable in E by (by apply Hadd). fold (place c s) in E.
    specialize (Hin s Hs Hp). destruct (N.leb_spec (N.of_nat (length b)) (place c s)) as [|]; [lia|].
    destruct (lc_purpose c); [| |done]; by apply bit_set_no_err in E.
  - exfalso. unfold set_status in E. case_bool_decide as Hp; [done|]. 
    rewrite usize_mul_addressable in E by (by apply Hadd). fold (place c s) in E.
    specialize (Hin s Hs Hp). destruct (N.leb_spec (N.of_nat (length b)) (place c s)) as [|]; [done|].
    destruct (bit_set_fits (E := string) b (place c s) (negb (sv_value s =? 0)%N) ltac:(lia)) as (b' & Hb').
    destruct (lc_purpose c); [..|done]; rewrite Hb' in E; done.
Qed.

(** An entry beyond the end stops everything. *)
Lemma set_statuses_err checks c l bits :
  (∀ s, s ∈ l → sv_purpose s = lc_purpose c → place c s < usize)%N →
  lc_purpose c ≠ Message →
  (∃ s, s ∈ l ∧ sv_purpose s = lc_purpose c ∧ N.of_nat (length bits) ≤ place c s)%N →
  for_each (set_status checks c) bits l = Err "status index out of range".
Proof.
  revert bits. induction l as [|s l IH]; intros bits Hadd Hm (s' & Hs' & Hp' & Hout); [by apply elem_of_nil in Hs'|].
  simpl. destruct (set_status checks c bits s) as [b1|e|w] eqn:E1.
  - apply set_status_ok in E1 as (Hl & Hin & _); [|apply Hadd; by left].
    apply IH; [intros; apply Hadd; [by right|done]|done|]. rewrite Hl.
    apply elem_of_cons in Hs' as [->|Hs']; [specialize (Hin Hp'); lia|eauto].
  - f_equal. unfold set_status in E1. case_bool_decide as Hp; [done|]. 
    rewrite usize_mul_addressable in E1 by (apply Hadd; [by left|done]).
    destruct (N.leb_spec (N.of_nat (length bits)) (sv_list_index s * lc_size c)) as [|]; [by injection E1|].
    destruct (lc_purpose c); [..|done]; by apply bit_set_no_err in E1.
  - exfalso. unfold set_status in E1. case_bool_decide as Hp; [done|]. 
    rewrite usize_mul_addressable in E1 by (apply Hadd; [by left|done]). fold (place c s) in E1.
    destruct (N.leb_spec (N.of_nat (length bits)) (place c s)) as [|]; [done|].
    destruct (bit_set_fits (E := string) bits (place c s) (negb (sv_value s =? 0)%N) ltac:(lia)) as (b' & Hb').
    destruct (lc_purpose c); [..|done]; rewrite Hb' in E1; done.
Qed.

(** ** The text *)

Lemma text_length bits : String.length (bits_text bits) = length bits.
Proof. unfold bits_text. induction bits as [|b bits IH]; simpl; [done|]. by f_equal. Qed.
Lemma text_get bits p : String.get p (bits_text bits) = bit_char <$> bits !! p.
Proof. unfold bits_text. revert p. induction bits as [|b bits IH]; intros [|p]; simpl; [done..|]. apply IH. Qed.

Lemma bits_length : length (replicate (N.to_nat max_entries) false) = N.to_nat max_entries.
Proof. apply replicate_length. Qed.

(** ** C55 *)

Lemma list_bits cd checks c log out :
  lc_purpose c ≠ Message → addressable c log → bitstring cd checks c log = Ok out →
  ∃ text, out = cd_base64 cd (cd_gzip cd text) ∧ String.length text = N.to_nat max_entries ∧
    ∀ p, (p < max_entries)%N →
      (String.get (N.to_nat p) text = Some "1"%char ↔
         ∃ s, last_such (at_place c p) (statuses log) s ∧ sv_value s ≠ 0%N) ∧
      (String.get (N.to_nat p) text = Some "0"%char ↔
         ¬ ∃ s, last_such (at_place c p) (statuses log) s ∧ sv_value s ≠ 0%N).
Proof.
  intros Hm Hadd. unfold bitstring, status_bits. rewrite for_each_statuses.
  destruct (for_each _ _ (statuses log)) as [bits| |] eqn:E; [|done..]. intros [= <-].
  exists (bits_text bits). split; [done|]. rewrite text_length.
  apply set_statuses_ok in E as (Hl & _ & Hq); [|done]. rewrite bits_length in Hl, Hq. split; [done|].
  intros p Hp. rewrite text_get.
  specialize (Hq (N.to_nat p) ltac:(lia)) as [H1 H2].
  assert (∀ s, is_Some (writes c s (N.to_nat p)) ↔ at_place c p s) as Hw.
  { intros s. unfold writes, at_place. destruct (decide _) as [Hd|Hd].
    - split; [by intros [? ?]|]. by intros [? _].
    - apply dec_stable in Hd. destruct (lc_purpose c); [| |done].
      all: destruct (decide _) as [He|He]; (split; [intros [? ?]|intros [_ Hpl]]); try done; try lia; eauto; split; (done || lia). }
  assert (∀ s, at_place c p s → writes c s (N.to_nat p) = Some (negb (sv_value s =? 0)%N)) as Hwv.
  { intros s Hs. pose proof (proj2 (Hw s) Hs) as [b Hb]. rewrite Hb. unfold writes in Hb.
    destruct (decide _); [done|]. destruct (lc_purpose c); [| |done]; by destruct (decide _). }
  assert (∀ s, last_such (at_place c p) (statuses log) s ↔ last_such (λ s, is_Some (writes c s (N.to_nat p))) (statuses log) s) as Hls.
  { intros s. split; intros (l1 & l2 & Heq & Hs & Hn); exists l1, l2; (split; [done|]); (split; [by apply Hw|]);
      intros y Hy Hc; by apply (Hn y Hy), Hw. }
  destruct (last_such_dec (λ s, is_Some (writes c s (N.to_nat p))) (statuses log)) as [(s & Hs)|Hnone].
  - assert (at_place c p s) as Hat by (destruct Hs as (? & ? & _ & ? & _); by apply Hw).
    rewrite (H1 s _ Hs (Hwv s Hat)). simpl.
    assert ((∃ s, last_such (at_place c p) (statuses log) s ∧ sv_value s ≠ 0%N) ↔ sv_value s ≠ 0%N) as ->.
    { split; [|intros; exists s; split; [by apply Hls|done]].
      intros (s' & Hs' & Hv). by rewrite (last_such_unique _ _ _ _ Hs (proj1 (Hls s') Hs')). }
    destruct (N.eqb_spec (sv_value s) 0); simpl; naive_solver.
  - rewrite H2.
    2: { intros s Hs. destruct (writes c s (N.to_nat p)) eqn:Ew; [|done]. exfalso. apply (Hnone s Hs). by rewrite Ew. }
    rewrite lookup_replicate_2 by lia. simpl.
    assert (¬ ∃ s, last_such (at_place c p) (statuses log) s ∧ sv_value s ≠ 0%N).
    { intros (s & (l1 & l2 & Heq & Hs & _) & _). apply (Hnone s); [rewrite Heq; set_solver|by apply Hw]. }
    split; [split; [done|]|]; naive_solver.
Qed.

Lemma list_iff cd checks c log :
  lc_purpose c ≠ Message → addressable c log →
  ((∃ out, bitstring cd checks c log = Ok out) ↔
     ∀ s, s ∈ statuses log → sv_purpose s = lc_purpose c → (place c s < max_entries)%N) ∧
  ((∃ e, bitstring cd checks c log = Err e) ↔
     ∃ s, s ∈ statuses log ∧ sv_purpose s = lc_purpose c ∧ (max_entries ≤ place c s)%N).
Proof.
  intros Hm Hadd. unfold bitstring, status_bits. rewrite for_each_statuses.
  set (P s := sv_purpose s = lc_purpose c ∧ (max_entries ≤ place c s)%N).
  assert (∀ s, Decision (P s)) as HP by (intros; unfold P; apply _).
  destruct (decide (Exists P (statuses log))) as [Hex%Exists_exists|Hno].
  - rewrite set_statuses_err; [|done..|].
    2: { destruct Hex as (s & Hs & Hp & Hle). exists s. rewrite bits_length. split; [done|]. split; [done|]. lia. }
    split; [split; [by intros (? & ?)|]|].
    + intros Hall. destruct Hex as (s & Hs & Hp & Hle). specialize (Hall s Hs Hp). lia.
    + split; [|eauto]. intros _. destruct Hex as (s & Hs & Hp & Hle). eauto.
  - assert (∀ s, s ∈ statuses log → sv_purpose s = lc_purpose c → (place c s < max_entries)%N) as Hall.
    { intros s Hs Hp. destruct (N.ltb_spec (place c s) max_entries); [done|]. exfalso. apply Hno, Exists_exists.
      exists s. done. }
    destruct (set_statuses_fine checks c (statuses log) (replicate (N.to_nat max_entries) false)) as (bits & ->);
      [done..| |].
    { intros s Hs Hp. rewrite bits_length. specialize (Hall s Hs Hp). lia. }
    split; [split; [done|eauto]|]. split; [by intros (? & ?)|].
    intros (s & Hs & Hp & Hle). specialize (Hall s Hs Hp). lia.
Qed.

(** ** C56 *)

Lemma set_statuses_filter checks c l bits :
  for_each (set_status checks c) bits l =
  for_each (set_status checks c) bits (filter (λ s, sv_purpose s = lc_purpose c) l).
Proof.
  revert bits. induction l as [|s l IH]; intros bits; [done|].
  destruct (decide (sv_purpose s = lc_purpose c)) as [Hp|Hp].
  - rewrite filter_cons_True by done. simpl. destruct (set_status checks c bits s); [apply IH|done..].
  - rewrite filter_cons_False by done. simpl. unfold set_status at 1. rewrite bool_decide_true by done. apply IH.
Qed.
Lemma list_own_purpose cd checks c log log' :
  filter (λ s, sv_purpose s = lc_purpose c) (statuses log) =
  filter (λ s, sv_purpose s = lc_purpose c) (statuses log') →
  bitstring cd checks c log = bitstring cd checks c log'.
Proof.
  intros H. unfold bitstring, status_bits. rewrite !for_each_statuses.
  rewrite (set_statuses_filter _ _ (statuses log)), (set_statuses_filter _ _ (statuses log')). by rewrite H.
Qed.

(** ** C57 *)

Lemma wide_entries cd checks c log :
  lc_purpose c = Message → (8 ≤ lc_size c)%N → addressable c log →
  (∀ s, s ∈ statuses log → sv_purpose s = Message → (place c s + 8 ≤ max_entries)%N) →
  ∃ text, bitstring cd checks c log = Ok (cd_base64 cd (cd_gzip cd text)) ∧
    String.length text = N.to_nat max_entries ∧
    (∀ s i, last_such (at_place c (place c s)) (statuses log) s → (i < 8)%N →
       String.get (N.to_nat (place c s + i)) text = Some (if N.testbit (sv_value s) i then "1" else "0")%char) ∧
    ∀ p, (p < max_entries)%N →
      (∀ s, s ∈ statuses log → sv_purpose s = Message → ¬ (place c s ≤ p < place c s + 8)%N) →
      String.get (N.to_nat p) text = Some "0"%char.
Proof.
  intros Hm Hsz Hadd Hfit.
  destruct (for_each_inv (λ b, length b = N.to_nat max_entries) (set_status checks c) (statuses log)
    (replicate (N.to_nat max_entries) false) bits_length) as (bits & Hbits & Hlen).
  { intros b s Hb Hs. destruct (decide (sv_purpose s = lc_purpose c)) as [Hp|Hp].
    - specialize (Hfit s Hs ltac:(congruence)).
      destruct (set_message_fits (E := string) b (place c s) (sv_value s) ltac:(lia)) as (b' & Hb').
      exists b'. split; [|apply set_message_ok in Hb' as [-> _]; done].
      unfold set_status. rewrite bool_decide_false by (intros Hn; by apply Hn).
      rewrite usize_mul_addressable by (by apply Hadd). fold (place c s).
      destruct (N.leb_spec (N.of_nat (length b)) (place c s)); [lia|]. by rewrite Hm.
    - exists b. split; [|done]. unfold set_status. by rewrite bool_decide_true. }
  exists (bits_text bits). unfold bitstring, status_bits. rewrite for_each_statuses, Hbits.
  split; [done|]. rewrite text_length. split; [done|].
  apply set_statuses_ok in Hbits as (_ & _ & Hq); [|done]. rewrite bits_length in Hq. split.
  - intros s i Hlast Hi.
    assert (s ∈ statuses log ∧ sv_purpose s = lc_purpose c) as [Hs Hp].
    { destruct Hlast as (l1 & l2 & Heq & [Hp _] & _). split; [rewrite Heq; set_solver|done]. }
    specialize (Hfit s Hs ltac:(congruence)).
    rewrite text_get.
    destruct (Hq (N.to_nat (place c s + i)) ltac:(lia)) as [H1 _].
    assert (∀ s', is_Some (writes c s' (N.to_nat (place c s + i))) ↔ at_place c (place c s) s') as Hw.
    { intros s'. unfold writes, at_place. destruct (decide _) as [Hd|Hd].
      - split; [by intros [? ?]|]. by intros [? _].
      - apply dec_stable in Hd. rewrite Hm. destruct (decide _) as [He|He].
        + split; [|eauto]. intros _. split; [congruence|]. unfold place in *.
          assert (sv_list_index s' = sv_list_index s) as -> by nia. done.
        + split; [by intros [? ?]|]. intros [_ Hpl]. lia. }
    rewrite (H1 s (N.testbit (sv_value s) i)).
    + simpl. by destruct (N.testbit _ _).
    + destruct Hlast as (l1 & l2 & Heq & Hat & Hn). exists l1, l2. split; [done|]. split; [by apply Hw|].
      intros y Hy Hc. by apply (Hn y Hy), Hw.
    + unfold writes. rewrite decide_False by (intros Hn; by apply Hn). rewrite Hm.
      rewrite decide_True by lia. do 2 f_equal. lia.
  - intros p Hp Hno. rewrite text_get. destruct (Hq (N.to_nat p) ltac:(lia)) as [_ H2]. rewrite H2.
    + by rewrite lookup_replicate_2 by lia.
    + intros s Hs. unfold writes. destruct (decide _) as [Hd|Hd]; [done|]. apply dec_stable in Hd. rewrite Hm.
      apply decide_False. specialize (Hno s Hs ltac:(congruence)). lia.
Qed.

(** ** C58 *)

Lemma never_published issuer c base bits ttl now sign :
  status_credential issuer c base bits ttl now sign = Err "no context set".
Proof. done. Qed.

Lemma ends_with_slash s : ends_with "/" (s +:+ "/") = true.
Proof.
  induction s as [|c s IH]; [done|]. change (String c s +:+ "/") with (String c (s +:+ "/")).
  cbn [ends_with]. destruct (s +:+ "/") eqn:E; [by destruct s|done].
Qed.
Lemma ends_with_iff s : ends_with "/" s = true → ∃ p, s = p +:+ "/".
Proof.
  induction s as [|c s IH]; [done|]. cbn [ends_with]. destruct s as [|c' s].
  - intros <-%bool_decide_eq_true. by exists "".
  - intros H. destruct (IH H) as [p ->]. by exists (String c p).
Qed.
Lemma list_address issuer c base bits ttl : (∀ p, base ≠ p +:+ "/") → ∀ b, b = base ∨ b = base +:+ "/" →
  let v := status_list_vc issuer c b bits ttl in
  let url := base +:+ "//" +:+ pretty (lc_list c) in
  vc_id v = Some url ∧ vc_issuer v = KString issuer ∧
  vc_type v = QMany ["VerifiableCredential"; "BitstringStatusListCredential"] ∧
  ∃ m, vc_subject v = QOne (CredentialSubject (Some (url +:+ "#list")) m) ∧
    m ≡ₚ [("type", JStr "BitstringStatusList"); ("purpose", JStr (purpose_name (lc_purpose c))); ("encodedList", JStr bits);
          ("ttl", JNum (pretty (default 300000%N ttl)))].
Proof.
  intros Hn b Hb.
  assert ((if ends_with "/" b then b else b +:+ "/") +:+ "/" +:+ pretty (lc_list c) = base +:+ "//" +:+ pretty (lc_list c)) as E.
  { assert ((if ends_with "/" b then b else b +:+ "/") = base +:+ "/") as ->.
    { destruct Hb as [->| ->]; [|by rewrite ends_with_slash].
      destruct (ends_with "/" base) eqn:E; [|done]. apply ends_with_iff in E as [p ->]. by destruct (Hn p). }
    clear. induction base as [|a base IH]; [done|]. exact (f_equal (String a) IH). }
  unfold status_list_vc. cbv zeta. rewrite E. repeat (split; [reflexivity|]). eexists. split; [reflexivity|].
  assert (purpose_text = purpose_name) as -> by reflexivity. solve_Permutation.
Qed.

Lemma text_w3c cd checks c log out :
  bitstring cd checks c log = Ok out →
  ∃ text, out = cd_base64 cd (cd_gzip cd text) ∧ w3c_bit text 0 = Some false ∧ w3c_bit text 2 = Some true.
Proof.
  unfold bitstring, status_bits. rewrite for_each_statuses.
  destruct (for_each _ _ (statuses log)) as [bits| |] eqn:E; [|done..]. intros [= <-].
  exists (bits_text bits). split; [done|].
  assert (∃ b, bits !! 0 = Some b) as (b & Hb).
  { apply lookup_lt_is_Some. assert (0 < max_entries)%N by (vm_compute; reflexivity).
    assert (length bits = N.to_nat max_entries) as ->; [|lia].
    assert (∀ l b0 b1, for_each (set_status checks c) b0 l = Ok b1 → length b1 = length b0) as Hgen.
    { clear. induction l as [|s l IH]; intros b0 b1; simpl; [by intros [= ->]|].
      destruct (set_status checks c b0 s) as [b2| |] eqn:E; [|done..]. intros H%IH. rewrite H.
      unfold set_status in E. case_bool_decide; [by injection E as ->|].
      destruct (usize_mul _ _ _); [|done..]. destruct (_ <=? _)%N; [done|].
      destruct (lc_purpose c); [by apply bit_set_ok in E as [? _]..|by apply set_message_ok in E as [? _]]. }
    rewrite (Hgen _ _ _ E). apply bits_length. }
  pose proof (text_get bits 0) as Ht. rewrite Hb in Ht. simpl in Ht.
  unfold w3c_bit. change (0 / 8) with 0. change (2 / 8) with 0. rewrite Ht. by destruct b.
Qed.

Lemma list_decodes cd checks c log out unbase64 gunzip :
  (∀ s, unbase64 (cd_base64 cd s) = s) → (∀ s, gunzip (cd_gzip cd s) = s) →
  bitstring cd checks c log = Ok out →
  ∃ bits, status_bits checks c log = Ok bits ∧ String.length (gunzip (unbase64 out)) = length bits ∧
    ∀ p, String.get p (gunzip (unbase64 out)) = bit_char <$> bits !! p.
Proof.
  intros H1 H2. unfold bitstring. destruct (status_bits checks c log) as [bits| |]; [|done..]. intros [= <-].
  exists bits. rewrite H1, H2. split; [done|]. split; [apply text_length|]. intros. apply text_get.
Qed.

Lemma end_of_list cd checks c i v :
  lc_purpose c = Message → (i * lc_size c < max_entries)%N → (max_entries < i * lc_size c + 8)%N →
  ∃ why, bitstring cd checks c [StatusLogEntry "" "" [StatusValue Message i v]] = Panic why.
Proof.
  intros Hm Hlt Hgt. assert (max_entries < usize)%N as Hmu by (vm_compute; reflexivity).
  exists "index out of bounds". unfold bitstring, status_bits. simpl for_each. unfold set_status. simpl sv_purpose.
  rewrite bool_decide_false by (intros H; by apply H). simpl sv_list_index.
  rewrite usize_mul_addressable by lia.
  destruct (N.leb_spec (N.of_nat (length (replicate (N.to_nat max_entries) false))) (i * lc_size c)) as [Hle|].
  { rewrite bits_length in Hle. lia. }
  rewrite Hm. rewrite set_message_overruns; [done|rewrite bits_length; lia..].
Qed.

(** Entries of one bit. *)
Lemma last_such_iff {A} (P Q : A → Prop) l x : (∀ x, P x ↔ Q x) → last_such P l x ↔ last_such Q l x.
Proof.
  intros H. split; intros (l1 & l2 & Heq & Hx & Hn); exists l1, l2; (split; [done|]); (split; [by apply H|]);
    intros y Hy Hc; by apply (Hn y Hy), H.
Qed.
Lemma addressable_1 c log :
  lc_size c = 1%N → (∀ s, s ∈ statuses log → sv_list_index s < 2 ^ 64)%N → addressable c log.
Proof. intros Hs Hall s Hin _. unfold place. rewrite Hs, N.mul_1_r. by apply Hall. Qed.
Lemma list_bits_1 cd checks c log out :
  lc_purpose c ≠ Message → lc_size c = 1%N →
  (∀ s, s ∈ statuses log → sv_list_index s < 2 ^ 64)%N →
  bitstring cd checks c log = Ok out →
  ∃ text, out = cd_base64 cd (cd_gzip cd text) ∧ String.length text = N.to_nat max_entries ∧
    ∀ p, (p < max_entries)%N →
      let revoked := ∃ s, last_such (λ s, sv_purpose s = lc_purpose c ∧ sv_list_index s = p) (statuses log) s ∧
                          sv_value s ≠ 0%N in
      (String.get (N.to_nat p) text = Some "1"%char ↔ revoked) ∧
      (String.get (N.to_nat p) text = Some "0"%char ↔ ¬ revoked).
Proof.
  intros Hm Hs Hall Hb. destruct (list_bits cd checks c log out Hm (addressable_1 c log Hs Hall) Hb) as (text & -> & Hl & Hp).
  exists text. split; [done|]. split; [done|]. intros p Hlt revoked. destruct (Hp p Hlt) as [H1 H2].
  assert (revoked ↔ ∃ s, last_such (at_place c p) (statuses log) s ∧ sv_value s ≠ 0%N) as Hr.
  { unfold revoked. split; intros (s & Hl' & Hv); exists s; (split; [|done]);
      (eapply last_such_iff; [|exact Hl']); intros x; unfold at_place, place; by rewrite Hs, N.mul_1_r. }
  rewrite Hr. done.
Qed.
Lemma list_iff_1 cd checks c log :
  lc_purpose c ≠ Message → lc_size c = 1%N →
  (∀ s, s ∈ statuses log → sv_list_index s < 2 ^ 64)%N →
  ((∃ out, bitstring cd checks c log = Ok out) ↔
     ∀ s, s ∈ statuses log → sv_purpose s = lc_purpose c → (sv_list_index s < max_entries)%N) ∧
  ((∃ e, bitstring cd checks c log = Err e) ↔
     ∃ s, s ∈ statuses log ∧ sv_purpose s = lc_purpose c ∧ (max_entries ≤ sv_list_index s)%N).
Proof.
  intros Hm Hs Hall. destruct (list_iff cd checks c log Hm (addressable_1 c log Hs Hall)) as [H1 H2].
  unfold place in H1, H2. rewrite Hs in H1, H2. setoid_rewrite N.mul_1_r in H1. setoid_rewrite N.mul_1_r in H2. done.
Qed.
