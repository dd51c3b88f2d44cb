From Verif Require Import Base Sha256 GenModel GenSpec.

Lemma random_string_length draws cs s : random_string draws cs = Some s → String.length s = length draws.
Proof.
  revert s. induction draws as [|d r IH]; simpl; intros s; [by intros [= <-]|].
  destruct (String.get d cs), (random_string r cs); try done. intros [= <-]. simpl. f_equal. by apply IH.
Qed.
Lemma random_string_chars P draws cs s :
  every_char P cs → random_string draws cs = Some s → every_char P s.
Proof.
  intros HP. revert s. induction draws as [|d r IH]; simpl; intros s; [by intros [= <-] [|?] c|].
  destruct (String.get d cs) as [c0|] eqn:Ec, (random_string r cs); try done. intros [= <-] [|i] c; simpl.
  - intros [= <-]. by eapply HP.
  - by apply IH.
Qed.
Lemma get_lt s i : i < String.length s → is_Some (String.get i s).
Proof. revert i. induction s as [|c s IH]; intros [|i] H; simpl in *; [lia|lia|eauto|apply IH; lia]. Qed.
Lemma random_string_some len cs draws : drawn len cs draws → is_Some (random_string draws cs).
Proof.
  intros [_ H]. induction draws as [|d r IH]; simpl; [eauto|].
  destruct (get_lt cs d) as [c ->]; [apply H; by left|].
  destruct IH as [s ->]; [intros x Hx; apply H; by right|]. eauto.
Qed.

(** A property of every character of a literal, by computation. *)
Fixpoint all_ascii (P : ascii → bool) (s : string) : bool :=
  match s with EmptyString => true | String c r => P c && all_ascii P r end.
Lemma every_all (P : ascii → Prop) (p : ascii → bool) s :
  (∀ c, p c = true → P c) → all_ascii p s = true → every_char P s.
Proof.
  intros Hp. induction s as [|c0 s IH]; intros H [|i] c; simpl in *; [done|done| |].
  - intros [= <-]. apply andb_true_iff in H as [H _]. by apply Hp.
  - apply andb_true_iff in H as [_ H]. by apply IH.
Qed.
Definition between_b lo hi c := Nat.leb lo (nat_of_ascii c) && Nat.leb (nat_of_ascii c) hi.
Lemma between_b_ok lo hi c : between_b lo hi c = true → between lo hi c.
Proof. unfold between_b, between. intros H. apply andb_true_iff in H as [H1 H2]. apply Nat.leb_le in H1, H2. done. Qed.
Definition class_b (extra : list ascii) c :=
  between_b 65 90 c || between_b 97 122 c || between_b 48 57 c || bool_decide (c ∈ extra).
Lemma class_b_ok extra c : class_b extra c = true → letter c ∨ digit c ∨ c ∈ extra.
Proof.
  unfold class_b, letter, digit. rewrite !orb_true_iff.
  intros [[[H|H]|H]|H]; [apply between_b_ok in H..|apply bool_decide_eq_true in H]; tauto.
Qed.

Lemma tx_code_form s : is_tx_code s → String.length s = 6 ∧ every_char digit s.
Proof.
  intros (draws & [Hl Hd] & Hs). split; [by rewrite (random_string_length _ _ _ Hs)|].
  eapply random_string_chars; [|exact Hs]. apply (every_all _ (between_b 48 57)); [apply between_b_ok|vm_compute; reflexivity].
Qed.
Lemma verifier_form s : is_code_verifier s → 43 ≤ String.length s ≤ 128 ∧ every_char verifier_char s.
Proof.
  intros (len & draws & Hlen & [Hl Hd] & Hs). split.
  - rewrite (random_string_length _ _ _ Hs), Hl. exact Hlen.
  - eapply random_string_chars; [|exact Hs].
    apply (every_all _ (class_b ["-"; "."; "_"; "~"]%char)); [intros c; apply class_b_ok|vm_compute; reflexivity].
Qed.

(** ** SHA-256 gives 32 bytes, in base64url 43 characters *)
Lemma round_length st kw : length st = 8 → length (round st kw) = 8.
Proof. unfold round. intros H. do 9 (destruct st as [|? st]; try done). Qed.
Lemma rounds_length kws st : length st = 8 → length (foldl round st kws) = 8.
Proof. revert st. induction kws as [|kw kws IH]; intros st H; simpl; [done|]. apply IH. by apply round_length. Qed.
Lemma compress_length h b : length h = 8 → length (compress h b) = 8.
Proof.
  intros H. unfold compress. rewrite zip_with_length, rounds_length by done. rewrite H. done.
Qed.
Lemma compresses_length bs h : length h = 8 → length (foldl compress h bs) = 8.
Proof. revert h. induction bs as [|b bs IH]; intros h H; simpl; [done|]. apply IH. by apply compress_length. Qed.
Lemma words_length ws : length (concat (map bytes_of_word ws)) = 4 * length ws.
Proof. induction ws as [|w ws IH]; [done|]. change (4 + length (concat (map bytes_of_word ws)) = 4 * S (length ws)). lia. Qed.
Lemma sha256_length m : length (sha256 m) = 32.
Proof.
  unfold sha256. cbv zeta. rewrite words_length, compresses_length; done.
Qed.
(** the length of the base64url text *)
Lemma base64url_length l : String.length (base64url l) = (4 * length l + 2) / 3.
Proof.
  assert (∀ n (l : list N), length l ≤ n → String.length (base64url l) = (4 * length l + 2) / 3) as H.
  { clear l. intros n. induction n as [|n IH]; intros l Hn.
    { destruct l; [done|simpl in Hn; lia]. }
    destruct l as [|a [|b [|c r]]]; [done|done|done|].
    change (4 + String.length (base64url r) = (4 * (3 + length r) + 2) / 3).
    rewrite IH by (simpl in Hn; lia).
    replace (4 * (3 + length r) + 2) with (4 * length r + 2 + 4 * 3) by lia.
    rewrite Nat.div_add by lia. lia. }
  by apply (H (length l)).
Qed.
Lemma b64char_safe x : url_safe (b64char x).
Proof.
  unfold b64char. assert (N.land x 63 < 64)%N as H.
  { change 63%N with (N.ones 6). rewrite N.land_ones. by apply N.mod_lt. }
  destruct (get_lt b64alphabet (N.to_nat (N.land x 63))) as [c Hc].
  { change (String.length b64alphabet) with (N.to_nat 64). lia. }
  rewrite Hc. simpl. revert Hc.
  generalize (N.to_nat (N.land x 63)). intros i.
  apply (every_all url_safe (class_b ["-"; "_"]%char)); [intros c'; apply class_b_ok|vm_compute; reflexivity].
Qed.
Lemma every_nil P : every_char P "".
Proof. by intros [|i] c. Qed.
Lemma every_cons P c s : every_char P (String c s) ↔ P c ∧ every_char P s.
Proof.
  split.
  - intros H. split; [by apply (H 0)|]. intros i. exact (H (S i)).
  - intros [Hc Hs] [|i] c'; simpl; [by intros [= <-]|apply Hs].
Qed.
Lemma base64url_safe l : every_char url_safe (base64url l).
Proof.
  assert (∀ n (l : list N), length l ≤ n → every_char url_safe (base64url l)) as H.
  { clear l. intros n. induction n as [|n IH]; intros l Hn.
    { destruct l; [apply every_nil|simpl in Hn; lia]. }
    destruct l as [|a [|b [|c r]]]; [apply every_nil|..]; cbn [base64url];
      repeat (rewrite every_cons; split; [apply b64char_safe|]); try apply every_nil.
    apply IH. simpl in Hn. lia. }
  by apply (H (length l)).
Qed.
Lemma challenge_form v : String.length (code_challenge v) = 43 ∧ every_char url_safe (code_challenge v).
Proof.
  unfold code_challenge. split; [|apply base64url_safe]. rewrite base64url_length, sha256_length. reflexivity.
Qed.

(** ** Base64url loses nothing *)
Local Open Scope N_scope.
Lemma b64char_inj x y : x < 64 → y < 64 → b64char x = b64char y → x = y.
Proof.
  intros Hx Hy.
  assert (forallb (λ a, forallb (λ b, negb (bool_decide (b64char (N.of_nat a) = b64char (N.of_nat b))) || Nat.eqb a b)
            (seq 0 64)) (seq 0 64) = true) as H by (vm_compute; reflexivity).
  rewrite forallb_forall in H. specialize (H (N.to_nat x)).
  rewrite in_seq in H. specialize (H ltac:(lia)). rewrite forallb_forall in H. specialize (H (N.to_nat y)).
  rewrite in_seq in H. specialize (H ltac:(lia)). rewrite !N2Nat.id in H.
  intros He. rewrite bool_decide_eq_true_2 in H by done. simpl in H. apply Nat.eqb_eq in H. lia.
Qed.
Lemma bytes_all (P : N → N → bool) a b :
  forallb (λ a, forallb (λ b, P (N.of_nat a) (N.of_nat b)) (seq 0 256)) (seq 0 256) = true →
  a < 256 → b < 256 → P a b = true.
Proof.
  intros H Ha Hb. rewrite forallb_forall in H. specialize (H (N.to_nat a)).
  rewrite in_seq in H. specialize (H ltac:(lia)). rewrite forallb_forall in H. specialize (H (N.to_nat b)).
  rewrite in_seq in H. specialize (H ltac:(lia)). by rewrite !N2Nat.id in H.
Qed.
Lemma sextet1 a : a < 256 → N.shiftr a 2 = a / 4.
Proof. intros _. apply N.shiftr_div_pow2. Qed.
Lemma sextet2 a b : a < 256 → b < 256 → N.lor (N.shiftl (N.land a 3) 4) (N.shiftr b 4) = a mod 4 * 16 + b / 16.
Proof.
  intros Ha Hb. apply N.eqb_eq.
  apply (bytes_all (λ a b, N.lor (N.shiftl (N.land a 3) 4) (N.shiftr b 4) =? a mod 4 * 16 + b / 16)); [|done..].
  vm_compute. reflexivity.
Qed.
Lemma sextet3 b c : b < 256 → c < 256 → N.lor (N.shiftl (N.land b 15) 2) (N.shiftr c 6) = b mod 16 * 4 + c / 64.
Proof.
  intros Ha Hb. apply N.eqb_eq.
  apply (bytes_all (λ b c, N.lor (N.shiftl (N.land b 15) 2) (N.shiftr c 6) =? b mod 16 * 4 + c / 64)); [|done..].
  vm_compute. reflexivity.
Qed.
Lemma b64char_mod x : b64char x = b64char (x mod 64).
Proof.
  unfold b64char. change 63 with (N.ones 6). rewrite !N.land_ones. change (2 ^ 6) with 64.
  rewrite N.mod_mod by done. done.
Qed.
Lemma sextet2' a : a < 256 → N.shiftl (N.land a 3) 4 = a mod 4 * 16.
Proof. intros Ha. pose proof (sextet2 a 0 Ha eq_refl) as H. simpl in H. rewrite N.lor_0_r in H. rewrite H. apply N.add_0_r. Qed.
Lemma sextet3' b : b < 256 → N.shiftl (N.land b 15) 2 = b mod 16 * 4.
Proof. intros Ha. pose proof (sextet3 b 0 Ha eq_refl) as H. simpl in H. rewrite N.lor_0_r in H. rewrite H. apply N.add_0_r. Qed.

Ltac Zify.zify_post_hook ::= Z.to_euclidean_division_equations.
Lemma base64url_inj l l' :
  Forall (λ b, b < 256) l → Forall (λ b, b < 256) l' → base64url l = base64url l' → l = l'.
Proof.
  assert (∀ n (l l' : list N), (length l ≤ n)%nat → Forall (λ b, b < 256) l → Forall (λ b, b < 256) l' →
    base64url l = base64url l' → l = l') as H.
  { clear. intros n. induction n as [|n IH]; intros l l' Hn Hl Hl' He.
    { destruct l; [|simpl in Hn; lia]. destruct l' as [|? [|? [|? ?]]]; done. }
    destruct l as [|a [|b [|c r]]], l' as [|a' [|b' [|c' r']]]; try done; cbn [base64url] in He;
      repeat (match goal with H : Forall _ (_ :: _) |- _ => apply Forall_cons in H as [? H] end).
    - rewrite !sextet1, !sextet2' in He by done. injection He as E1 E2.
      apply b64char_inj in E1; [|lia|lia]. apply b64char_inj in E2; [|lia|lia]. f_equal. lia.
    - rewrite !sextet1, !sextet2, !sextet3' in He by done. injection He as E1 E2 E3.
      apply b64char_inj in E1; [|lia|lia]. apply b64char_inj in E2; [|lia|lia]. apply b64char_inj in E3; [|lia|lia]. assert (a = a' ∧ b = b') as [-> ->] by lia. done.
    - rewrite !sextet1, !sextet2, !sextet3 in He by done. rewrite (b64char_mod c), (b64char_mod c') in He.
      injection He as E1 E2 E3 E4 E5.
      apply b64char_inj in E1; [|lia|lia]. apply b64char_inj in E2; [|lia|lia]. apply b64char_inj in E3; [|lia|lia]. apply b64char_inj in E4; [|lia|lia].
      assert (a = a' ∧ b = b' ∧ c = c') as (-> & -> & ->) by lia.
      do 3 f_equal. apply IH; [simpl in Hn; lia|done..]. }
  by apply (H (length l)).
Qed.
Lemma verifier_generated len draws :
  (43 ≤ len ≤ 128)%nat → drawn len pkce_chars draws →
  ∃ v, random_string draws pkce_chars = Some v ∧ is_code_verifier v.
Proof.
  intros Hl Hd. destruct (random_string_some _ _ _ Hd) as [v Hv]. exists v. split; [done|].
  exists len, draws. done.
Qed.
