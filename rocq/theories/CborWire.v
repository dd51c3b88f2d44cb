(** The model of CBOR and RFC 8949: proofs. *)
From Verif Require Import Base Sha256 CborModel CborFacts CborSpec.
Local Open Scope N_scope.

Lemma fold_number l a : fold_left (λ a b, a * 256 + b) l a = a * 256 ^ N.of_nat (length l) + number l.
Proof.
  revert a. induction l as [|b l IH]; intros a; [simpl; lia|]. cbn [fold_left number length]. rewrite IH.
  rewrite Nat2N.inj_succ, N.pow_succ_r'. lia.
Qed.
Lemma value_number l : value l = number l.
Proof. unfold value. rewrite fold_number. lia. Qed.
Lemma number_bound l : bytes l → number l < 256 ^ N.of_nat (length l).
Proof.
  induction 1 as [|b l Hb _ IH]; [simpl; lia|]. cbn [number length]. rewrite Nat2N.inj_succ, N.pow_succ_r'. nia.
Qed.
Lemma heads_head major x : x < word → heads major x (head major x).
Proof.
  intros Hx. unfold head. rewrite (N.mul_comm major 32).
  assert (∀ k, x < 256 ^ N.of_nat k → number (be k x) = x) as Hb by (intros k Hk; rewrite <- value_number; by apply value_be).
  destruct (N.ltb_spec x 24); [by apply head_here|].
  destruct (N.ltb_spec x 256); [|destruct (N.ltb_spec x 65536); [|destruct (N.ltb_spec x 4294967296)]];
    (eapply head_follows; [|by rewrite be_length|apply be_bytes|by apply Hb]).
  - by left.
  - by right; left.
  - by right; right; left.
  - by right; right; right; left.
Qed.
(** Reading a head. *)
Lemma read_heads major x h rest : major < 8 → heads major x h →
  ∃ info taken, read_head (h ++ rest) = Some (major, info, taken, rest) ∧ argument info taken = x.
Proof.
  intros Hm H.
  assert (Hd : ∀ i, i < 32 → (32 * major + i) / 32 = major ∧ (32 * major + i) mod 32 = i).
  { intros i Hi. split; symmetry; [apply (N.div_unique _ _ _ i)|apply (N.mod_unique _ _ major)]; lia. }
  destruct H as [Hx|info k l Hin Hk Hl Hn].
  - destruct (Hd x) as [E1 E2]; [lia|]. exists x, []. cbn [app]. unfold read_head. rewrite E1, E2.
    destruct (N.ltb_spec x 24); [|lia]. split; [done|]. unfold argument. destruct (N.ltb_spec x 24); [done|lia].
  - exists info, l. assert (24 ≤ info < 32) as Hi.
    { repeat (apply elem_of_cons in Hin as [[= -> ->]|Hin]; [lia|]). by apply elem_of_nil in Hin. }
    destruct (Hd info) as [E1 E2]; [lia|]. cbn [app]. unfold read_head. rewrite E1, E2.
    destruct (N.ltb_spec info 24); [lia|].
    assert (read_bytes k (l ++ rest) = Some (l, rest)) as Hr by (subst k; apply read_bytes_app).
    split.
    + repeat (apply elem_of_cons in Hin as [[= -> ->]|Hin]; [cbn [N.eqb Pos.eqb]; by rewrite Hr|]). by apply elem_of_nil in Hin.
    + unfold argument. destruct (N.ltb_spec info 24); [lia|]. by rewrite value_number.
Qed.
Lemma heads_some major x h : heads major x h → (1 ≤ length h)%nat.
Proof. intros []; simpl; lia. Qed.
Lemma represents_some : (∀ c b, represents c b → (1 ≤ length b)%nat) ∧ (∀ l b, represent l b → (length l ≤ length b)%nat).
Proof.
  apply represents_both; intros; rewrite ?app_length;
    repeat match goal with H : heads _ _ _ |- _ => apply heads_some in H end; simpl; lia.
Qed.
Lemma bytes_of_string_length s : length (bytes_of_string s) = String.length s.
Proof. unfold bytes_of_string. rewrite map_length. induction s; simpl; auto. Qed.
Lemma concat_pairs (m : list (cbor * cbor)) : length (concat (map (λ kv, [kv.1; kv.2]) m)) = (2 * length m)%nat.
Proof. induction m as [|kv m IH]; [done|]. cbn [map concat length app]. rewrite IH. lia. Qed.

(** The reader reads what represents a value. *)
Definition reads (d : nat) (c : cbor) (b : list N) : Prop := ∀ rest, read_value d (b ++ rest) = Some (c, rest).
Lemma pairs_reads d m b : (∀ rest, read_many (read_value d) (length (concat (map (λ kv : cbor * cbor, [kv.1; kv.2]) m))) (b ++ rest) = Some (concat (map (λ kv, [kv.1; kv.2]) m), rest)) →
  ∀ rest, read_pairs (read_value d) (length m) (b ++ rest) = Some (m, rest).
Proof.
  intros H rest. specialize (H rest). revert H. generalize (b ++ rest) as bs. clear b.
  induction m as [|[k v] m IH]; intros bs; cbn [map concat length app read_many read_pairs fst snd].
  - intros [= ->]. done.
  - destruct (read_value d bs) as [[k' b1]|]; [|done]. destruct (read_value d b1) as [[v' b2]|]; [|done].
    destruct (read_many _ _ b2) as [[l b3]|] eqn:E; [|done]. intros [= -> -> -> ->]. by rewrite (IH _ E).
Qed.
Lemma represents_reads :
  (∀ c b, represents c b → ∀ d, (length b ≤ d)%nat → reads d c b) ∧
  (∀ l b, represent l b → ∀ d, (length b ≤ d)%nat → ∀ rest, read_many (read_value d) (length l) (b ++ rest) = Some (l, rest)).
Proof.
  apply represents_both.
  - intros x h Hh [|d] Hd rest; [apply heads_some in Hh; lia|]. destruct (read_heads 0 x h rest) as (i & t & E & A); [lia|done|].
    cbn [read_value]. rewrite E, A. done.
  - intros x h Hh [|d] Hd rest; [apply heads_some in Hh; lia|]. destruct (read_heads 1 x h rest) as (i & t & E & A); [lia|done|].
    cbn [read_value]. rewrite E, A. done.
  - intros l h Hh Hl [|d] Hd rest; rewrite app_length in Hd; [apply heads_some in Hh; lia|]. rewrite <- app_assoc.
    destruct (read_heads 2 _ h (l ++ rest) ltac:(lia) Hh) as (i & t & E & A).
    cbn [read_value]. rewrite E, A. cbn [N.eqb Pos.eqb]. fold (size l). by rewrite read_bytes_app.
  - intros s h Hh [|d] Hd rest; rewrite app_length in Hd; [apply heads_some in Hh; lia|]. rewrite <- app_assoc.
    destruct (read_heads 3 _ h (bytes_of_string s ++ rest) ltac:(lia) Hh) as (i & t & E & A).
    cbn [read_value]. rewrite E, A. cbn [N.eqb Pos.eqb]. rewrite <- bytes_of_string_length. fold (size (bytes_of_string s)).
    rewrite read_bytes_app. by rewrite string_bytes.
  - intros l h b Hh Hb IH [|d] Hd rest; rewrite app_length in Hd; [apply heads_some in Hh; lia|]. rewrite <- app_assoc.
    destruct (read_heads 4 _ h (b ++ rest) ltac:(lia) Hh) as (i & t & E & A).
    cbn [read_value]. rewrite E, A. cbn [N.eqb Pos.eqb]. rewrite Nat2N.id.
    pose proof (proj2 represents_some _ _ Hb) as Hs. apply heads_some in Hh.
    rewrite (proj2 (N.leb_le _ _)) by (unfold size; rewrite app_length; lia).
    by rewrite IH by lia.
  - intros m h b Hh Hb IH [|d] Hd rest; rewrite app_length in Hd; [apply heads_some in Hh; lia|]. rewrite <- app_assoc.
    destruct (read_heads 5 _ h (b ++ rest) ltac:(lia) Hh) as (i & t & E & A).
    cbn [read_value]. rewrite E, A. cbn [N.eqb Pos.eqb]. rewrite Nat2N.id.
    pose proof (proj2 represents_some _ _ Hb) as Hs. rewrite concat_pairs in Hs. apply heads_some in Hh.
    rewrite (proj2 (N.leb_le _ _)) by (unfold size; rewrite app_length; lia).
    rewrite (pairs_reads d m b); [done|]. apply IH. lia.
  - intros n c h b Hh Hb IH [|d] Hd rest; rewrite app_length in Hd; [apply heads_some in Hh; lia|]. rewrite <- app_assoc.
    destruct (read_heads 6 _ h (b ++ rest) ltac:(lia) Hh) as (i & t & E & A). apply heads_some in Hh.
    cbn [read_value]. rewrite E, A. cbn [N.eqb Pos.eqb]. unfold reads in IH. by rewrite IH by lia.
  - intros [|d] Hd rest; [simpl in Hd; lia|]. reflexivity.
  - intros [|d] Hd rest; [simpl in Hd; lia|]. reflexivity.
  - intros [|d] Hd rest; [simpl in Hd; lia|]. reflexivity.
  - intros first bits k Hin Hk Hb [|d] Hd rest; [simpl in Hd; lia|].
    assert (read_bytes k (bits ++ rest) = Some (bits, rest)) as Hr by (subst k; apply read_bytes_app).
    repeat (apply elem_of_cons in Hin as [[= -> ->]|Hin];
      [cbn [app read_value]; unfold read_head; vm_compute (_ mod _); vm_compute (_ / _); cbn [N.eqb Pos.eqb]; simpl (_ <? _); cbv iota; by rewrite Hr|]). by apply elem_of_nil in Hin.
  - done.
  - intros c l b r Hc IHc Hl IHl d Hd rest. rewrite app_length in Hd. rewrite <- app_assoc. cbn [length read_many].
    rewrite (IHc d) by lia. by rewrite (IHl d) by lia.
Qed.
Lemma decode_represents c b rest : represents c b → decode (b ++ rest) = Some c.
Proof.
  intros H. unfold decode. rewrite (proj1 represents_reads c b H); [done|]. rewrite app_length. lia.
Qed.

(** The writer writes what represents the value, ... *)
Lemma represent_all l : Forall (λ c, represents c (encode c)) l → represent l (encode_all l).
Proof. induction 1 as [|c l Hc _ IH]; [constructor|]. unfold encode_all in *. cbn [map concat]. by constructor. Qed.
Lemma represent_pairs m : Forall (λ kv : cbor * cbor, represents kv.1 (encode kv.1) ∧ represents kv.2 (encode kv.2)) m →
  represent (concat (map (λ kv, [kv.1; kv.2]) m)) (encode_pairs m).
Proof.
  induction 1 as [|[k v] m [Hk Hv] _ IH]; [constructor|]. unfold encode_pairs in *. cbn [map concat fst snd app] in *.
  rewrite <- app_assoc. constructor; [done|]. by constructor.
Qed.
Lemma encode_represents c : in_range c → N.of_nat (length (encode c)) < word → represents c (encode c).
Proof.
  induction c as [z|l|s|l IH|m IH|n c IH|b| |bits] using cbor_ind'; intros Hr Hl.
  - cbn [encode in_range] in *. destruct (Z.leb_spec 0 z).
    + rewrite <- (Z2N.id z) at 1 by done. apply rep_unsigned. apply heads_head. lia.
    + replace z with (-1 - Z.of_N (Z.to_N (-1 - z)))%Z at 1 by lia. apply rep_negative. apply heads_head. lia.
  - cbn [encode in_range] in *. rewrite app_length in Hl. apply rep_bytes; [apply heads_head; unfold size, word in *; lia|done].
  - cbn [encode] in *. rewrite app_length in Hl. apply rep_text. unfold size in *. rewrite bytes_of_string_length in *. apply heads_head. lia.
  - rewrite encode_arr in *. rewrite app_length in Hl. apply in_range_arr in Hr. pose proof (encode_all_length l).
    apply rep_array; [apply heads_head; unfold size in *; lia|]. apply represent_all. apply Forall_forall. intros c Hc.
    rewrite Forall_forall in IH, Hr. apply (IH c Hc (Hr c Hc)).
    assert (length (encode c) ≤ length (encode_all l))%nat; [|lia].
    clear -Hc. unfold encode_all. induction Hc as [c l|c d l _ IH]; cbn [map concat]; rewrite app_length; lia.
  - rewrite encode_map in *. rewrite app_length in Hl. apply in_range_map in Hr. pose proof (encode_pairs_length m).
    apply rep_map; [apply heads_head; unfold size in *; lia|]. apply represent_pairs. apply Forall_forall. intros kv Hc.
    rewrite Forall_forall in IH, Hr. destruct (Hr kv Hc) as [H1 H2]. destruct (IH kv Hc) as [I1 I2].
    assert (length (encode kv.1) + length (encode kv.2) ≤ length (encode_pairs m))%nat.
    { clear -Hc. unfold encode_pairs. induction Hc as [c l|c d l _ IH]; cbn [map concat]; rewrite !app_length; lia. }
    split; [apply I1|apply I2]; (done || lia).
  - cbn [encode in_range] in *. rewrite app_length in Hl. destruct Hr as [Hn Hr]. apply rep_tag; [by apply heads_head|]. apply IH; [done|lia].
  - destruct b; constructor.
  - constructor.
  - cbn [encode in_range] in *. destruct Hr as [Hb Hn]. eapply rep_float; [|reflexivity|done].
    destruct Hn as [E|[E|E]]; rewrite E; cbn; [by left|by right; left|by right; right; left].
Qed.

(** ... in the fewest bytes. *)
Lemma head_least major x h : x < word → heads major x h → (length (head major x) ≤ length h)%nat.
Proof.
  intros Hx [Hx'|info k l Hin Hk Hl Hn]; unfold head.
  - by rewrite (proj2 (N.ltb_lt _ _) Hx').
  - assert (x < 256 ^ k) as Hb by (rewrite <- Hk, <- Hn; by apply number_bound).
    repeat (apply elem_of_cons in Hin as [[= -> ->]|Hin];
      [cbn [length]; repeat match goal with |- context [(?a <? ?b)] => destruct (N.ltb_spec a b) end; simpl; rewrite ?be_length; simpl in Hb; lia|]).
    by apply elem_of_nil in Hin.
Qed.
Lemma heads_word major x h : heads major x h → x < word.
Proof.
  intros [Hx|info k l Hin Hk Hl <-]; [unfold word; lia|]. apply number_bound in Hl. rewrite Hk in Hl.
  repeat (apply elem_of_cons in Hin as [[= -> ->]|Hin]; [unfold word; simpl in Hl; lia|]). by apply elem_of_nil in Hin.
Qed.
Lemma encode_least : (∀ c b, represents c b → (length (encode c) ≤ length b)%nat) ∧ (∀ l b, represent l b → (length (encode_all l) ≤ length b)%nat).
Proof.
  apply represents_both; intros; rewrite ?app_length; try (simpl; lia);
    try match goal with H : heads ?m ?x ?h |- _ => pose proof (head_least m x h (heads_word _ _ _ H) H) end.
  - cbn [encode]. rewrite (proj2 (Z.leb_le _ _)) by lia. by rewrite N2Z.id.
  - cbn [encode]. rewrite (proj2 (Z.leb_gt _ _)) by lia. by replace (Z.to_N (-1 - (-1 - Z.of_N x))) with x by lia.
  - cbn [encode]. rewrite app_length. unfold size. lia.
  - cbn [encode]. rewrite app_length. unfold size. rewrite bytes_of_string_length. lia.
  - rewrite encode_arr, app_length. unfold size. lia.
  - rewrite encode_map, app_length. unfold size. assert (encode_all (concat (map (λ kv : cbor * cbor, [kv.1; kv.2]) m)) = encode_pairs m) as E; [|rewrite E in *; lia].
    clear. unfold encode_all, encode_pairs. induction m as [|[k v] m IH]; [done|]. cbn [map concat app fst snd]. rewrite IH. by rewrite app_assoc.
  - cbn [encode]. rewrite app_length. lia.
  - unfold encode_all. cbn [map concat]. rewrite app_length. unfold encode_all in *. lia.
Qed.

(** The reader reads nothing else. *)
Lemma read_bytes_some n bs l r : read_bytes n bs = Some (l, r) → bs = l ++ r ∧ N.of_nat (length l) = n.
Proof.
  unfold read_bytes. destruct (N.leb_spec n (size bs)) as [H|]; [|done]. intros [= <- <-]. split; [by rewrite take_drop|].
  unfold size in H. rewrite take_length. lia.
Qed.
Lemma read_head_some bs major info taken r : bytes bs → read_head bs = Some (major, info, taken, r) →
  ∃ h, bs = h ++ r ∧ major < 8 ∧ bytes taken ∧ h = 32 * major + info :: taken ∧
    ((info < 24 ∧ taken = []) ∨ (info, N.of_nat (length taken)) ∈ [(24, 1); (25, 2); (26, 4); (27, 8)]).
Proof.
  intros Hb. destruct bs as [|b bs]; [done|]. apply Forall_cons in Hb as [Hb Hbs]. unfold read_head.
  assert (b = 32 * (b / 32) + b mod 32) as E by (apply N.div_mod; lia).
  assert (b / 32 < 8) as H8 by (apply N.div_lt_upper_bound; lia).
  destruct (N.ltb_spec (b mod 32) 24) as [Hlt|Hge].
  - intros [= <- <- <- <-]. exists [b]. split; [done|]. split; [done|]. split; [constructor|]. split; [by f_equal|]. by left.
  - destruct (if _ =? 24 then _ else _) as [k|] eqn:Ek; [|done]. destruct (read_bytes k bs) as [[t r']|] eqn:Er; [|done].
    intros [= <- <- <- <-]. apply read_bytes_some in Er as [-> Hk]. exists (b :: t). split; [done|]. split; [done|].
    apply Forall_app in Hbs as [Ht _]. split; [done|]. split; [by f_equal|]. right. rewrite Hk.
    destruct (N.eqb_spec (b mod 32) 24) as [->|]; [injection Ek as <-; by left|].
    destruct (N.eqb_spec (b mod 32) 25) as [->|]; [injection Ek as <-; by right; left|].
    destruct (N.eqb_spec (b mod 32) 26) as [->|]; [injection Ek as <-; by right; right; left|].
    destruct (N.eqb_spec (b mod 32) 27) as [->|]; [injection Ek as <-; by right; right; right; left|done].
Qed.
Lemma read_head_heads bs major info taken r : bytes bs → read_head bs = Some (major, info, taken, r) →
  ∃ h, bs = h ++ r ∧ heads major (argument info taken) h.
Proof.
  intros Hb H. apply read_head_some in H as (h & -> & _ & Ht & -> & Hc); [|done]. eexists. split; [done|].
  unfold argument. destruct Hc as [[Hi ->]|Hin].
  - rewrite (proj2 (N.ltb_lt _ _) Hi). by constructor.
  - destruct (N.ltb_spec info 24) as [Hlt|].
    + exfalso. repeat (apply elem_of_cons in Hin as [[= -> _]|Hin]; [lia|]). by apply elem_of_nil in Hin.
    + eapply head_follows; [done|done|done|]. by rewrite value_number.
Qed.
Lemma string_of_bytes_back l : bytes l → bytes_of_string (string_of_bytes l) = l.
Proof.
  intros H. unfold bytes_of_string, string_of_bytes. rewrite list_ascii_of_string_of_list_ascii, map_map.
  induction H as [|b l Hb _ IH]; [done|]. cbn [map]. rewrite IH. f_equal. by apply N_ascii_embedding.
Qed.
Lemma read_value_represents d : ∀ bs c r, bytes bs → read_value d bs = Some (c, r) → ∃ b, bs = b ++ r ∧ represents c b.
Proof.
  induction d as [|d IH]; [done|]. intros bs c r Hb.
  assert (Hm : ∀ n bs l r, bytes bs → read_many (read_value d) n bs = Some (l, r) → ∃ b, bs = b ++ r ∧ represent l b ∧ length l = n).
  { clear -IH. induction n as [|n IHn]; intros bs l r Hb; cbn [read_many].
    - intros [= <- <-]. exists []. by repeat constructor.
    - destruct (read_value d bs) as [[c b1]|] eqn:E; [|done]. apply IH in E as (b & -> & Hc); [|done].
      apply Forall_app in Hb as [_ Hb]. destruct (read_many _ n b1) as [[l' b2]|] eqn:E; [|done].
      intros [= <- <-]. apply IHn in E as (b' & -> & Hl & Hn); [|done]. exists (b ++ b'). rewrite <- app_assoc. split; [done|].
      split; [by constructor|simpl; by f_equal]. }
  assert (Hp : ∀ n bs m r, bytes bs → read_pairs (read_value d) n bs = Some (m, r) →
    ∃ b, bs = b ++ r ∧ represent (concat (map (λ kv : cbor * cbor, [kv.1; kv.2]) m)) b ∧ length m = n).
  { clear -IH. induction n as [|n IHn]; intros bs l r Hb; cbn [read_pairs].
    - intros [= <- <-]. exists []. by repeat constructor.
    - destruct (read_value d bs) as [[k b1]|] eqn:E; [|done]. apply IH in E as (bk & -> & Hk); [|done].
      apply Forall_app in Hb as [_ Hb]. destruct (read_value d b1) as [[v b2]|] eqn:E; [|done]. apply IH in E as (bv & -> & Hv); [|done].
      apply Forall_app in Hb as [_ Hb]. destruct (read_pairs _ n b2) as [[l' b3]|] eqn:E; [|done].
      intros [= <- <-]. apply IHn in E as (b' & -> & Hl & Hn); [|done]. exists (bk ++ bv ++ b'). rewrite <- !app_assoc. split; [done|].
      split; [|simpl; by f_equal]. cbn [map concat app fst snd]. by repeat constructor. }
  cbn [read_value]. destruct (read_head bs) as [[[[major info] taken] r0]|] eqn:Eh; [|done].
  pose proof (read_head_some _ _ _ _ _ Hb Eh) as (h0 & Hbs & H8 & Ht & Hh0 & Hc0).
  destruct (read_head_heads _ _ _ _ _ Hb Eh) as (h & -> & Hh). apply Forall_app in Hb as [_ Hb].
  destruct (N.eqb_spec major 0) as [->|]. { intros [= <- <-]. exists h. split; [done|]. by constructor. }
  destruct (N.eqb_spec major 1) as [->|]. { intros [= <- <-]. exists h. split; [done|]. by constructor. }
  destruct (N.eqb_spec major 2) as [->|].
  { destruct (read_bytes _ r0) as [[l r1]|] eqn:E; [|done]. intros [= <- <-]. apply read_bytes_some in E as [-> E].
    exists (h ++ l). rewrite <- app_assoc. split; [done|]. apply Forall_app in Hb as [Hb _]. constructor; [by rewrite E|done]. }
  destruct (N.eqb_spec major 3) as [->|].
  { destruct (read_bytes _ r0) as [[l r1]|] eqn:E; [|done]. intros [= <- <-]. apply read_bytes_some in E as [-> E].
    exists (h ++ l). rewrite <- app_assoc. split; [done|]. apply Forall_app in Hb as [Hb _].
    rewrite <- (string_of_bytes_back l) at 2 by done. constructor. by rewrite <- bytes_of_string_length, string_of_bytes_back, E. }
  destruct (N.eqb_spec major 4) as [->|].
  { destruct (_ <=? _); [|done]. destruct (read_many _ _ r0) as [[l r1]|] eqn:E; [|done]. intros [= <- <-]. apply Hm in E as (b & -> & Hl & Hn); [|done].
    exists (h ++ b). rewrite <- app_assoc. split; [done|]. constructor; [|done]. by rewrite Hn, N2Nat.id. }
  destruct (N.eqb_spec major 5) as [->|].
  { destruct (_ <=? _); [|done]. destruct (read_pairs _ _ r0) as [[l r1]|] eqn:E; [|done]. intros [= <- <-]. apply Hp in E as (b & -> & Hl & Hn); [|done].
    exists (h ++ b). rewrite <- app_assoc. split; [done|]. constructor; [|done]. by rewrite Hn, N2Nat.id. }
  destruct (N.eqb_spec major 6) as [->|].
  { destruct (read_value d r0) as [[c' r1]|] eqn:E; [|done]. intros [= <- <-]. apply IH in E as (b & -> & Hl); [|done].
    exists (h ++ b). rewrite <- app_assoc. split; [done|]. by constructor. }
  assert (major = 7) as -> by lia. apply app_inv_tail in Hbs as ->. subst h0.
  destruct (N.eqb_spec info 20) as [->|]; [|destruct (N.eqb_spec info 21) as [->|]; [|destruct (N.eqb_spec info 22) as [->|]]].
  1-3: intros [= <- <-]; eexists; split; [done|];
    (destruct Hc0 as [[_ ->]|Hin]; [constructor|exfalso; repeat (apply elem_of_cons in Hin as [[=]|Hin]); by apply elem_of_nil in Hin]).
  destruct (N.leb_spec 25 info); [|done]. destruct (N.leb_spec info 27); [|done]. cbn [andb]. intros [= <- <-].
  eexists. split; [done|]. destruct Hc0 as [[Hi _]|Hin]; [lia|].
  apply elem_of_cons in Hin as [[= -> _]|Hin]; [lia|].
  eapply rep_float; [|reflexivity|done].
  apply elem_of_cons in Hin as [[= -> ->]|Hin]; [by left|].
  apply elem_of_cons in Hin as [[= -> ->]|Hin]; [by right; left|].
  apply elem_of_cons in Hin as [[= -> ->]|Hin]; [by right; right; left|]. by apply elem_of_nil in Hin.
Qed.
Lemma decode_iff bs c : bytes bs → decode bs = Some c ↔ ∃ b r, bs = b ++ r ∧ represents c b.
Proof.
  intros Hb. split.
  - unfold decode. destruct (read_value _ bs) as [[c' r]|] eqn:E; [|done]. intros [= <-].
    apply read_value_represents in E as (b & -> & H); [|done]. by exists b, r.
  - intros (b & r & -> & H). by apply decode_represents.
Qed.
