(** What is written as CBOR is read back. *)
From Coq Require Import Lia.
From Verif Require Import Base Sha256 CborModel.
Local Open Scope N_scope.

Definition bytes (l : list N) : Prop := Forall (λ b, b < 256) l.
(** Values that CBOR has: numbers, bytes and floats in range; and no size above 2^64. *)
Definition word : N := 18446744073709551616.
Fixpoint in_range (c : cbor) : Prop :=
  match c with
  | CInt z => (- Z.of_N word ≤ z < Z.of_N word)%Z
  | CBytes l => bytes l
  | CText _ => True
  | CArr l => (fix go l := match l with [] => True | c :: r => in_range c ∧ go r end) l
  | CMap m => (fix go (m : list (cbor * cbor)) := match m with [] => True | (k, v) :: r => in_range k ∧ in_range v ∧ go r end) m
  | CTag n c => n < word ∧ in_range c
  | CBool _ | CNull => True
  | CFloat bits => bytes bits ∧ (length bits = 2%nat ∨ length bits = 4%nat ∨ length bits = 8%nat)
  end.
Lemma cbor_ind' (P : cbor → Prop) :
  (∀ z, P (CInt z)) → (∀ l, P (CBytes l)) → (∀ s, P (CText s)) → (∀ l, Forall P l → P (CArr l)) →
  (∀ m, Forall (λ kv, P kv.1 ∧ P kv.2) m → P (CMap m)) → (∀ n c, P c → P (CTag n c)) → (∀ b, P (CBool b)) → P CNull →
  (∀ bits, P (CFloat bits)) → ∀ c, P c.
Proof.
  intros H1 H2 H3 H4 H5 H6 H7 H8 H9. fix IH 1. intros [z|l|s|l|m|n c|b| |bits].
  - apply H1. - apply H2. - apply H3.
  - apply H4. induction l as [|c l IHl]; constructor; [apply IH|apply IHl].
  - apply H5. induction m as [|[k v] m IHm]; constructor; [split; apply IH|apply IHm].
  - apply H6, IH. - apply H7. - apply H8. - apply H9.
Qed.
Definition encode_all (l : list cbor) : list N := concat (map encode l).
Definition encode_pairs (m : list (cbor * cbor)) : list N := concat (map (λ kv, encode kv.1 ++ encode kv.2) m).
Lemma encode_arr l : encode (CArr l) = head 4 (size l) ++ encode_all l.
Proof. cbn [encode]. f_equal. induction l as [|c l IH]; [done|]. unfold encode_all. cbn [map concat]. by f_equal. Qed.
Lemma encode_map m : encode (CMap m) = head 5 (size m) ++ encode_pairs m.
Proof.
  cbn [encode]. f_equal. induction m as [|[k v] m IH]; [done|]. unfold encode_pairs. cbn [map concat fst snd].
  rewrite <- app_assoc. by do 2 f_equal.
Qed.
Lemma in_range_arr l : in_range (CArr l) ↔ Forall in_range l.
Proof. cbn [in_range]. induction l as [|c l IH]; [split; [constructor|done]|]. by rewrite Forall_cons, IH. Qed.
Lemma in_range_map m : in_range (CMap m) ↔ Forall (λ kv, in_range kv.1 ∧ in_range kv.2) m.
Proof.
  cbn [in_range]. induction m as [|[k v] m IH]; [split; [constructor|done]|]. rewrite Forall_cons, IH. simpl. tauto.
Qed.

Lemma value_snoc l b : value (l ++ [b]) = value l * 256 + b.
Proof. unfold value. by rewrite fold_left_app. Qed.
Lemma value_be k x : x < 256 ^ N.of_nat k → value (be k x) = x.
Proof.
  revert x. induction k as [|k IH]; intros x Hx; [simpl in *; unfold value; simpl; lia|].
  cbn [be]. rewrite value_snoc, IH.
  - pose proof (N.div_mod x 256). lia.
  - apply N.div_lt_upper_bound; [lia|]. rewrite Nat2N.inj_succ, N.pow_succ_r' in Hx. lia.
Qed.
Lemma be_length k x : length (be k x) = k.
Proof. revert x. induction k as [|k IH]; intros x; [done|]. cbn [be]. rewrite app_length, IH. simpl. lia. Qed.
Lemma be_bytes k x : bytes (be k x).
Proof.
  revert x. induction k as [|k IH]; intros x; [constructor|]. cbn [be]. apply Forall_app. split; [apply IH|].
  constructor; [|constructor]. apply N.mod_lt. lia.
Qed.
Lemma read_bytes_app l rest : read_bytes (size l) (l ++ rest) = Some (l, rest).
Proof.
  unfold read_bytes, size. rewrite app_length. destruct (N.leb_spec (N.of_nat (length l)) (N.of_nat (length l + length rest))) as [_|H]; [|lia].
  rewrite Nat2N.id. by rewrite take_app, drop_app.
Qed.
Lemma read_head_head major x rest : major < 8 → x < word →
  ∃ info taken, read_head (head major x ++ rest) = Some (major, info, taken, rest) ∧ argument info taken = x.
Proof.
  intros Hm Hx. unfold head.
  assert (Hd : ∀ i, i < 32 → (major * 32 + i) / 32 = major ∧ (major * 32 + i) mod 32 = i).
  { intros i Hi. split.
    - symmetry. apply (N.div_unique _ 32 major i); lia.
    - symmetry. apply (N.mod_unique _ 32 major i); lia. }
  assert (Hb : ∀ i k, (k = 1%nat ∧ i = 24 ∨ k = 2%nat ∧ i = 25 ∨ k = 4%nat ∧ i = 26 ∨ k = 8%nat ∧ i = 27) → x < 256 ^ N.of_nat k →
    read_head ((major * 32 + i :: be k x) ++ rest) = Some (major, i, be k x, rest) ∧ argument i (be k x) = x).
  { intros i k Hk Hlt. assert (Hi : i < 32) by lia. assert (Hi' : (i <? 24) = false) by (apply N.ltb_ge; lia).
    split; [|unfold argument; rewrite Hi'; by apply value_be].
    rewrite <- app_comm_cons. unfold read_head. destruct (Hd i Hi) as [-> ->]. rewrite Hi'.
    assert (Hr : read_bytes (N.of_nat k) (be k x ++ rest) = Some (be k x, rest)).
    { rewrite <- (read_bytes_app (be k x) rest). unfold size. by rewrite be_length. }
    destruct Hk as [[-> ->]|[[-> ->]|[[-> ->]|[-> ->]]]]; cbn [N.eqb Pos.eqb]; change (N.of_nat 1) with 1 in Hr; change (N.of_nat 2) with 2 in Hr;
      change (N.of_nat 4) with 4 in Hr; change (N.of_nat 8) with 8 in Hr; by rewrite Hr. }
  destruct (N.ltb_spec x 24) as [H1|H1].
  { exists x, []. cbn [app]. unfold read_head. destruct (Hd x ltac:(lia)) as [-> ->].
    unfold argument. destruct (N.ltb_spec x 24); [done|lia]. }
  destruct (N.ltb_spec x 256) as [H2|H2]. { destruct (Hb 24 1%nat) as [E1 E2]; [tauto|done|]. by eexists _, _. }
  destruct (N.ltb_spec x 65536) as [H3|H3]. { destruct (Hb 25 2%nat) as [E1 E2]; [tauto|done|]. by eexists _, _. }
  destruct (N.ltb_spec x 4294967296) as [H4|H4]. { destruct (Hb 26 4%nat) as [E1 E2]; [tauto|done|]. by eexists _, _. }
  destruct (Hb 27 8%nat) as [E1 E2]; [tauto|done|]. by eexists _, _.
Qed.
Lemma head_length major x : (1 ≤ length (head major x))%nat.
Proof. unfold head. repeat case_match; simpl; lia. Qed.
Lemma head_bytes major x : major < 8 → bytes (head major x).
Proof.
  intros Hm. unfold head. destruct (N.ltb_spec x 24). { constructor; [lia|constructor]. }
  repeat case_match; (constructor; [lia|apply be_bytes]).
Qed.
Lemma string_bytes s : string_of_bytes (bytes_of_string s) = s.
Proof.
  unfold string_of_bytes, bytes_of_string. rewrite map_map. rewrite (map_ext _ id).
  - rewrite map_id. apply string_of_list_ascii_of_string.
  - intros c. apply ascii_N_embedding.
Qed.
Lemma encode_some c : (1 ≤ length (encode c))%nat.
Proof.
  destruct c as [z|l|s|l|m|n c|b| |bits]; cbn [encode]; rewrite ?app_length; try (pose proof (head_length 0 (Z.to_N z)); pose proof (head_length 1 (Z.to_N (-1 - z))); destruct (0 <=? z)%Z; lia).
  - pose proof (head_length 2 (size l)). lia.
  - pose proof (head_length 3 (size (bytes_of_string s))). lia.
  - pose proof (head_length 4 (size l)). lia.
  - pose proof (head_length 5 (size m)). lia.
  - pose proof (head_length 6 n). lia.
  - destruct b; simpl; lia.
  - simpl. lia.
  - simpl. lia.
Qed.
(** How deep the reader goes. *)
Fixpoint depth (c : cbor) : nat :=
  match c with
  | CArr l => S ((fix go l := match l with [] => 0 | c :: r => depth c `max` go r end) l)
  | CMap m => S ((fix go (m : list (cbor * cbor)) := match m with [] => 0 | (k, v) :: r => depth k `max` depth v `max` go r end) m)
  | CTag _ c => S (depth c)
  | _ => 1
  end%nat.
Lemma depth_arr l n : (depth (CArr l) ≤ S n)%nat ↔ Forall (λ c, depth c ≤ n)%nat l.
Proof.
  cbn [depth]. induction l as [|c l IH]; [split; [constructor|lia]|]. rewrite Forall_cons, <- IH. lia.
Qed.
Lemma depth_map m n : (depth (CMap m) ≤ S n)%nat ↔ Forall (λ kv, depth kv.1 ≤ n ∧ depth kv.2 ≤ n)%nat m.
Proof.
  cbn [depth]. induction m as [|[k v] m IH]; [split; [constructor|lia]|]. rewrite Forall_cons, <- IH. simpl. lia.
Qed.
Lemma depth_le c : (depth c ≤ length (encode c))%nat.
Proof.
  induction c as [z|l|s|l IH|m IH|n c IH|b| |bits] using cbor_ind'; try (apply encode_some).
  - rewrite encode_arr, app_length. pose proof (head_length 4 (size l)).
    enough (depth (CArr l) ≤ S (length (encode_all l)))%nat by lia. apply depth_arr.
    clear H. induction IH as [|c l Hc _ IH]; [constructor|]. unfold encode_all. cbn [map concat]. rewrite app_length. constructor; [lia|].
    eapply Forall_impl; [exact IH|]. unfold encode_all. simpl. intros ??. lia.
  - rewrite encode_map, app_length. pose proof (head_length 5 (size m)).
    enough (depth (CMap m) ≤ S (length (encode_pairs m)))%nat by lia. apply depth_map.
    clear H. induction IH as [|[k v] m [Hk Hv] _ IH]; [constructor|]. unfold encode_pairs. cbn [map concat fst snd] in *. rewrite !app_length. constructor; [simpl; lia|].
    eapply Forall_impl; [exact IH|]. unfold encode_pairs. simpl. intros ? [??]. lia.
  - cbn [encode depth]. rewrite app_length. pose proof (head_length 6 n). lia.
Qed.
Lemma size_lt {A} (l : list A) (k : nat) : (length l ≤ k)%nat → N.of_nat k < word → size l < word.
Proof. unfold size. lia. Qed.
Lemma encode_all_length l : (length l ≤ length (encode_all l))%nat.
Proof. induction l as [|c l IH]; [done|]. unfold encode_all in *. cbn [map concat length]. rewrite app_length. pose proof (encode_some c). lia. Qed.
Lemma encode_pairs_length m : (length m ≤ length (encode_pairs m))%nat.
Proof.
  induction m as [|[k v] m IH]; [done|]. unfold encode_pairs in *. cbn [map concat length fst snd]. rewrite !app_length. pose proof (encode_some k). lia.
Qed.
Lemma read_many_all one l rest : Forall (λ c, ∀ r, one (encode c ++ r) = Some (c, r)) l →
  read_many one (length l) (encode_all l ++ rest) = Some (l, rest).
Proof.
  induction 1 as [|c l Hc _ IH]; [done|]. unfold encode_all in *. cbn [map concat length read_many]. rewrite <- app_assoc, Hc. by rewrite IH.
Qed.
Lemma read_pairs_all one m rest : Forall (λ kv, (∀ r, one (encode kv.1 ++ r) = Some (kv.1, r)) ∧ ∀ r, one (encode kv.2 ++ r) = Some (kv.2, r)) m →
  read_pairs one (length m) (encode_pairs m ++ rest) = Some (m, rest).
Proof.
  induction 1 as [|[k v] m [Hk Hv] _ IH]; [done|]. unfold encode_pairs in *. cbn [map concat length read_pairs fst snd] in *.
  rewrite <- !app_assoc, Hk, Hv. by rewrite IH.
Qed.
Lemma read_value_encode c : in_range c → N.of_nat (length (encode c)) < word → ∀ d rest, (depth c ≤ d)%nat →
  read_value d (encode c ++ rest) = Some (c, rest).
Proof.
  induction c as [z|l|s|l IH|m IH|n c IH|b| |bits] using cbor_ind'; intros Hr Hl [|d] rest Hd;
    try (exfalso; revert Hd; cbn [depth]; lia).
  - cbn [in_range] in Hr. cbn [encode]. destruct (Z.leb_spec 0 z) as [H0|H0].
    + destruct (read_head_head 0 (Z.to_N z) rest) as (i & t & E & Ea); [done|lia|]. cbn [read_value]. rewrite E, Ea. simpl. do 3 f_equal. lia.
    + destruct (read_head_head 1 (Z.to_N (-1 - z)) rest) as (i & t & E & Ea); [done|lia|]. cbn [read_value]. rewrite E, Ea. simpl. do 3 f_equal. lia.
  - cbn [encode] in *. rewrite <- app_assoc. rewrite app_length in Hl.
    destruct (read_head_head 2 (size l) (l ++ rest)) as (i & t & E & Ea); [done|unfold size; lia|]. cbn [read_value]. rewrite E, Ea.
    cbn [N.eqb Pos.eqb]. by rewrite read_bytes_app.
  - cbn [encode] in *. rewrite <- app_assoc. rewrite app_length in Hl.
    destruct (read_head_head 3 (size (bytes_of_string s)) (bytes_of_string s ++ rest)) as (i & t & E & Ea); [done|unfold size; lia|]. cbn [read_value]. rewrite E, Ea.
    cbn [N.eqb Pos.eqb]. by rewrite read_bytes_app, string_bytes.
  - rewrite encode_arr in *. rewrite <- app_assoc. rewrite app_length in Hl. apply depth_arr in Hd. apply in_range_arr in Hr.
    pose proof (encode_all_length l) as Hal.
    destruct (read_head_head 4 (size l) (encode_all l ++ rest)) as (i & t & E & Ea); [done|unfold size; lia|]. cbn [read_value]. rewrite E, Ea.
    cbn [N.eqb Pos.eqb]. destruct (N.leb_spec (size l) (size (encode_all l ++ rest))) as [_|H]; [|unfold size in H; rewrite app_length in H; lia].
    unfold size. rewrite Nat2N.id, read_many_all; [done|].
    assert (Hs : Forall (λ c, N.of_nat (length (encode c)) < word) l).
    { assert (Hl' : N.of_nat (length (encode_all l)) < word) by lia. clear -Hl'. induction l as [|c l IHl]; [constructor|].
      unfold encode_all in *. cbn [map concat] in Hl'. rewrite app_length in Hl'. constructor; [lia|]. apply IHl. lia. }
    clear -IH Hr Hd Hs. induction l as [|c l IHl]; [constructor|]. apply Forall_cons in IH as [H1 IH]. apply Forall_cons in Hr as [H2 Hr].
    apply Forall_cons in Hd as [H3 Hd]. apply Forall_cons in Hs as [H4 Hs]. constructor; [|by apply IHl]. intros r. by apply H1.
  - rewrite encode_map in *. rewrite <- app_assoc. rewrite app_length in Hl. apply depth_map in Hd. apply in_range_map in Hr.
    pose proof (encode_pairs_length m) as Hal.
    destruct (read_head_head 5 (size m) (encode_pairs m ++ rest)) as (i & t & E & Ea); [done|unfold size; lia|]. cbn [read_value]. rewrite E, Ea.
    cbn [N.eqb Pos.eqb]. destruct (N.leb_spec (size m) (size (encode_pairs m ++ rest))) as [_|H]; [|unfold size in H; rewrite app_length in H; lia].
    unfold size. rewrite Nat2N.id, read_pairs_all; [done|].
    assert (Hs : Forall (λ kv, N.of_nat (length (encode kv.1)) < word ∧ N.of_nat (length (encode kv.2)) < word) m).
    { assert (Hl' : N.of_nat (length (encode_pairs m)) < word) by lia. clear -Hl'. induction m as [|[k v] m IHm]; [constructor|].
      unfold encode_pairs in *. cbn [map concat fst snd] in Hl'. rewrite !app_length in Hl'. constructor; [simpl; lia|]. apply IHm. lia. }
    clear -IH Hr Hd Hs. induction m as [|[k v] m IHm]; [constructor|]. apply Forall_cons in IH as [[H1 H1'] IH]. apply Forall_cons in Hr as [[H2 H2'] Hr].
    apply Forall_cons in Hd as [[H3 H3'] Hd]. apply Forall_cons in Hs as [[H4 H4'] Hs]. constructor; [|by apply IHm].
    split; intros r; [by apply H1|by apply H1'].
  - cbn [in_range] in Hr. destruct Hr as [Hn Hr]. cbn [encode] in *. rewrite <- app_assoc. rewrite app_length in Hl.
    destruct (read_head_head 6 n (encode c ++ rest)) as (i & t & E & Ea); [done|done|]. cbn [read_value]. rewrite E, Ea.
    cbn [N.eqb Pos.eqb]. rewrite IH; [done|done|lia|]. cbn [depth] in Hd. lia.
  - by destruct b.
  - done.
  - destruct Hr as [Hb Hlen].
    assert (∀ i, i = 25 ∧ length bits = 2%nat ∨ i = 26 ∧ length bits = 4%nat ∨ i = 27 ∧ length bits = 8%nat →
      read_value (S d) ((224 + i) :: bits ++ rest) = Some (CFloat bits, rest)) as H.
    { intros i Hi. assert (E : read_head ((224 + i) :: bits ++ rest) = Some (7, i, bits, rest)).
      { unfold read_head. pose proof (read_bytes_app bits rest) as Hrb. unfold size in Hrb.
        destruct Hi as [[-> Hi]|[[-> Hi]|[-> Hi]]]; rewrite Hi in Hrb; simpl; simpl in Hrb; by rewrite Hrb. }
      cbn [read_value]. rewrite E. destruct Hi as [[-> _]|[[-> _]|[-> _]]]; done. }
    cbn [encode]. destruct (bool_decide_reflect (length bits = 2%nat)) as [E2|N2]; [apply (H 25); tauto|].
    destruct (bool_decide_reflect (length bits = 4%nat)) as [E4|N4]; [apply (H 26); tauto|]. apply (H 27). tauto.
Qed.
Lemma decode_encode c rest : in_range c → N.of_nat (length (encode c)) < word → decode (encode c ++ rest) = Some c.
Proof.
  intros Hr Hl. unfold decode. rewrite read_value_encode; [done|done|done|]. rewrite app_length. pose proof (depth_le c). lia.
Qed.
Lemma encode_bytes c : in_range c → bytes (encode c).
Proof.
  induction c as [z|l|s|l IH|m IH|n c IH|b| |bits] using cbor_ind'; intros Hr.
  - cbn [encode]. destruct (0 <=? z)%Z; by apply head_bytes.
  - cbn [encode in_range] in *. apply Forall_app. split; [by apply head_bytes|done].
  - cbn [encode]. apply Forall_app. split; [by apply head_bytes|]. unfold bytes_of_string. apply Forall_fmap, Forall_forall. intros c _. apply N_ascii_bounded.
  - rewrite encode_arr. apply in_range_arr in Hr. apply Forall_app. split; [by apply head_bytes|].
    induction IH as [|c l Hc _ IH]; [constructor|]. apply Forall_cons in Hr as [H1 H2]. unfold encode_all. cbn [map concat]. apply Forall_app. split; [by apply Hc|by apply IH].
  - rewrite encode_map. apply in_range_map in Hr. apply Forall_app. split; [by apply head_bytes|].
    induction IH as [|[k v] m [Hk Hv] _ IH]; [constructor|]. apply Forall_cons in Hr as [[H1 H1'] H2]. unfold encode_pairs. cbn [map concat fst snd] in *.
    rewrite <- app_assoc. apply Forall_app. split; [by apply Hk|]. apply Forall_app. split; [by apply Hv|by apply IH].
  - destruct Hr as [Hn Hr]. cbn [encode]. apply Forall_app. split; [by apply head_bytes|by apply IH].
  - destruct b; repeat constructor.
  - repeat constructor.
  - destruct Hr as [Hb Hlen]. cbn [encode]. constructor; [|done]. repeat case_match; lia.
Qed.
