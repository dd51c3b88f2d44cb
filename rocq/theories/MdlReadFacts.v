(** Licences are read back. *)
From Coq Require Import Lia DecimalString.
From Verif Require Import Base Json Sha256 MdlModel MdlSpec MdlFacts CborModel CborFacts MdlCbor MdlRead.

(** ** The tables of the issuer *)
Lemma ainsert_keys {A B} k (v : A) (v' : B) l l' : keys l = keys l' → keys (ainsert k v l) = keys (ainsert k v' l').
Proof.
  revert l'. induction l as [|[k1 a] l IH]; intros [|[k2 b] l'] H; try done. simpl in *. injection H as -> H.
  case_bool_decide; simpl; [by f_equal|]. f_equal. by apply IH.
Qed.
Lemma ainsert_in {A} k (v : A) l x : x ∈ keys (ainsert k v l) ↔ x = k ∨ x ∈ keys l.
Proof.
  induction l as [|[k' a] l IH]; simpl; [rewrite elem_of_list_singleton, elem_of_nil; tauto|].
  case_bool_decide as E; simpl; rewrite !elem_of_cons; [subst; tauto|]. rewrite IH. tauto.
Qed.
Lemma ainsert_nodup {A} k (v : A) l : NoDup (keys l) → NoDup (keys (ainsert k v l)).
Proof.
  induction l as [|[k' a] l IH]; intros H; simpl; [apply NoDup_singleton|].
  simpl in H. apply NoDup_cons in H as [H1 H2]. case_bool_decide as E; simpl; apply NoDup_cons; (split; [|auto]); [by subst|].
  rewrite ainsert_in. by intros [->|?].
Qed.
Lemma assoc_in_iff {A} k (v : A) l : NoDup (keys l) → (k, v) ∈ l ↔ assoc k l = Some v.
Proof.
  intros Hnd. induction l as [|[k' a] l IH]; simpl; [split; [by intros ?%elem_of_nil|done]|].
  simpl in Hnd. apply NoDup_cons in Hnd as [Hn Hnd]. rewrite elem_of_cons, (IH Hnd). case_bool_decide as E.
  - subst. split; [|intros [= ->]; by left]. intros [[= ->]|H]; [done|]. exfalso. apply Hn.
    apply IH in H; [|done]. change k' with (k', v).1. by apply elem_of_list_fmap_1.
  - split; [intros [[= -> ->]|?]; done|by right].
Qed.
Definition tables_ok (salts : list (list N)) (s : mdl_state) : Prop :=
  keys (ms_items s) = keys (ms_digests s) ∧ NoDup (keys (ms_items s)) ∧
  (∀ ns items it, (ns, items) ∈ ms_items s → it ∈ items → it_random it ∈ salts) ∧
  (∀ ns items, (ns, items) ∈ ms_items s → items ≠ []) ∧ (∀ x, x ∈ ms_salts s → x ∈ salts).
Lemma ainsert_elem {A} k (v : A) l x : x ∈ ainsert k v l → x = (k, v) ∨ x ∈ l.
Proof.
  induction l as [|[k' a] l IH]; simpl; [rewrite elem_of_list_singleton; tauto|].
  case_bool_decide as E; rewrite !elem_of_cons; [tauto|]. intros [->|H]; [tauto|]. apply IH in H. tauto.
Qed.
Lemma elements_tables checked enc key salts elements : ∀ used s s', tables_ok salts s →
  mdl_elements checked enc key used elements s = Some (Ok s') → tables_ok salts s'.
Proof.
  induction elements as [|[k v] rest IH]; intros used s s' Hs H; simpl in H; [by injection H as <-|].
  destruct (digest_gen checked used (ms_draws s)) as [[[[id used'] draws]|e|w]|]; try done.
  destruct (ms_salts s) as [|salt ss] eqn:Es; [done|]. destruct (enc_item enc _) as [bs|]; [|done].
  apply IH in H; [done|]. destruct Hs as (H1 & H2 & H3 & H4 & H5). split; [|split; [|split; [|split]]]; cbn [ms_items ms_digests ms_salts].
  - by apply ainsert_keys.
  - by apply ainsert_nodup.
  - intros ns items it Hin Hit. apply ainsert_elem in Hin as [[= -> ->]|Hin]; [|by eapply H3].
    apply elem_of_app in Hit as [Hit|Hit].
    + destruct (assoc key (ms_items s)) as [old|] eqn:Ea; simpl in Hit; [|by apply elem_of_nil in Hit].
      eapply H3; [|exact Hit]. by apply assoc_in_iff.
    + apply elem_of_list_singleton in Hit as ->. simpl. apply H5. rewrite Es. apply elem_of_cons. by left.
  - intros ns items Hin. apply ainsert_elem in Hin as [[= -> ->]|Hin]; [|by eapply H4]. by intros [_ ?]%app_eq_nil.
  - intros x Hx. apply H5. rewrite Es. apply elem_of_cons. by right.
Qed.
Lemma name_spaces_tables checked enc salts dataset : ∀ s s', tables_ok salts s →
  mdl_name_spaces checked enc dataset s = Some (Ok s') → tables_ok salts s'.
Proof.
  induction dataset as [|[key value] rest IH]; intros s s' Hs H; simpl in H; [by injection H as <-|].
  destruct value; try done. destruct (mdl_elements checked enc key [] m s) as [[s1|e|w]|] eqn:E; try done.
  apply (IH s1); [by eapply elements_tables|done].
Qed.

(** ** Sorting *)
Lemma put_perm {K A} leb (x : K * A) l : put leb x l ≡ₚ x :: l.
Proof. induction l as [|y l IH]; simpl; [done|]. destruct (leb x.1 y.1); [done|]. rewrite IH. apply Permutation_swap. Qed.
Lemma sorted_perm {K A} leb (l : list (K * A)) : sorted_by leb l ≡ₚ l.
Proof. induction l as [|x l IH]; simpl; [done|]. rewrite put_perm. by apply Permutation_skip. Qed.
Lemma sorted_in {K A} leb x (l : list (K * A)) : x ∈ sorted_by leb l ↔ x ∈ l.
Proof. by rewrite (sorted_perm leb l). Qed.
Lemma put_keys {K A B} leb (x : K * A) (x' : K * B) l l' : x.1 = x'.1 → map fst l = map fst l' →
  map fst (put leb x l) = map fst (put leb x' l').
Proof.
  intros Hx. revert l'. induction l as [|[k a] l IH]; intros [|[k' a'] l'] H; try done; simpl in *; [by rewrite Hx|].
  injection H as -> H. rewrite Hx. destruct (leb x'.1 k'); simpl; [by rewrite Hx, H|]. by rewrite (IH l' H).
Qed.
Lemma sorted_keys {K A B} leb (l : list (K * A)) (l' : list (K * B)) : map fst l = map fst l' →
  map fst (sorted_by leb l) = map fst (sorted_by leb l').
Proof.
  revert l'. induction l as [|x l IH]; intros [|x' l'] H; try done. simpl in *. injection H as Hx H. apply put_keys; [done|by apply IH].
Qed.

(** ** In range *)
Lemma u8s_range l : bytes l → in_range (u8s l).
Proof.
  intros H. unfold u8s. apply in_range_arr. induction H as [|b l Hb _ IH]; [constructor|]. constructor; [|done].
  cbn [in_range]. unfold word. lia.
Qed.
Lemma json_cbor_obj p m : json_cbor p (JObj m) = CMap (map (λ kv, (CText kv.1, json_cbor p kv.2)) m).
Proof. cbn [json_cbor]. f_equal. induction m as [|[k v] m IH]; [done|]. cbn [map fst snd]. by f_equal. Qed.
Lemma json_ind'' (P : json → Prop) : P JNull → (∀ b, P (JBool b)) → (∀ t, P (JNum t)) → (∀ s, P (JStr s)) →
  (∀ l, Forall P l → P (JArr l)) → (∀ m, Forall (λ kv, P kv.2) m → P (JObj m)) → ∀ j, P j.
Proof.
  intros H1 H2 H3 H4 H5 H6. fix IH 1. intros [|b|t|s|l|m]; [apply H1|apply H2|apply H3|apply H4| |].
  - apply H5. induction l as [|c l IHl]; constructor; [apply IH|apply IHl].
  - apply H6. induction m as [|[k v] m IHm]; constructor; [apply IH|apply IHm].
Qed.
Lemma json_range p j : sound p → in_range (json_cbor p j).
Proof.
  intros [_ Hf]. induction j as [| | | |l IH|m IH] using json_ind''; try done.
  - cbn [json_cbor]. unfold number_cbor. case_bool_decide; [apply Hf|]. destruct (NilZero.int_of_string t) as [i|]; [|apply Hf].
    destruct ((_ <=? _)%Z && _) eqn:E; [|apply Hf]. apply andb_true_iff in E as [E1 E2]. apply Z.leb_le in E1. apply Z.ltb_lt in E2.
    cbn [in_range]. unfold word. lia.
  - cbn [json_cbor]. apply in_range_arr. by apply Forall_fmap.
  - rewrite json_cbor_obj. apply in_range_map. apply Forall_fmap. eapply Forall_impl; [exact IH|]. intros kv H. by split.
Qed.
Definition good_item (it : item) : Prop := i32 (it_id it) ∧ bytes (it_random it).
Lemma item_range p it : sound p → good_item it → in_range (item_cbor p it).
Proof.
  intros Hp [Hi Hr]. unfold item_cbor. apply in_range_map. unfold i32 in Hi.
  repeat (apply Forall_cons; split); [| | | |constructor]; (split; [done|]); cbn [fst snd].
  - cbn [in_range]. unfold word. lia.
  - by apply u8s_range.
  - done.
  - by apply json_range.
Qed.
Lemma tag24_range c : in_range c → in_range (tag24 c).
Proof. intros H. split; [done|]. by apply encode_bytes. Qed.
Lemma word_byte x : bytes (bytes_of_word x).
Proof.
  assert (∀ y, N.land y 255 < 256)%N as H.
  { intros y. change 255%N with (N.ones 8). rewrite N.land_ones. by apply N.mod_lt. }
  unfold bytes_of_word. repeat constructor; apply H.
Qed.
Lemma sha256_bytes m : bytes (sha256 m).
Proof.
  unfold sha256. cbv zeta. unfold bytes. apply Forall_concat, Forall_fmap, Forall_forall. intros w _. apply word_byte.
Qed.
Definition good_table (t : list (Z * list N)) : Prop := Forall (λ e, i32 e.1 ∧ bytes e.2) t.
Lemma digests_range t : good_table t → in_range (digests_cbor t).
Proof.
  intros H. unfold digests_cbor. apply in_range_map, Forall_fmap. unfold good_table in H. rewrite <- (sorted_perm Z.leb) in H.
  eapply Forall_impl; [exact H|]. intros [i d] [Hi Hd]. split; simpl; [|by apply u8s_range]. unfold i32 in Hi. simpl in Hi. unfold word. lia.
Qed.
Definition good_mso (s : mso) : Prop := bytes (mso_device_key s) ∧ Forall (λ e, good_table e.2) (mso_digests s).
Lemma mso_range p s : sound p → good_mso s → in_range (mso_cbor p s).
Proof.
  intros [Hk _] [Hb Ht]. unfold mso_cbor. apply in_range_map.
  repeat (apply Forall_cons; split); [| | | | | |constructor]; (split; [done|]); cbn [fst snd]; try done.
  - apply in_range_map, Forall_fmap. rewrite <- (sorted_perm String.leb) in Ht. eapply Forall_impl; [exact Ht|].
    intros e He. split; [done|]. by apply digests_range.
  - apply in_range_map. constructor; [|constructor]. split; [done|by apply Hk].
Qed.
Lemma to_vec_bytes p c : in_range c → bytes (to_vec p c).
Proof. intros H. unfold to_vec. destruct (lib_tagged p); [by apply encode_bytes, tag24_range|by apply encode_bytes]. Qed.
Definition good_mdoc (m : mdoc) : Prop :=
  Forall (λ e, Forall good_item e.2) (md_name_spaces m) ∧ bytes (cose_payload (md_issuer_auth m)) ∧ bytes (cose_signature (md_issuer_auth m)).
Lemma mdoc_range p m : sound p → good_mdoc m → in_range (mdoc_cbor p m).
Proof.
  intros Hp (Hi & Hb & Hs). unfold mdoc_cbor. apply in_range_map.
  repeat (apply Forall_cons; split); [| |constructor]; (split; [done|]); cbn [fst snd].
  - apply in_range_map, Forall_fmap. rewrite <- (sorted_perm String.leb) in Hi. eapply Forall_impl; [exact Hi|].
    intros e He. split; [done|]. simpl fst; simpl snd. apply in_range_arr, Forall_fmap. eapply Forall_impl; [exact He|].
    intros it Hit. by apply tag24_range, item_range.
  - unfold cose_cbor. apply in_range_arr.
    apply Forall_cons; split; [|apply Forall_cons; split; [|apply Forall_cons; split; [done|apply Forall_cons; split; [done|constructor]]]].
    + cbn [in_range]. apply encode_bytes, in_range_map. constructor; [|constructor].
      split; cbn [fst snd in_range]; unfold word; [lia|]. destruct (cose_protected _). lia.
    + apply in_range_map. constructor; [|constructor]. split; cbn [fst snd in_range]; unfold word; [lia|].
      unfold bytes, bytes_of_string. apply Forall_fmap, Forall_forall. intros c _. apply N_ascii_bounded.
Qed.

(** ** Parts are not longer than the whole *)
Lemma arr_part c l : c ∈ l → (length (encode c) ≤ length (encode (CArr l)))%nat.
Proof.
  intros H. rewrite encode_arr, app_length. enough (length (encode c) ≤ length (encode_all l)) by lia.
  unfold encode_all. induction H as [c l|c c' l _ IH]; cbn [map concat]; rewrite app_length; lia.
Qed.
Lemma map_part k v m : (k, v) ∈ m → (length (encode v) ≤ length (encode (CMap m)))%nat.
Proof.
  intros H. rewrite encode_map, app_length. enough (length (encode v) ≤ length (encode_pairs m)) by lia.
  unfold encode_pairs. remember (k, v) as kv. induction H as [c l|c c' l _ IH]; cbn [map concat]; rewrite !app_length; [subst; simpl; lia|]. apply IH in Heqkv. lia.
Qed.
Lemma tag24_part c : (length (encode c) ≤ length (encode (tag24 c)))%nat.
Proof. unfold tag24. cbn [encode]. rewrite !app_length. lia. Qed.
Lemma bytes_part l : (length l ≤ length (encode (CBytes l)))%nat.
Proof. cbn [encode]. rewrite app_length. lia. Qed.

(** ** Reading *)
Lemma mapM_map_some {A B C} (f : A → B) (d : B → option C) (g : A → C) l : (∀ a, a ∈ l → d (f a) = Some (g a)) →
  mapM d (map f l) = Some (map g l).
Proof.
  induction l as [|a l IH]; intros H; [done|]. simpl. rewrite (H a) by (apply elem_of_cons; by left). simpl.
  rewrite IH; [done|]. intros b Hb. apply H, elem_of_cons. by right.
Qed.
Lemma u8s_read l : bytes l → some_u8s (u8s l) = Some l.
Proof.
  intros H. unfold u8s, some_u8s. rewrite (mapM_map_some _ a_u8 id); [by rewrite map_id|]. intros b Hb.
  unfold bytes in H. rewrite Forall_forall in H. apply H in Hb. unfold a_u8.
  destruct (Z.leb_spec 0 (Z.of_N b)); [|lia]. destruct (Z.ltb_spec (Z.of_N b) 256); [|lia]. simpl. f_equal. apply N2Z.id.
Qed.
Lemma i32_read z : i32 z → an_i32 (CInt z) = Some z.
Proof. intros [H1 H2]. unfold an_i32. apply Z.leb_le in H1. apply Z.ltb_lt in H2. by rewrite H1, H2. Qed.
Lemma entries_read {K A B} (fk : K → cbor) (f : A → cbor) dk (d : cbor → option B) g l :
  (∀ k a, (k, a) ∈ l → dk (fk k) = Some k ∧ d (f a) = Some (g a)) →
  entries dk d (CMap (map (λ e, (fk e.1, f e.2)) l)) = Some (map (λ e, (e.1, g e.2)) l).
Proof.
  intros H. unfold entries, a_map. apply mapM_map_some. intros [k a] Hin. destruct (H k a Hin) as [H1 H2]. cbn [fst snd].
  rewrite H1. simpl. by rewrite H2.
Qed.
Definition as_read (p : libraries) (it : item) : read_item := ReadItem (it_id it) (it_random it) (it_element it) (json_cbor p (it_value it)).
Lemma item_read p it : good_item it → de_item (item_cbor p it) = Some (as_read p it).
Proof.
  intros [Hi Hr]. unfold de_item, item_cbor, a_map.
  change (member an_i32 "digest_id" _) with (an_i32 (CInt (it_id it))). rewrite (i32_read _ Hi). cbn [mbind option_bind].
  change (member some_u8s "random" _) with (some_u8s (u8s (it_random it))). rewrite (u8s_read _ Hr). reflexivity.
Qed.
Lemma mso_read p s : Forall (λ e, good_table e.2) (mso_digests s) → de_mso (mso_cbor p s) =
  Some (ReadMso (map (λ e, (e.1, sorted_by Z.leb e.2)) (sorted_by String.leb (mso_digests s))) (lib_key p (mso_device_key s))
    "org.iso.18013.5.1.mDL" (lib_date p (mso_signed s)) (lib_date p (mso_valid_from s)) (lib_date p (mso_valid_until s))).
Proof.
  intros Hd. unfold de_mso, mso_cbor, a_map.
  change (member a_text "version" _) with (Some "1.0"). cbn [mbind option_bind].
  change (member _ "digestAlgorithm" _) with (Some ()). cbn [mbind option_bind].
  change (member (entries a_text (entries an_i32 some_u8s)) "valueDigests" _) with
    (entries a_text (entries an_i32 some_u8s) (CMap (map (λ e, (CText e.1, digests_cbor e.2)) (sorted_by String.leb (mso_digests s))))).
  rewrite (entries_read CText digests_cbor a_text _ (sorted_by Z.leb)); [reflexivity|].
  intros k t Hin. split; [done|]. unfold digests_cbor. rewrite (entries_read CInt u8s an_i32 some_u8s id).
  - f_equal. rewrite (map_ext _ id); [apply map_id|]. by intros [].
  - intros i d Hid. apply sorted_in in Hin, Hid. rewrite Forall_forall in Hd. apply Hd in Hin. unfold good_table in Hin.
    rewrite Forall_forall in Hin. apply Hin in Hid as [Hi Hb]. split; [by apply i32_read|by apply u8s_read].
Qed.
Lemma licence_read p m : de_licence (mdoc_cbor p m) =
  Some (Licence (map (λ e, (e.1, map (λ it, encode (item_cbor p it)) e.2)) (sorted_by String.leb (md_name_spaces m)))
    (ReadAuth [161; 1; 39]%N (bytes_of_string (cose_key_id (md_issuer_auth m))) (cose_payload (md_issuer_auth m)) (cose_signature (md_issuer_auth m)))).
Proof.
  unfold de_licence, mdoc_cbor, a_map.
  change (member (entries a_text (seq de_tag24)) "nameSpaces" _) with
    (entries a_text (seq de_tag24) (CMap (map (λ e, (CText e.1, CArr (map (λ it, tag24 (item_cbor p it)) e.2))) (sorted_by String.leb (md_name_spaces m))))).
  rewrite (entries_read CText (λ l, CArr (map (λ it, tag24 (item_cbor p it)) l)) a_text (seq de_tag24) (map (λ it, encode (item_cbor p it)))).
  - destruct (md_issuer_auth m) as [[] k pl sg]. reflexivity.
  - intros k l _. split; [done|]. unfold seq. by apply mapM_map_some.
Qed.
