From Verif Require Import Base Json Sha256 MdlModel MdlSpec.

Lemma assoc_ainsert {A} k k' (v : A) l : assoc k (ainsert k' v l) = if bool_decide (k = k') then Some v else assoc k l.
Proof.
  induction l as [|[k0 v0] l IH]; simpl; [done|].
  destruct (bool_decide (k' = k0)) eqn:E; simpl.
  - apply bool_decide_eq_true in E as ->. by case_bool_decide.
  - apply bool_decide_eq_false in E. rewrite IH. repeat case_bool_decide; congruence.
Qed.
Lemma zinsert_fresh {A} k (v : A) l : k ∉ map fst l → zinsert k v l = l ++ [(k, v)].
Proof.
  induction l as [|[k' v'] l IH]; simpl; [done|]. intros [H1 H2]%not_elem_of_cons.
  destruct (Z.eqb_spec k k'); [done|]. by rewrite IH.
Qed.
Lemma digest_gen_ok checked used draws id used' rest :
  digest_gen checked used draws = Some (Ok (id, used', rest)) →
  id ∉ used ∧ used' = id :: used ∧
  ∃ skipped x, draws = skipped ++ x :: rest ∧ i32_abs checked x = Some id.
Proof.
  induction draws as [|x draws IH]; simpl; [done|].
  destruct (i32_abs checked x) as [a|] eqn:Ha; [|done].
  unfold contains. case_bool_decide as Hu.
  - intros H. destruct (IH H) as (? & ? & sk & y & -> & ?). split; [done|]. split; [done|]. by exists (x :: sk), y.
  - intros [= <- <- <-]. split; [done|]. split; [done|]. by exists [], x.
Qed.

(** The table of a list of items. *)
Fixpoint table (enc : encoder) (items : list item) : list (Z * list N) :=
  match items with
  | [] => []
  | it :: r => match enc_item enc it with Some b => (it_id it, sha256 b) :: table enc r | None => table enc r end
  end.
Definition encodable (enc : encoder) (items : list item) : Prop := Forall (λ it, enc_item enc it ≠ None) items.
Lemma table_app enc l1 l2 : table enc (l1 ++ l2) = table enc l1 ++ table enc l2.
Proof. induction l1 as [|x l1 IH]; simpl; [done|]. destruct (enc_item enc x); by rewrite IH. Qed.
Lemma table_fst enc l : encodable enc l → map fst (table enc l) = map it_id l.
Proof. induction 1 as [|x l Hx _ IH]; simpl; [done|]. destruct (enc_item enc x); [|done]. simpl. by f_equal. Qed.
Lemma table_covers enc l : encodable enc l → NoDup (map it_id l) → covers enc l (table enc l).
Proof.
  intros He Hn. split; [done|]. split; [by rewrite table_fst|]. split.
  { rewrite <-(map_length fst), table_fst, map_length by done. done. }
  intros id d. clear Hn. induction He as [|x l Hx _ IH]; simpl.
  - split; [by intros ?%elem_of_nil|]. by intros (? & ? & ?%elem_of_nil & _).
  - destruct (enc_item enc x) as [b|] eqn:E; [|done]. rewrite elem_of_cons, IH. split.
    + intros [[= -> ->]|(it & b' & ? & ? & ? & ?)]; [exists x, b|exists it, b']; rewrite elem_of_cons; auto.
    + intros (it & b' & [->|Hin]%elem_of_cons & <- & Hb & ->); [left; congruence|right; eauto 8].
Qed.

(** The loop over elements appends to the table of its name space. *)
Lemma elements_ok checked enc key elements : ∀ used s s' old,
  default [] (assoc key (ms_items s)) = old → encodable enc old → NoDup (map it_id old) →
  (∀ id, id ∈ map it_id old → id ∈ used) →
  default [] (assoc key (ms_digests s)) = table enc old →
  mdl_elements checked enc key used elements s = Some (Ok s') →
  ∃ new sk,
    default [] (assoc key (ms_items s')) = old ++ new ∧
    encodable enc (old ++ new) ∧ NoDup (map it_id (old ++ new)) ∧
    default [] (assoc key (ms_digests s')) = table enc (old ++ new) ∧
    map element new = elements ∧
    (∀ k, k ≠ key → assoc k (ms_items s') = assoc k (ms_items s) ∧ assoc k (ms_digests s') = assoc k (ms_digests s)) ∧
    ms_draws s = sk ++ ms_draws s' ∧ map it_random new ++ ms_salts s' = ms_salts s ∧
    (∀ it, it ∈ new → ∃ x, x ∈ sk ∧ i32_abs checked x = Some (it_id it)).
Proof.
  induction elements as [|[k v] rest IH]; intros used s s' old Hold He Hn Hu Hd; simpl.
  { intros [= <-]. exists [], []. rewrite app_nil_r. do 8 (split; [done|]). by intros it ?%elem_of_nil. }
  destruct (digest_gen checked used (ms_draws s)) as [[[[id used'] draws']|e|w]|] eqn:Hg; [|done..].
  apply digest_gen_ok in Hg as (Hfresh & -> & skipped & x & Hdr & Hx).
  destruct (ms_salts s) as [|salt salts] eqn:Hs; [done|].
  destruct (enc_item enc (Item id salt k v)) as [bytes|] eqn:Hb; [|done].
  set (it := Item id salt k v) in *. intros H.
  assert (id ∉ map it_id old) as Hnew by auto.
  apply (IH _ _ _ (old ++ [it])) in H.
  - destruct H as (new & sk & Hi & He' & Hn' & Hd' & Hel & Hoth & Hdraw & Hsalt & Hids).
    exists (it :: new), (skipped ++ x :: sk). rewrite <-app_assoc in Hi, He', Hn', Hd'. simpl in Hi, He', Hn', Hd', Hdraw, Hsalt, Hoth.
    split; [done|]. split; [done|]. split; [done|]. split; [done|]. split; [simpl; by f_equal|]. split.
    { intros k0 Hk0. destruct (Hoth k0 Hk0) as [-> ->]. rewrite !assoc_ainsert, !bool_decide_eq_false_2 by done. done. }
    split; [rewrite Hdr, Hdraw, <-app_assoc; done|]. split; [simpl; by f_equal|].
    intros it' [->|Hin]%elem_of_cons.
    + exists x. split; [|done]. apply elem_of_app. right. by left.
    + destruct (Hids _ Hin) as (y & Hy & Hy'). exists y. split; [|done]. apply elem_of_app. right. by right.
  - cbn [ms_items]. rewrite assoc_ainsert, bool_decide_eq_true_2 by done. simpl. by rewrite Hold.
  - apply Forall_app. split; [done|]. apply Forall_singleton. congruence.
  - rewrite map_app. apply NoDup_app. split; [done|]. split; [|apply NoDup_singleton].
    intros y Hy ->%elem_of_list_singleton. done.
  - intros y. rewrite map_app, elem_of_app. intros [Hy| ->%elem_of_list_singleton]; [right; auto|left].
  - cbn [ms_digests]. rewrite assoc_ainsert, bool_decide_eq_true_2 by done. simpl. rewrite Hd.
    rewrite zinsert_fresh by by rewrite table_fst. rewrite table_app. simpl. by rewrite Hb.
Qed.

Definition all_good (enc : encoder) (dataset : list (string * json)) (checked : bool) (sk : list Z) (s : mdl_state) : Prop :=
  ∀ ns, ∃ items,
    default [] (assoc ns (ms_items s)) = items ∧ encodable enc items ∧ NoDup (map it_id items) ∧
    default [] (assoc ns (ms_digests s)) = table enc items ∧ map element items = elements_of dataset ns ∧
    (∀ it, it ∈ items → ∃ x, x ∈ sk ∧ i32_abs checked x = Some (it_id it)).

Lemma name_spaces_ok checked enc rest : ∀ done_ s s' sk0,
  NoDup (keys (done_ ++ rest)) →
  all_good enc done_ checked sk0 s →
  mdl_name_spaces checked enc rest s = Some (Ok s') →
  ∃ sk, all_good enc (done_ ++ rest) checked (sk0 ++ sk) s' ∧ ms_draws s = sk ++ ms_draws s'.
Proof.
  induction rest as [|[key value] rest IH]; intros done_ s s' sk0 Hnd Hg; simpl.
  { intros [= <-]. exists []. rewrite !app_nil_r. done. }
  destruct value as [| | | | |elements]; try done.
  destruct (mdl_elements checked enc key [] elements s) as [[s1|e|w]|] eqn:Hel; [|done..]. intros H.
  assert (key ∉ keys done_) as Hkey.
  { unfold keys in *. rewrite map_app in Hnd. apply NoDup_app in Hnd as (_ & Hd & _). intros Hk. apply (Hd _ Hk). by left. }
  assert (∀ ns (l2 : list (string * json)), assoc ns (done_ ++ l2) = match assoc ns done_ with Some v => Some v | None => assoc ns l2 end) as Happ.
  { intros ns l2. clear. induction done_ as [|[k v] l IH]; simpl; [done|]. by case_bool_decide. }
  assert (assoc key done_ = None) as Hnone.
  { clear -Hkey. induction done_ as [|[k v] l IH]; simpl in *; [done|]. apply not_elem_of_cons in Hkey as [H1 H2].
    rewrite bool_decide_eq_false_2 by done. auto. }
  assert (default [] (assoc key (ms_items s)) = [] ∧ default [] (assoc key (ms_digests s)) = []) as [Hi0 Hd0].
  { destruct (Hg key) as (items & Hi & _ & _ & Hd & Hm & _). unfold elements_of in Hm. rewrite Hnone in Hm.
    destruct items; [done|done]. }
  apply (elements_ok checked enc key elements [] s s1 []) in Hel as (new & sk1 & Hi & He & Hn & Hd & Hm & Hoth & Hdr & _ & Hids);
    [|done|by apply Forall_nil|apply NoDup_nil_2|by intros ? ?%elem_of_nil|done].
  change (done_ ++ (key, JObj elements) :: rest) with (done_ ++ [(key, JObj elements)] ++ rest) in *.
  rewrite app_assoc in *.
  apply (IH (done_ ++ [(key, JObj elements)]) s1 s' (sk0 ++ sk1)) in H.
  - destruct H as (sk & Hall & Hdr'). exists (sk1 ++ sk). rewrite app_assoc. split; [done|]. by rewrite Hdr, Hdr', app_assoc.
  - done.
  - intros ns. destruct (decide (ns = key)) as [->|Hne].
    + exists new. simpl in *. split; [done|]. split; [done|]. split; [done|]. split; [done|]. split.
      * unfold elements_of. rewrite Happ, Hnone. simpl. by rewrite bool_decide_eq_true_2.
      * intros it Hin. destruct (Hids it Hin) as (x & Hx & ?). exists x. split; [|done]. apply elem_of_app. by right.
    + destruct (Hoth ns Hne) as [-> ->]. destruct (Hg ns) as (items & Hi' & He' & Hn' & Hd' & Hm' & Hx').
      exists items. split; [done|]. split; [done|]. split; [done|]. split; [done|]. split.
      * rewrite Hm'. unfold elements_of. rewrite Happ. destruct (assoc ns done_); [done|]. simpl.
        by rewrite bool_decide_eq_false_2.
      * intros it Hin. destruct (Hx' it Hin) as (x & Hx & ?). exists x. split; [|done]. apply elem_of_app. by left.
Qed.

Lemma issued checked enc draws salts t1 t2 t3 dataset sg out :
  to_credential checked enc draws salts t1 t2 t3 dataset sg = Some (Ok out) →
  ∃ st key, mdl_name_spaces checked enc dataset (MdlState [] [] draws salts) = Some (Ok st) ∧
    sg_public_key sg = Some key ∧ sg_algorithm sg = EdDSA ∧
    let s := Mso (ms_digests st) key (timestamp t2) (timestamp t3) (timestamp (t1 + seconds (365 * 86400))) in
    ∃ payload bytes, enc_mso enc s = Some payload ∧
      let m := Mdoc (ms_items st) (CoseSign1 CoseEdDSA (sg_verification_method sg) payload (sg_sign sg payload)) in
      enc_mdoc enc m = Some bytes ∧ out = base64url bytes.
Proof.
  unfold to_credential.
  destruct (mdl_name_spaces checked enc dataset (MdlState [] [] draws salts)) as [[st|e|w]|]; [|done..].
  destruct (sg_public_key sg) as [key|]; [|done].
  destruct (enc_mso enc _) as [payload|] eqn:Hp; [|done].
  destruct (sg_algorithm sg); [|done].
  destruct (enc_mdoc enc _) as [bytes|] eqn:Hb; [|done]. intros [= <-].
  exists st, key. split; [done|]. split; [done|]. split; [done|]. cbv zeta. exists payload, bytes. done.
Qed.

Lemma covered checked enc draws salts t1 t2 t3 dataset sg out :
  NoDup (keys dataset) →
  to_credential checked enc draws salts t1 t2 t3 dataset sg = Some (Ok out) →
  ∃ m s, consists_of enc out m s ∧
    ∀ ns, map element (items_of m ns) = elements_of dataset ns ∧ covers enc (items_of m ns) (digests_of s ns) ∧
      ∀ it, it ∈ items_of m ns → ∃ x, x ∈ draws ∧ i32_abs checked x = Some (it_id it).
Proof.
  intros Hnd (st & key & Hst & Hk & Ha & payload & bytes & Hp & Hb & ->)%issued.
  eexists _, _. split; [split; [by exists bytes|exact Hp]|]. intros ns.
  apply (name_spaces_ok checked enc dataset [] _ st []) in Hst; [|done|].
  - destruct Hst as (sk & Hall & Hdr). destruct (Hall ns) as (items & Hi & He & Hn & Hd & Hm & Hx).
    unfold items_of, digests_of. cbn [md_name_spaces mso_digests]. rewrite Hi, Hd. split; [done|].
    split; [by apply table_covers|]. intros it Hin. destruct (Hx it Hin) as (x & Hx' & ?). exists x. split; [|done].
    simpl in Hdr. rewrite Hdr. apply elem_of_app. by left.
  - intros ns'. exists []. simpl. split; [done|]. split; [by apply Forall_nil|]. split; [apply NoDup_nil_2|]. split; [done|].
    split; [done|]. by intros ? ?%elem_of_nil.
Qed.

Lemma abs_valid checked x id : i32 x → i32_abs checked x = Some id → id = i32_min ∧ x = i32_min ∨ valid_id id.
Proof.
  unfold i32, i32_abs, valid_id, i32_min. intros Hx. destruct (Z.eqb_spec x (-2147483648)).
  - destruct checked; [done|]. intros [= <-]. by left.
  - intros [= <-]. right. lia.
Qed.
Lemma ids_valid checked enc draws salts t1 t2 t3 dataset sg out :
  NoDup (keys dataset) → (∀ x, x ∈ draws → i32 x ∧ x ≠ i32_min) →
  to_credential checked enc draws salts t1 t2 t3 dataset sg = Some (Ok out) →
  ∃ m s, consists_of enc out m s ∧ ∀ ns it, it ∈ items_of m ns → valid_id (it_id it).
Proof.
  intros Hnd Hdr (m & s & Hc & Hall)%covered; [|done]. exists m, s. split; [done|]. intros ns it Hin.
  destruct (Hall ns) as (_ & _ & Hx). destruct (Hx it Hin) as (x & Hx' & Ha). destruct (Hdr x Hx') as [Hi Hne].
  destruct (abs_valid checked x (it_id it) Hi Ha) as [[_ ?]|?]; done.
Qed.
Lemma device_key_is checked enc draws salts t1 t2 t3 dataset sg out :
  to_credential checked enc draws salts t1 t2 t3 dataset sg = Some (Ok out) →
  ∃ m s, consists_of enc out m s ∧ Some (mso_device_key s) = sg_public_key sg.
Proof.
  intros (st & key & Hst & Hk & Ha & payload & bytes & Hp & Hb & ->)%issued.
  eexists _, _. split; [split; [by exists bytes|exact Hp]|]. done.
Qed.
Lemma signature_is checked enc draws salts t1 t2 t3 dataset sg out :
  to_credential checked enc draws salts t1 t2 t3 dataset sg = Some (Ok out) →
  ∃ m s, consists_of enc out m s ∧
    cose_signature (md_issuer_auth m) = sg_sign sg (cose_payload (md_issuer_auth m)) ∧
    cose_key_id (md_issuer_auth m) = sg_verification_method sg ∧ sg_algorithm sg = EdDSA.
Proof.
  intros (st & key & Hst & Hk & Ha & payload & bytes & Hp & Hb & ->)%issued.
  eexists _, _. split; [split; [by exists bytes|exact Hp]|]. done.
Qed.
Lemma sig_structure_longer payload : length payload < length (sig_structure payload).
Proof.
  unfold sig_structure. rewrite (app_length [132; 106]%N).
  assert (length payload ≤ length (bstr payload)) by (unfold bstr; rewrite app_length; lia).
  rewrite !app_length. change (length [132; 106]%N) with 2. lia.
Qed.
Lemma validity checked enc draws salts t1 t2 t3 dataset sg out :
  (t1 ≤ t2 ≤ t3)%Z → (t3 ≤ t1 + seconds (364 * 86400))%Z →
  to_credential checked enc draws salts t1 t2 t3 dataset sg = Some (Ok out) →
  ∃ m s, consists_of enc out m s ∧
    (mso_signed s ≤ mso_valid_from s < mso_valid_until s)%Z ∧
    mso_valid_until s = (timestamp t1 + 365 * 86400)%Z.
Proof.
  intros H12 H3 (st & key & Hst & Hk & Ha & payload & bytes & Hp & Hb & ->)%issued.
  eexists _, _. split; [split; [by exists bytes|exact Hp]|]. cbn [mso_signed mso_valid_from mso_valid_until].
  assert (timestamp (t1 + seconds (365 * 86400)) = timestamp t1 + 365 * 86400)%Z as ->.
  { unfold timestamp, seconds. rewrite Z.div_add; [done|]. unfold nanos. lia. }
  assert (timestamp t3 ≤ timestamp t1 + 364 * 86400)%Z.
  { unfold timestamp. etrans; [apply Z.div_le_mono; [unfold nanos; lia|exact H3]|].
    unfold seconds. rewrite Z.div_add; [done|]. unfold nanos. lia. }
  assert (timestamp t2 ≤ timestamp t3)%Z by (apply Z.div_le_mono; [unfold nanos; lia|lia]).
  split; [lia|done].
Qed.

(** Failures. *)
Lemma elements_never_err checked enc key elements : ∀ used s e,
  mdl_elements checked enc key used elements s = Some (Err e) → ∃ it, enc_item enc it = None.
Proof.
  induction elements as [|[k v] rest IH]; intros used s e; simpl; [done|].
  assert (∀ u dr e, digest_gen checked u dr ≠ Some (Err e)) as Hng.
  { clear. intros u dr. induction dr as [|x dr IH]; intros e; simpl; [done|]. destruct (i32_abs checked x); [|done].
    destruct (contains u z); [apply IH|done]. }
  destruct (digest_gen checked used (ms_draws s)) as [[[[id used'] draws']|e'|w]|] eqn:Hg; [|by apply Hng in Hg|done..].
  destruct (ms_salts s); [done|]. destruct (enc_item enc _) eqn:Hb; [apply IH|]. intros _. eauto.
Qed.
Lemma digest_gen_panic checked : ∀ used draws w,
  digest_gen checked used draws = Some (Panic w) → checked = true ∧ i32_min ∈ draws.
Proof.
  intros used draws w. induction draws as [|x dr IH]; simpl; [done|].
  destruct (i32_abs checked x) eqn:Ha.
  - destruct (contains used z); [|done]. intros [? ?]%IH. split; [done|by right].
  - intros _. unfold i32_abs in Ha. destruct (Z.eqb_spec x i32_min); [|done]. destruct checked; [|done].
    split; [done|]. subst. left.
Qed.
Lemma elements_panic checked enc key elements : ∀ used s w,
  mdl_elements checked enc key used elements s = Some (Panic w) → checked = true ∧ i32_min ∈ ms_draws s.
Proof.
  induction elements as [|[k v] rest IH]; intros used s w; simpl; [done|].
  destruct (digest_gen checked used (ms_draws s)) as [[[[id used'] draws']|e'|w']|] eqn:Hg; [|done| |done].
  - apply digest_gen_ok in Hg as (_ & _ & sk & x & Hd & _).
    destruct (ms_salts s); [done|]. destruct (enc_item enc _); [|done]. intros [? Hin]%IH. split; [done|].
    cbn [ms_draws] in Hin. rewrite Hd. apply elem_of_app. right. by right.
  - intros _. by eapply digest_gen_panic.
Qed.
Lemma elements_draws checked enc key elements : ∀ used s s',
  mdl_elements checked enc key used elements s = Some (Ok s') → ∃ sk, ms_draws s = sk ++ ms_draws s'.
Proof.
  induction elements as [|[k v] rest IH]; intros used s s'; simpl; [intros [= ->]; by exists []|].
  destruct (digest_gen checked used (ms_draws s)) as [[[[id used'] draws']|e'|w']|] eqn:Hg; [|done..].
  apply digest_gen_ok in Hg as (_ & _ & sk & x & Hd & _).
  destruct (ms_salts s); [done|]. destruct (enc_item enc _); [|done]. intros (sk' & Hs)%IH. cbn [ms_draws] in Hs.
  exists (sk ++ x :: sk'). by rewrite Hd, Hs, <-app_assoc.
Qed.
Lemma name_spaces_panic checked enc rest : ∀ s w,
  mdl_name_spaces checked enc rest s = Some (Panic w) → checked = true ∧ i32_min ∈ ms_draws s.
Proof.
  induction rest as [|[key value] rest IH]; intros s w; simpl; [done|].
  destruct value as [| | | | |elements]; try done.
  destruct (mdl_elements checked enc key [] elements s) as [[s1|e|w']|] eqn:Hel; [|done| |done].
  - intros [? Hin]%IH. split; [done|]. apply elements_draws in Hel as (sk & ->). apply elem_of_app. by right.
  - intros _. by eapply elements_panic.
Qed.
Lemma panics checked enc draws salts t1 t2 t3 dataset sg w :
  to_credential checked enc draws salts t1 t2 t3 dataset sg = Some (Panic w) → checked = true ∧ i32_min ∈ draws.
Proof.
  unfold to_credential.
  destruct (mdl_name_spaces checked enc dataset (MdlState [] [] draws salts)) as [[st|e|w']|] eqn:E; try done.
  - repeat case_match; done.
  - intros _. by apply name_spaces_panic in E.
Qed.
Lemma not_objects checked enc draws salts t1 t2 t3 dataset sg out :
  to_credential checked enc draws salts t1 t2 t3 dataset sg = Some (Ok out) →
  ∀ ns v, (ns, v) ∈ dataset → ∃ m, v = JObj m.
Proof.
  intros (st & _ & Hst & _)%issued. revert Hst. generalize (MdlState [] [] draws salts). 
  induction dataset as [|[key value] rest IH]; intros s Hst ns v; [by intros ?%elem_of_nil|]. simpl in Hst.
  destruct value as [| | | | |elements]; try done.
  destruct (mdl_elements checked enc key [] elements s) as [[s1|e|w']|]; [|done..].
  intros [[= -> ->]|Hin]%elem_of_cons; [by eexists|]. eapply IH; eauto.
Qed.
