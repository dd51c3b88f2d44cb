(** Licences are read back: the whole. *)
From Coq Require Import Lia.
From Verif Require Import Base Json SerdeModel SerdeFacts Sha256 GenFacts MdlModel MdlSpec MdlFacts CborModel CborFacts MdlCbor MdlRead MdlReadFacts.

(** Decoding what was encoded, without anything after it. *)
Lemma slice {A} (d : cbor → option A) c : in_range c → (N.of_nat (length (encode c)) < word)%N → from_slice d (encode c) = d c.
Proof. intros H1 H2. unfold from_slice. pose proof (decode_encode c [] H1 H2) as E. rewrite app_nil_r in E. by rewrite E. Qed.
Lemma base64url_longer l : length l ≤ String.length (base64url l).
Proof. rewrite base64url_length. apply Nat.div_le_lower_bound; lia. Qed.

Lemma found_unique p out l s l' s' : found p out l s → found p out l' s' → l = l' ∧ s = s'.
Proof.
  intros [(bs & Hb & -> & Hl) (c & Hc & Hs)] [(bs' & Hb' & He & Hl') (c' & Hc' & Hs')].
  apply base64url_inj in He; [|done..]. subst bs'. rewrite Hl in Hl'. injection Hl' as <-.
  rewrite Hc in Hc'. injection Hc' as <-. rewrite Hs in Hs'. by injection Hs' as <-.
Qed.

(** Values of whole numbers are read as they were given. *)
Lemma whole_number_cbor p t : whole_number t → ∃ z, number_cbor p t = CInt z ∧ t = int_text z.
Proof.
  intros (z & -> & H1 & H2). exists z. split; [|done]. unfold number_cbor. case_bool_decide as E.
  - pose proof (int_text_inv z) as Hi. rewrite E in Hi. injection Hi as Hi. apply (f_equal Z.of_int) in Hi. rewrite DecimalZ.of_to in Hi.
    simpl in Hi. subst z. discriminate E.
  - rewrite int_text_inv. cbv zeta. rewrite DecimalZ.of_to. apply Z.leb_le in H1. apply Z.ltb_lt in H2. by rewrite H1, H2.
Qed.
Lemma whole_read p j : whole j → cbor_json (json_cbor p j) = Some j.
Proof.
  induction j as [| | | |l IH|m IH] using json_ind''; intros H; try done.
  - cbn [json_cbor]. destruct (whole_number_cbor p t H) as (z & -> & ->). done.
  - cbn [json_cbor cbor_json]. enough (∀ r, r = (fix go l := match l with
                     | [] => Some []
                     | c :: r => match cbor_json c with Some j => match go r with Some l => Some (j :: l) | None => None end | None => None end
                     end) (map (json_cbor p) l) → r = Some l) as Hr by (by rewrite (Hr _ eq_refl)).
    intros r ->. cbn [whole] in H. induction IH as [|j l Hj _ IHl]; [done|]. destruct H as [H1 H2]. cbn [map]. rewrite (Hj H1), (IHl H2). done.
  - rewrite json_cbor_obj. cbn [cbor_json]. enough (∀ r, r = (fix go (m : list (cbor * cbor)) := match m with
                     | [] => Some []
                     | (CText k, c) :: r => match cbor_json c with Some j => match go r with Some l => Some ((k, j) :: l) | None => None end | None => None end
                     | _ => None
                     end) (map (λ kv, (CText kv.1, json_cbor p kv.2)) m) → r = Some m) as Hr by (by rewrite (Hr _ eq_refl)).
    intros r ->. cbn [whole] in H. induction IH as [|[k j] m Hj _ IHl]; [done|]. destruct H as [H1 H2]. cbn [map fst snd].
    cbn [snd] in Hj. rewrite (Hj H1), (IHl H2). done.
Qed.

Lemma table_is p items : table (cbor_encoder p) items = map (λ it, (it_id it, sha256 (to_vec p (item_cbor p it)))) items.
Proof. induction items as [|it items IH]; [done|]. cbn [table cbor_encoder enc_item map]. by f_equal. Qed.
Lemma digested_is p it : digested p (encode (item_cbor p it)) = to_vec p (item_cbor p it).
Proof. unfold digested, to_vec, tag24. by destruct (lib_tagged p). Qed.
Lemma abs_i32 checked x id : i32 x → i32_abs checked x = Some id → i32 id.
Proof. intros H1 H2. destruct (abs_valid checked x id H1 H2) as [[-> _]|H]; [unfold i32, i32_min; lia|]. unfold valid_id in H. unfold i32. lia. Qed.

Lemma digested_inj p b b' : (N.of_nat (length b) < word)%N → (N.of_nat (length b') < word)%N → digested p b = digested p b' → b = b'.
Proof.
  intros H1 H2. unfold digested. destruct (lib_tagged p); [|done]. cbn [encode]. intros H%app_inv_head.
  destruct (read_head_head 2 (size b) b) as (i & t & E & _); [done|done|].
  destruct (read_head_head 2 (size b') b') as (i' & t' & E' & _); [done|done|]. rewrite H, E' in E. congruence.
Qed.
(** An item that is accepted is one of those issued, or there are two texts with one digest. *)
Lemma accepted_only p l s ns b : authentic p l s → (∀ ns bs b, (ns, bs) ∈ li_items l → b ∈ bs → (N.of_nat (length b) < word)%N) →
  (N.of_nat (length b) < word)%N → accepted p s ns b →
  (∃ bs, (ns, bs) ∈ li_items l ∧ b ∈ bs) ∨ ∃ m m', m ≠ m' ∧ sha256 m = sha256 m'.
Proof.
  intros (Hn & Hk & Ha) Hl Hb (it & table & Hi & Ht & Hd).
  assert (ns ∈ keys (li_items l)) as Hns.
  { rewrite <- Hk. change ns with (ns, table).1. by apply elem_of_list_fmap_1. }
  apply elem_of_list_fmap in Hns as ([ns' bs] & -> & Hns). simpl in *. destruct (Ha _ _ _ Hns Ht) as (_ & _ & H).
  apply H in Hd as (b0 & it0 & Hb0 & Hi0 & _ & He). destruct (decide (b = b0)) as [->|Hne]; [left; by exists bs|].
  right. exists (digested p b), (digested p b0). split; [|done]. intros Hd. apply Hne. eapply digested_inj; [done|by eapply Hl|done].
Qed.

Section main.
  Context (p : libraries) (Hp : sound p).
  Context (checked : bool) (draws : list Z) (salts : list (list N)) (t1 t2 t3 : Z) (dataset : list (string * json)) (sg : signer) (out : string).
  Context (Hnd : NoDup (keys dataset)) (Hdr : ∀ x, x ∈ draws → i32 x) (Hsa : Forall bytes salts)
    (Hkey : ∀ k, sg_public_key sg = Some k → bytes k) (Hsig : ∀ m, bytes (sg_sign sg m)).
  Context (Hout : to_credential checked (cbor_encoder p) draws salts t1 t2 t3 dataset sg = Some (Ok out)).
  Context (Hsize : (N.of_nat (String.length out) < word)%N).

  Lemma the_whole : ∃ st key,
    sg_public_key sg = Some key ∧
    let s := Mso (ms_digests st) key (timestamp t2) (timestamp t3) (timestamp (t1 + seconds (365 * 86400))) in
    let payload := to_vec p (mso_cbor p s) in
    let m := Mdoc (ms_items st) (CoseSign1 CoseEdDSA (sg_verification_method sg) payload (sg_sign sg payload)) in
    out = base64url (encode (mdoc_cbor p m)) ∧
    keys (ms_items st) = keys (ms_digests st) ∧ NoDup (keys (ms_items st)) ∧
    (∀ ns items, (ns, items) ∈ ms_items st → items ≠ [] ∧ NoDup (map it_id items) ∧ Forall good_item items ∧
       map element items = elements_of dataset ns ∧ assoc ns (ms_digests st) = Some (table (cbor_encoder p) items)) ∧
    (∀ ns, elements_of dataset ns ≠ [] → ns ∈ keys (ms_items st)).
  Proof.
    destruct (issued _ _ _ _ _ _ _ _ _ _ Hout) as (st & key & Hst & Hk & _ & payload & bs & Hpay & Hb & ->).
    injection Hpay as <-. injection Hb as <-. exists st, key. split; [done|]. cbv zeta. split; [done|].
    assert (tables_ok salts st) as (T1 & T2 & T3 & T4 & _).
    { eapply name_spaces_tables; [|exact Hst]. repeat split; simpl; [constructor|by intros ??? ?%elem_of_nil|by intros ?? ?%elem_of_nil|auto]. }
    split; [done|]. split; [done|].
    apply (name_spaces_ok checked _ dataset [] _ st []) in Hst as (sk & Hall & Hdraw); [|done|].
    2:{ intros ns'. exists []. simpl. split; [done|]. split; [by apply Forall_nil|]. split; [apply NoDup_nil_2|]. split; [done|].
        split; [done|]. by intros ? ?%elem_of_nil. }
    simpl in Hall, Hdraw. split.
    - intros ns items Hin. pose proof Hin as Ha. apply assoc_in_iff in Ha; [|done].
      destruct (Hall ns) as (items' & Hi & _ & Hn & Hd & Hm & Hx). rewrite Ha in Hi. simpl in Hi. subst items'.
      pose proof (T4 _ _ Hin) as Hne. split; [done|]. split; [done|]. split; [|split; [done|]].
      + apply Forall_forall. intros it Hit. split.
        * destruct (Hx it Hit) as (x & Hxs & Hab). eapply abs_i32; [|exact Hab]. apply Hdr. rewrite Hdraw. apply elem_of_app. by left.
        * rewrite Forall_forall in Hsa. apply Hsa. by eapply T3.
      + destruct (assoc ns (ms_digests st)) as [t|] eqn:Et; simpl in Hd; [by rewrite Hd|].
        destruct items; [done|]. by rewrite table_is in Hd.
    - intros ns Hne. destruct (Hall ns) as (items & Hi & _ & _ & _ & Hm & _).
      destruct (assoc ns (ms_items st)) as [l|] eqn:E.
      + apply assoc_in_iff in E; [|done]. change ns with (ns, l).1. by apply elem_of_list_fmap_1.
      + simpl in Hi. subst items. by rewrite <- Hm in Hne.
  Qed.

  Definition conclusion (key : device_key) (l : licence) (s : read_mso) : Prop :=
    authentic p l s ∧
    (∀ ns bs, (ns, bs) ∈ li_items l → bs ≠ [] ∧ says_elements p bs (elements_of dataset ns)) ∧
    (∀ ns, elements_of dataset ns ≠ [] → ns ∈ keys (li_items l)) ∧
    rm_key s = lib_key p key ∧ rm_doc_type s = "org.iso.18013.5.1.mDL" ∧
    rm_signed s = lib_date p (timestamp t2) ∧ rm_valid_from s = lib_date p (timestamp t3) ∧
    rm_valid_until s = lib_date p (timestamp (t1 + seconds (365 * 86400))) ∧
    ra_key_id (li_auth l) = bytes_of_string (sg_verification_method sg) ∧
    ra_signature (li_auth l) = sg_sign sg (ra_payload (li_auth l)).
  (** What the text is, as CBOR. *)
  Definition carries (l : licence) (s : read_mso) : Prop :=
    ∃ m o, in_range (mdoc_cbor p m) ∧ in_range (mso_cbor p o) ∧ out = base64url (encode (mdoc_cbor p m)) ∧
      cose_payload (md_issuer_auth m) = to_vec p (mso_cbor p o) ∧
      (N.of_nat (length (encode (mdoc_cbor p m))) < word)%N ∧ (N.of_nat (length (encode (mso_cbor p o))) < word)%N ∧
      (∀ ns bs b, (ns, bs) ∈ li_items l → b ∈ bs → ∃ it, good_item it ∧ b = encode (item_cbor p it) ∧ (N.of_nat (length b) < word)%N) ∧
      payload_content p (ra_payload (li_auth l)) = Some (encode (mso_cbor p o)) ∧
      rm_digests s = map (λ e, (e.1, sorted_by Z.leb e.2)) (sorted_by String.leb (mso_digests o)).

  Lemma read_back : ∃ key l s, sg_public_key sg = Some key ∧ found p out l s ∧ conclusion key l s ∧ carries l s.
  Proof.
    destruct the_whole as (st & key & Hk & Ho & Hkeys & Hn & Hitems & Hall). cbv zeta in *.
    set (o := Mso (ms_digests st) key _ _ _) in *. set (m := Mdoc (ms_items st) _) in *.
    assert (Forall (λ e, Forall good_item e.2) (ms_items st)) as Hgood.
    { apply Forall_forall. intros [ns items] Hin. by apply Hitems in Hin as (_ & _ & ? & _). }
    assert (∀ ns t, (ns, t) ∈ ms_digests st → ∃ items, (ns, items) ∈ ms_items st ∧ t = table (cbor_encoder p) items) as Hdig.
    { intros ns t Hin. assert (ns ∈ keys (ms_items st)) as Hns.
      { rewrite Hkeys. change ns with (ns, t).1. by apply elem_of_list_fmap_1. }
      apply elem_of_list_fmap in Hns as ([ns' items] & -> & Hns). exists items. split; [done|]. simpl in *.
      apply Hitems in Hns as (_ & _ & _ & _ & Ha). apply assoc_in_iff in Hin; [|by rewrite <- Hkeys]. congruence. }
    assert (Forall (λ e, good_table e.2) (mso_digests o)) as Htab.
    { apply Forall_forall. intros [ns t] Hin. apply Hdig in Hin as (items & Hin & ->). apply Hitems in Hin as (_ & _ & Hg & _).
      simpl. rewrite table_is. unfold good_table. apply Forall_fmap. eapply Forall_impl; [exact Hg|]. intros it [H _]. split; [done|apply sha256_bytes]. }
    assert (in_range (mso_cbor p o)) as Hor by (apply mso_range; [done|]; split; [by apply Hkey|done]).
    assert (in_range (mdoc_cbor p m)) as Hmr.
    { apply mdoc_range; [done|]. split; [done|]. split; [by apply to_vec_bytes|apply Hsig]. }
    assert (N.of_nat (length (encode (mdoc_cbor p m))) < word)%N as Hsz.
    { pose proof (base64url_longer (encode (mdoc_cbor p m))) as Hl. rewrite <- Ho in Hl. lia. }
    assert (length (cose_payload (md_issuer_auth m)) ≤ length (encode (mdoc_cbor p m))) as Hpl.
    { etransitivity; [apply bytes_part|]. etransitivity; [|eapply (map_part (CText "issuerAuth")); apply elem_of_cons; right; apply elem_of_list_singleton; reflexivity].
      apply arr_part. apply elem_of_cons. right. apply elem_of_cons. right. apply elem_of_cons. by left. }
    assert (length (encode (mso_cbor p o)) ≤ length (cose_payload (md_issuer_auth m))) as Hol.
    { unfold m. cbn [md_issuer_auth cose_payload]. unfold to_vec. destruct (lib_tagged p); [apply tag24_part|done]. }
    assert (∀ ns items it, (ns, items) ∈ ms_items st → it ∈ items → (N.of_nat (length (encode (item_cbor p it))) < word)%N) as Hil.
    { intros ns items it H1 H2. enough (length (encode (item_cbor p it)) ≤ length (encode (mdoc_cbor p m))) by lia.
      etransitivity; [apply tag24_part|].
      etransitivity; [|eapply (map_part (CText "nameSpaces")); apply elem_of_cons; left; reflexivity].
      etransitivity; [|apply (map_part (CText ns) (CArr (map (λ it, tag24 (item_cbor p it)) items)));
        apply (elem_of_list_fmap_1_alt (λ e : string * list item, (CText e.1, CArr (map (λ it, tag24 (item_cbor p it)) e.2))) _ (ns, items)); [by apply sorted_in|done]].
      apply arr_part. by apply (elem_of_list_fmap_1 (λ it, tag24 (item_cbor p it))). }
    assert (payload_content p (cose_payload (md_issuer_auth m)) = Some (encode (mso_cbor p o))) as Hcon.
    { unfold payload_content. unfold m. cbn [md_issuer_auth cose_payload]. unfold to_vec.
      destruct (lib_tagged p) eqn:Et; [|done]. rewrite slice; [done|by apply tag24_range|].
      change (cose_payload (md_issuer_auth m)) with (to_vec p (mso_cbor p o)) in Hpl. unfold to_vec in Hpl at 1. rewrite Et in Hpl. unfold tag24 in *. lia. }
    eexists key, _, _. split; [done|]. split; [split|].
    - exists (encode (mdoc_cbor p m)). split; [by apply encode_bytes|]. split; [done|]. rewrite slice by done. apply licence_read.
    - exists (encode (mso_cbor p o)). split; [exact Hcon|].
      rewrite slice; [|done|lia]. by apply mso_read.
    - assert (∀ ns bs, (ns, bs) ∈ map (λ e : string * list item, (e.1, map (λ it, encode (item_cbor p it)) e.2)) (sorted_by String.leb (md_name_spaces m)) →
        ∃ items, (ns, items) ∈ ms_items st ∧ bs = map (λ it, encode (item_cbor p it)) items) as Hin.
      { intros ns bs Hb. apply elem_of_list_fmap in Hb as ([ns' items] & [= -> ->] & Hb). apply sorted_in in Hb. by exists items. }
      assert (∀ ns items it, (ns, items) ∈ ms_items st → it ∈ items → item_in (encode (item_cbor p it)) = Some (as_read p it)) as Hread.
      { intros ns items it H1 H2. assert (good_item it) as Hg.
        { apply Hitems in H1 as (_ & _ & H & _). rewrite Forall_forall in H. by apply H. }
        unfold item_in. rewrite slice; [by apply item_read|by apply item_range|by eapply Hil]. }
      split; [split; [|split; [|split; [|repeat split; reflexivity]]]|].
      + unfold authentic. cbn [li_items rm_digests]. unfold keys in *. rewrite !map_map. cbn [fst]. split; [|split].
        * rewrite (sorted_perm String.leb). done.
        * symmetry. by apply sorted_keys.
        * intros ns bs t H1 H2. apply Hin in H1 as (items & H1 & ->).
          apply elem_of_list_fmap in H2 as ([ns' t'] & [= -> ->] & H2). apply sorted_in in H2. simpl in H2.
          apply Hdig in H2 as (items' & H2 & ->). assert (items' = items) as ->.
          { apply assoc_in_iff in H1, H2; [congruence|done..]. }
          destruct (Hitems _ _ H1) as (_ & Hi & _). rewrite table_is. split; [|split].
          -- rewrite (sorted_perm Z.leb). by rewrite map_map.
          -- rewrite (Permutation_length (sorted_perm Z.leb _)). by rewrite !map_length.
          -- intros id d. rewrite sorted_in. rewrite elem_of_list_fmap. split.
             ++ intros (it & [= -> ->] & Hit). exists (encode (item_cbor p it)), (as_read p it).
                split; [by apply (elem_of_list_fmap_1 (λ it, encode (item_cbor p it)))|]. split; [by eapply Hread|]. split; [done|]. by rewrite digested_is.
             ++ intros (b & it' & Hb & Hr & <- & ->). apply elem_of_list_fmap in Hb as (it & -> & Hit). exists it. split; [|done].
                rewrite (Hread _ _ _ H1 Hit) in Hr. injection Hr as <-. by rewrite digested_is.
      + intros ns bs H. apply Hin in H as (items & H & ->). destruct (Hitems _ _ H) as (Hne & _ & _ & He & _).
        split; [by destruct items|]. rewrite <- He. unfold says_elements. apply Forall2_fmap, Forall_Forall2_diag, Forall_forall.
        intros it Hit. cbn. exists (as_read p it). split; [by eapply Hread|done].
      + intros ns Hne. cbn [li_items]. unfold keys in *. rewrite map_map. cbn [fst]. rewrite (sorted_perm String.leb). by apply Hall.
      + exists m, o. do 4 (split; [done|]). split; [done|]. split; [lia|]. split; [|split; [exact Hcon|done]].
        intros ns bs b Hb Hbb. apply Hin in Hb as (items & Hb & ->). apply elem_of_list_fmap in Hbb as (it & -> & Hit).
        exists it. split; [|split; [done|by eapply Hil]]. apply Hitems in Hb as (_ & _ & H & _). rewrite Forall_forall in H. by apply H.
  Qed.

  Lemma iso_refuses l s : found p out l s →
    (∀ ns bs b, (ns, bs) ∈ li_items l → b ∈ bs → from_slice iso_item b = None) ∧
    (∃ content, payload_content p (ra_payload (li_auth l)) = Some content ∧ from_slice iso_dates content = None ∧
      (li_items l ≠ [] → from_slice iso_digests content = None)) ∧
    ∃ bs, bytes bs ∧ out = base64url bs ∧ from_slice iso_chain bs = None.
  Proof.
    intros Hf. destruct read_back as (key & l' & s' & _ & Hf' & (Ha & Hel & _) & (m & o & Hmr & Hor & Ho & _ & Hsz & Hosz & Hit & Hcon & Hdig)).
    destruct (found_unique _ _ _ _ _ _ Hf Hf') as [<- <-]. split; [|split].
    - intros ns bs b H1 H2. destruct (Hit _ _ _ H1 H2) as (it & Hg & -> & Hl). rewrite slice; [reflexivity|by apply item_range|done].
    - exists (encode (mso_cbor p o)). split; [done|]. split; [by rewrite slice|]. intros Hne. rewrite slice by done.
      destruct Ha as (Hn & Hk & Ha). rewrite Hdig in Hk, Ha. unfold iso_digests, mso_cbor, a_map.
      change (member ?f "valueDigests" _) with (f (CMap (map (λ e, (CText e.1, digests_cbor e.2)) (sorted_by String.leb (mso_digests o))))).
      destruct (li_items l) as [|[ns bs] r] eqn:El; [done|].
      destruct (sorted_by String.leb (mso_digests o)) as [|[ns' t] q] eqn:Es; [done|]. simpl in Hk. injection Hk as -> _.
      destruct (Ha ns bs (sorted_by Z.leb t)) as (_ & Hlen & _); [apply elem_of_cons; by left|apply elem_of_cons; by left|].
      destruct (Hel ns bs) as [Hbs _]; [apply elem_of_cons; by left|].
      unfold entries at 1, a_map. cbn [map mapM]. cbn [fst snd a_text mbind option_bind].
      unfold entries, a_map, digests_cbor. destruct (sorted_by Z.leb t) as [|[i d] t']; [destruct bs; [done|discriminate]|].
      cbn [map mapM fst snd]. destruct (a_uint (CInt i)); reflexivity.
    - exists (encode (mdoc_cbor p m)). split; [by apply encode_bytes|]. split; [done|]. rewrite slice by done. reflexivity.
  Qed.
End main.
