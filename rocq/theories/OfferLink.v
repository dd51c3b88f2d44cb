(** Credential offers in links: crates/openid/src/issuer.rs 218-262. *)
From Coq Require Import Lia.
From Verif Require Import Base StringSpec Json MatcherModel JsonParse JsonText CoreModel VcModel Prog ProgFacts ExecSpec IssuerTypes IssuerModel IssuerSpec IssuerFacts
  IssuerOffer GenSpec SerdeSpec SerdeModel SerdeFacts SerdeTrips SerdeText QueryModel SerdeQuery.
From Verif Require UrlModel UrlSpec UrlFacts.
Local Arguments String.append : simpl never.

(** ** Model *)
(** 260-262: [CredentialOffer::to_querystring]. *)
Definition offer_entries (o : credential_offer) : list (string * json) :=
  str_entry "credential_issuer" (of_credential_issuer o)
  ++ [("credential_configuration_ids", ser_strs (of_configuration_ids o))]
  ++ some_entry "grants" ser_grants (of_grants o).
Definition offer_query (o : credential_offer) : string := query_of (offer_entries o).
(** 239: the text in the picture that [to_qrcode] makes. *)
Definition offer_link (endpoint : string) (o : credential_offer) : string := endpoint +:+ offer_query o.

(** ** What is said about them *)
(** The strings in an offer. *)
Definition strings_of (o : option string) : list string := match o with Some s => [s] | None => [] end.
Definition offer_strings (o : credential_offer) : list string :=
  of_credential_issuer o :: of_configuration_ids o ++
  match of_grants o with
  | None => []
  | Some g =>
      match gr_authorization_code g with
      | None => [] | Some a => strings_of (ag_issuer_state a) ++ strings_of (ag_authorization_server a) end ++
      match gr_pre_authorized_code g with
      | None => []
      | Some p => pg_code p :: strings_of (pg_authorization_server p) ++
          match pg_tx_code p with None => [] | Some t => strings_of (tc_input_mode t) ++ strings_of (tc_description t) end
      end
  end.
(** The first parameter called [k] in a query string, as any reader of URLs has it: pairs end at an
    ampersand, names at the first equals sign, and escapes are decoded. *)
Fixpoint until (c : ascii) (s : string) : string :=
  match s with EmptyString => "" | String d r => if bool_decide (d = c) then "" else String d (until c r) end.
Fixpoint beyond (c : ascii) (s : string) : option string :=
  match s with EmptyString => None | String d r => if bool_decide (d = c) then Some r else beyond c r end.
Fixpoint pairs_of (fuel : nat) (s : string) : list string :=
  match fuel with
  | 0 => []
  | S n => until "&" s :: match beyond "&" s with Some r => pairs_of n r | None => [] end
  end.
Definition parameter (k q : string) : option string :=
  match List.find (λ p, bool_decide (until "=" p = k)) (pairs_of (S (String.length q)) q) with
  | Some p => UrlModel.percent_decode <$> beyond "=" p
  | None => None
  end.

(** ** Reading *)
Lemma ser_offer_entries o : ser_offer o = JObj (offer_entries o).
Proof. done. Qed.
Lemma offer_plain o : Forall (λ kv, plain_value kv.2) (offer_entries o).
Proof.
  unfold offer_entries, str_entry, some_entry. repeat (apply Forall_app; split).
  - case_bool_decide; repeat constructor.
  - repeat constructor.
  - destruct (of_grants o); repeat constructor.
Qed.
Lemma innocents_obj m : innocents (JObj m) ↔ Forall (λ kv, UrlSpec.innocent kv.1 ∧ innocents kv.2) m.
Proof.
  unfold innocents. rewrite to_uval_obj, UrlFacts.harmless_map. unfold parameters. rewrite Forall_fmap. apply Forall_iff. by intros [k v].
Qed.
Lemma innocents_arr l : innocents (JArr l) ↔ Forall innocents l.
Proof. unfold innocents. cbn [to_uval]. rewrite UrlFacts.harmless_seq, Forall_fmap. done. Qed.
Lemma innocents_int z : innocents (ser_int z).
Proof.
  unfold innocents, ser_int, int_text. cbn [to_uval UrlSpec.harmless]. unfold UrlSpec.numeric.
  assert (∀ u, UrlSpec.all_chars (λ c, (Nat.leb 48 (nat_of_ascii c) && Nat.leb (nat_of_ascii c) 57) ||
                            bool_decide (c ∈ ["-"; "+"; "."; "e"; "E"]%char)) (DecimalString.NilEmpty.string_of_uint u) = true) as H.
  { induction u; simpl; rewrite ?IHu; done. }
  destruct (Z.to_int z) as [u|u]; cbn; unfold DecimalString.NilZero.string_of_uint; destruct u; try done; simpl; rewrite ?H; done.
Qed.
Ltac fixed := split_and!; apply (bool_decide_unpack _); vm_compute; exact I.
Lemma innocents_some {A} k (f : A → json) o : UrlSpec.innocent k → (∀ a, o = Some a → innocents (f a)) →
  Forall (λ kv, UrlSpec.innocent kv.1 ∧ innocents kv.2) (some_entry k f o).
Proof. intros Hk Hf. destruct o as [a|]; [|constructor]. apply Forall_singleton. split; [done|]. by apply Hf. Qed.
Lemma innocents_opt k o : UrlSpec.innocent k → (∀ s, s ∈ strings_of o → UrlSpec.innocent s) →
  Forall (λ kv, UrlSpec.innocent kv.1 ∧ innocents kv.2) (some_entry k JStr o).
Proof. intros Hk H. apply innocents_some; [done|]. intros s ->. apply H. by left. Qed.
Lemma offer_innocents o : (∀ s, s ∈ offer_strings o → UrlSpec.innocent s) → innocents (ser_offer o).
Proof.
  intros H. apply innocents_obj. unfold str_entry. repeat (apply Forall_app; split).
  - case_bool_decide; [constructor|]. apply Forall_singleton. split; [fixed|]. apply H. by left.
  - apply Forall_singleton. split; [fixed|]. unfold ser_strs, ser_list. apply innocents_arr. apply Forall_fmap, Forall_forall.
    intros s Hs. apply H. right. apply elem_of_app. by left.
  - apply innocents_some; [fixed|]. intros g Hg. destruct o as [i ids gr]. cbn in Hg. subst gr.
    assert (∀ s, s ∈ offer_strings (CredentialOffer "" [] (Some g)) → s ≠ "" → UrlSpec.innocent s) as H'.
    { intros s Hs Hne. apply H. unfold offer_strings in *. cbn in *. apply elem_of_cons in Hs as [->|Hs]; [done|]. set_solver. }
    clear H. assert (∀ s, s ∈ offer_strings (CredentialOffer "" [] (Some g)) → UrlSpec.innocent s) as H.
    { intros s Hs. destruct (decide (s = "")) as [->|Hne]; [fixed|by apply H']. }
    clear H'. unfold offer_strings in H. cbn in H. apply innocents_obj. apply Forall_app. split.
    + apply innocents_some; [fixed|]. intros a Ha. rewrite Ha in H. apply innocents_obj. apply Forall_app.
      split; (apply innocents_opt; [fixed|]); intros s Hs; apply H; set_solver.
    + apply innocents_some; [fixed|]. intros p Hp. rewrite Hp in H. apply innocents_obj. repeat (apply Forall_app; split).
      * apply Forall_singleton. split; [fixed|]. apply H. set_solver.
      * apply innocents_some; [fixed|]. intros t Ht. rewrite Ht in H. apply innocents_obj. repeat (apply Forall_app; split).
        -- apply innocents_opt; [fixed|]. intros s Hs; apply H; set_solver.
        -- apply innocents_some; [fixed|]. intros z _. apply innocents_int.
        -- apply innocents_opt; [fixed|]. intros s Hs; apply H; set_solver.
      * apply innocents_opt; [fixed|]. intros s Hs; apply H; set_solver.
Qed.
Lemma offer_query_read o : readable_offer o → (∀ s, s ∈ offer_strings o → UrlSpec.innocent s) →
  UrlModel.url_from_str (read de_offer) (offer_query o) = Some o.
Proof.
  intros Hr Hi. destruct (fine_offer 0 o) as [H1 H2]. unfold offer_query. rewrite query_read.
  - by apply de_offer_ser.
  - unfold offer_entries, str_entry. by case_bool_decide.
  - rewrite <-ser_offer_entries. by apply offer_innocents.
  - apply offer_plain.
  - done.
  - eapply Nat.le_lt_trans; [exact H2|]. apply Nat.ltb_lt. reflexivity.
Qed.

(** ** Other readers of links *)
(** Output is only ever added to. *)
Definition adds (s s' : UrlModel.ser_state) : Prop := ∃ t, UrlModel.ss_out s' = UrlModel.ss_out s +:+ t.
Lemma adds_refl s : adds s s.
Proof. exists "". by rewrite append_nil_r. Qed.
Lemma adds_trans s1 s2 s3 : adds s1 s2 → adds s2 s3 → adds s1 s3.
Proof. intros [t H1] [t' H2]. exists (t +:+ t'). by rewrite H2, H1, append_assoc. Qed.
Lemma adds_push t s : adds s (UrlModel.push t s).
Proof. by exists t. Qed.
Lemma adds_deeper s : adds s (UrlModel.deeper s).
Proof. exists "". by rewrite append_nil_r. Qed.
Lemma adds_shallower s : adds s (UrlModel.shallower s).
Proof. exists "". by rewrite append_nil_r. Qed.
Lemma adds_str t s : adds s (UrlModel.ser_str t s).
Proof. unfold UrlModel.ser_str. destruct (UrlModel.nested s); apply adds_push. Qed.
Lemma adds_separate c s : adds s (UrlModel.separate c s).
Proof. unfold UrlModel.separate. destruct (UrlModel.ends_in _ _); [apply adds_refl|apply adds_push]. Qed.
Lemma adds_field s : adds s (UrlModel.separate_field s).
Proof.
  unfold UrlModel.separate_field. destruct (UrlModel.nested s); [apply adds_separate|].
  destruct (str_is_empty _); [apply adds_refl|apply adds_push].
Qed.
Lemma adds_struct fs s : Forall (λ kv, ∀ s, adds s (UrlModel.ser kv.2 s)) fs → adds s (UrlFacts.struct_loop fs s).
Proof.
  intros H. revert s. induction H as [|[k x] fs Hx _ IH]; intros s; [apply adds_refl|]. cbn [UrlFacts.struct_loop].
  eapply adds_trans; [apply adds_field|]. eapply adds_trans; [apply adds_str|]. eapply adds_trans; [apply adds_push|].
  eapply adds_trans; [apply Hx|]. apply IH.
Qed.
Lemma ser_adds v : ∀ s, adds s (UrlModel.ser v s).
Proof.
  induction v as [t|t|b| |l IH|fs IH|fs IH] using UrlFacts.uval_ind'; intros s.
  - apply adds_str.
  - apply adds_push.
  - apply adds_push.
  - apply adds_push.
  - rewrite UrlFacts.ser_seq. eapply adds_trans; [|apply adds_shallower]. eapply adds_trans; [|apply adds_push].
    eapply adds_trans; [apply adds_deeper|]. eapply adds_trans; [apply (adds_push "[")|]. generalize (UrlModel.push "[" (UrlModel.deeper s)). clear s.
    induction IH as [|x l Hx _ IH]; intros s; [apply adds_refl|]. cbn [UrlFacts.seq_loop].
    eapply adds_trans; [apply adds_separate|]. eapply adds_trans; [apply Hx|]. apply IH.
  - rewrite UrlFacts.ser_struct. cbv zeta. eapply adds_trans; [apply adds_deeper|].
    match goal with |- adds ?a (if _ then UrlModel.shallower (UrlModel.push _ ?b) else _) => assert (adds a b) as H end.
    { destruct (UrlModel.nested _); [eapply adds_trans; [apply (adds_push "{")|]|]; by apply adds_struct. }
    eapply adds_trans; [exact H|]. match goal with |- adds ?a (if ?b then _ else _) => generalize b end. intros b.
    destruct b; [|apply adds_refl]. eapply adds_trans; [apply adds_push|apply adds_shallower].
  - rewrite UrlFacts.ser_map. cbv zeta. eapply adds_trans; [apply adds_deeper|]. eapply adds_trans; [|apply adds_shallower].
    eapply adds_trans; [|apply adds_push].
    eapply adds_trans; [instantiate (1 := if UrlModel.nested (UrlModel.deeper s) then UrlModel.push "{" (UrlModel.deeper s) else UrlModel.deeper s);
      destruct (UrlModel.nested _); [apply adds_push|apply adds_refl]|].
    match goal with |- adds ?a _ => generalize a end. clear s.
    induction IH as [|[k x] l Hx _ IH]; intros s; [apply adds_refl|]. cbn [UrlFacts.map_loop].
    eapply adds_trans; [apply adds_separate|]. eapply adds_trans; [apply adds_str|]. eapply adds_trans; [apply adds_push|].
    eapply adds_trans; [apply Hx|]. apply IH.
Qed.
Lemma query_starts k v m : ∃ t, query_of ((k, v) :: m) = UrlModel.percent_encode (k +:+ t).
Proof.
  assert (adds (UrlModel.push k (UrlModel.SerState "" 1)) (UrlFacts.struct_loop (parameters ((k, v) :: m)) (UrlModel.SerState "" 1))) as [t' H'].
  { cbn [parameters map UrlFacts.struct_loop fst snd].
    change (UrlModel.ser_str k (UrlModel.separate_field (UrlModel.SerState "" 1))) with (UrlModel.push k (UrlModel.SerState "" 1)).
    eapply adds_trans; [apply adds_push|]. eapply adds_trans; [apply ser_adds|]. apply adds_struct. apply Forall_forall. intros [k' v'] _. apply ser_adds. }
  unfold query_of, UrlModel.url_to_string. rewrite UrlFacts.ser_struct. cbv zeta.
  change (UrlModel.deeper (UrlModel.SerState "" 0)) with (UrlModel.SerState "" 1).
  change (UrlModel.nested (UrlModel.SerState "" 1)) with false. cbv iota.
  revert H'. generalize (UrlFacts.struct_loop (parameters ((k, v) :: m)) (UrlModel.SerState "" 1)). intros w H'.
  cbn [UrlModel.push UrlModel.ss_out] in H'. rewrite append_nil in H'.
  destruct (UrlModel.nested w); cbn [UrlModel.shallower UrlModel.push UrlModel.ss_out]; rewrite H'; [|by exists t'].
  exists (t' +:+ "}"). by rewrite append_assoc.
Qed.
Lemma encode_c t : UrlModel.percent_encode (String "c" t) = String "c" (UrlModel.percent_encode t).
Proof. done. Qed.
Lemma offer_query_starts o : ∃ t, offer_query o = String "c" t.
Proof.
  unfold offer_query.
  assert (∃ k v m, offer_entries o = (String "c" k, v) :: m) as (k & v & m & ->).
  { unfold offer_entries, str_entry. case_bool_decide; do 3 eexists; reflexivity. }
  destruct (query_starts (String "c" k) v m) as [t ->]. rewrite append_cons, encode_c. by eexists.
Qed.
Lemma until_app c k s : (∀ i d, String.get i k = Some d → d ≠ c) → until c (k +:+ s) = k +:+ until c s.
Proof.
  induction k as [|d k IH]; intros H; [done|]. rewrite !append_cons. cbn [until]. rewrite bool_decide_false by (by apply (H 0)).
  rewrite IH; [done|]. intros i e. apply (H (S i)).
Qed.
Lemma offer_parameter_name o : ∃ v, parameter "credential_offer" (offer_link "credential_offer=" o) = Some (String "c" v).
Proof.
  destruct (offer_query_starts o) as [t Ht]. unfold parameter, offer_link. rewrite Ht. cbn [pairs_of].
  rewrite until_app by (intros i d Hd; do 17 (destruct i as [|i]; [by injection Hd as <-|]); destruct i; discriminate Hd).
  cbn [until]. rewrite bool_decide_false by done. cbn [List.find].
  rewrite bool_decide_true by done. unfold append. cbn. by eexists.
Qed.
Lemma c_unread {A} (d : json → option A) v : read d (String "c" v) = None.
Proof. done. Qed.
Lemma offer_parameter o v : parameter "credential_offer" (offer_link "credential_offer=" o) = Some v → read de_offer v = None.
Proof. destruct (offer_parameter_name o) as [w ->]. intros [= <-]. apply c_unread. Qed.

(** ** The offers that are created *)
Lemma safe_innocent s : every_char url_safe s → UrlSpec.innocent s.
Proof.
  assert (∀ c, url_safe c → UrlSpec.unescaped c && negb (bool_decide (c ∈ ["="; "&"]%char)) = true ∧ c ≠ "["%char ∧ c ≠ "{"%char ∧ c ≠ "]"%char ∧ c ≠ "}"%char) as Hc.
  { intros c Hs. assert (c ∉ ["="; "&"]%char ∧ c ≠ "["%char ∧ c ≠ "{"%char ∧ c ≠ "]"%char ∧ c ≠ "}"%char) as [H1 H2].
    { assert (∀ d, bool_decide (url_safe d) = false → c ≠ d) as Hd.
      { intros d Hd ->. by apply bool_decide_eq_false in Hd. }
      rewrite !not_elem_of_cons. split_and!; try (apply Hd; vm_compute; reflexivity). apply not_elem_of_nil. }
    split; [|done]. rewrite bool_decide_false by done. rewrite andb_true_r. unfold UrlSpec.unescaped.
    destruct Hs as [[[? ?]|[? ?]]|[[? ?]|Hs]]; [..|rewrite !elem_of_cons, elem_of_nil in Hs; destruct Hs as [->|[->|[]]]; reflexivity].
    all: rewrite !andb_true_iff, Nat.leb_le, !negb_true_iff, !bool_decide_eq_false; lia. }
  intros H. assert (∀ i c, String.get i s = Some c → _) as H' by (intros i c Hi; exact (Hc c (H i c Hi))). clear Hc H.
  split; [|split_and!].
  - induction s as [|c s IH]; [done|]. cbn [UrlSpec.all_chars]. rewrite (proj1 (H' 0 c eq_refl)). apply IH. intros i d. apply (H' (S i)).
  - destruct s as [|c s]; [done|]. cbn. apply bool_decide_eq_false. intros <-. by destruct (H' 0 _ eq_refl) as (_ & ? & _).
  - destruct s as [|c s]; [done|]. cbn. apply bool_decide_eq_false. intros <-. by destruct (H' 0 _ eq_refl) as (_ & _ & ? & _).
  - induction s as [|c s IH]; [done|]. cbn [UrlModel.ends_in]. destruct s as [|d s].
    + apply bool_decide_eq_false. intros <-. by destruct (H' 0 _ eq_refl) as (_ & _ & _ & ? & _).
    + apply IH. intros i e. apply (H' (S i)).
  - induction s as [|c s IH]; [done|]. cbn [UrlModel.ends_in]. destruct s as [|d s].
    + apply bool_decide_eq_false. intros <-. by destruct (H' 0 _ eq_refl) as (_ & _ & _ & _ & ?).
    + apply IH. intros i e. apply (H' (S i)).
Qed.
Lemma created_offer_link r es resp o : runs (create_offer r) es (Ok resp) → cor_offer resp = OfferObject o →
  UrlSpec.innocent (co_credential_issuer r) → (∀ id, id ∈ co_configuration_ids r → UrlSpec.innocent id) →
  (∀ i iss l s, X (VIssuer i (Some iss)) ∈ es → is_authorization_servers iss = Some l → s ∈ l → UrlSpec.innocent s) →
  (∀ s, X (VGen GAuthCode s) ∈ es → every_char url_safe s) →
  UrlModel.url_from_str (read de_offer) (offer_query o) = Some o.
Proof.
  intros H Ho Hi Hids Hs Hc. apply create_offer_ok in H as (iss & srv & code & asrv & es_tx & tx & es_st & es_ref &
    -> & Hv & Has & Htx & Hst & Href).
  assert (o = offer_for r code asrv) as ->.
  { destruct (co_send_type r); [by destruct Href as [_ ->]; injection Ho as <-|]. destruct Href as (? & ? & _ & ->). discriminate Ho. }
  assert (UrlSpec.innocent code) as Hcode.
  { apply safe_innocent, Hc. simpl. do 2 right. by left. }
  assert (∀ s, s ∈ strings_of asrv → UrlSpec.innocent s) as Hsrv.
  { intros s Hs'. destruct (is_authorization_servers iss) as [l|] eqn:El.
    - destruct Has as [-> Hl]. destruct l as [|a l]; [done|]. apply elem_of_list_singleton in Hs' as ->.
      apply (Hs (co_credential_issuer r) iss (a :: l)); [by left|done|by left].
    - subst asrv. by apply elem_of_nil in Hs'. }
  assert (UrlSpec.innocent "numeric") as Hn by fixed.
  assert (UrlSpec.innocent "Please provide the one-time code received") as Hp by fixed.
  apply offer_query_read.
  - intros g p t n Hg Hpg Ht Hz. unfold offer_for in Hg. cbn in Hg. destruct (_ || _); [|done]. injection Hg as <-. cbn in Hpg.
    destruct (wants r PreAuthorizedCode); [|done]. injection Hpg as <-. cbn in Ht. destruct (co_tx_code_required r); [|done].
    injection Ht as <-. injection Hz as <-. vm_compute. split; congruence.
  - intros s. unfold offer_strings, offer_for. cbn [of_credential_issuer of_configuration_ids of_grants].
    rewrite elem_of_cons, elem_of_app. intros [->|[Hin|Hin]]; [done|by apply Hids|].
    destruct (wants r PreAuthorizedCode), (wants r AuthorizationCode), (co_tx_code_required r); cbn in Hin;
      repeat first [rewrite elem_of_app in Hin|rewrite elem_of_cons in Hin|rewrite elem_of_nil in Hin|rewrite app_nil_r in Hin];
      destruct_or?; subst; try done; by apply Hsrv.
Qed.
