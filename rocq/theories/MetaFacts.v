(** Which metadata can be read. *)
From Verif Require Import Base StringSpec Json MatcherModel JsonParse JsonText CoreModel VcModel Prog IssuerTypes
  SerdeSpec SerdeModel SerdeFacts SerdeTrips SerdeText SerdeProps ErrorModel WireSpec WireFacts VcSpec VcSerde VcTrips DifSerde DifSpec DifFacts
  MetaSerde MetaSpec MetaTrips.

(** ** Members *)
Lemma opt_ok {A} (d : json → option A) (P : json → Prop) k m : (∀ v, is_Some (d v) ↔ P v) →
  is_Some (opt d k m) ↔ member_ok k Optional P m.
Proof. apply opt_is_some. Qed.
Lemma req_ok {A} (d : json → option A) (P : json → Prop) k m : (∀ v, is_Some (d v) ↔ P v) →
  is_Some (req d k m) ↔ member_ok k Required P m.
Proof.
  intros HP. unfold req, member_ok. rewrite values_lookups. destruct (lookups k m) as [|j [|]] eqn:E.
  - split; [by intros [? ?]|by intros (? & ? & _)].
  - rewrite HP. split; [by eexists|]. by intros (v & [= ->] & H).
  - split; [by intros [? ?]|by intros (? & ? & _)].
Qed.
Lemma dflt_ok {A} (d : json → option A) a (P : json → Prop) k m : (∀ v, is_Some (d v) ↔ P v) →
  is_Some (dflt d a k m) ↔ member_ok k Defaulted P m.
Proof.
  intros HP. unfold dflt, member_ok. rewrite values_lookups. destruct (lookups k m) as [|j [|]] eqn:E.
  - split; [by left|by eexists].
  - rewrite HP. split; [right; by eexists|]. by intros [?|(v & [= ->] & H)].
  - split; [by intros [? ?]|by intros [?|(? & ? & _)]].
Qed.
Lemma chain {A B} (e : option A) (K : A → option B) k n (P : json → Prop) t m :
  (is_Some e ↔ member_ok k n P m) → (∀ x, is_Some (K x) ↔ members_as t m) → is_Some (e ≫= K) ↔ members_as ((k, n, P) :: t) m.
Proof.
  intros He HK. unfold members_as. rewrite Forall_cons. cbn [fst snd]. rewrite <-He. split.
  - intros [b H]. destruct e as [x|]; [|done]. split; [by eexists|]. apply (HK x). by eexists.
  - intros [[x ->] H]. simpl. by apply HK.
Qed.
Lemma chain_end {B} (b : B) m : is_Some (Some b) ↔ members_as [] m.
Proof. split; [constructor|by eexists]. Qed.
Lemma obj_some {A} (f : list (string * json) → option A) t v : (∀ m, is_Some (f m) ↔ members_as t m) →
  is_Some (obj f v) ↔ object_of t v.
Proof.
  intros H. unfold object_of. split.
  - destruct v as [| | | | |m]; try (by intros [? ?]). cbn [obj]. intros Hm. exists m. split; [done|]. by apply H.
  - intros (m & -> & Hm). cbn [obj]. by apply H.
Qed.
Lemma map_some {A} (d : json → option A) (P : json → Prop) v : (∀ v, is_Some (d v) ↔ P v) → is_Some (de_map d v) ↔ map_of P v.
Proof.
  intros HP. unfold map_of, de_map.
  assert (∀ m acc, is_Some (de_entries d m acc) ↔ ∀ k x, (k, x) ∈ m → P x) as Hm.
  { induction m as [|[k x] m IH]; intros acc; cbn [de_entries].
    - split; [by intros _ k x ?%elem_of_nil|by eexists].
    - destruct (d x) as [a|] eqn:E.
      + rewrite IH. split; intros H k' x'; [|intros; apply (H k'); by right]. intros [[= -> ->]|?]%elem_of_cons; [|by apply (H k')].
        apply HP. by eexists.
      + split; [by intros [? ?]|]. intros H. specialize (H k x (elem_of_list_here _ _)). apply HP in H as [? H]. congruence. }
  split.
  - destruct v as [| | | | |m]; try (by intros [? ?]). intros H. exists m. split; [done|]. by apply (Hm m []).
  - intros (m & -> & H). cbn [obj]. by apply Hm.
Qed.
Lemma list_some {A} (d : json → option A) (P : json → Prop) v : (∀ v, is_Some (d v) ↔ P v) → is_Some (de_list d v) ↔ list_of P v.
Proof. apply de_list_some. Qed.
Lemma texts_some v : is_Some (de_strs v) ↔ texts v.
Proof. apply de_strs_some. Qed.
Lemma text_some v : is_Some (de_str v) ↔ text v.
Proof. apply de_str_some. Qed.
Lemma flag_some v : is_Some (de_bool v) ↔ flag v.
Proof. apply de_bool_some. Qed.
Ltac co := eapply chain; [apply opt_ok; intros ?|intros ?].
Ltac cr := eapply chain; [apply req_ok; intros ?|intros ?].
Ltac ct := first [apply text_some | apply texts_some | apply flag_some].

(** ** Claims and formats *)
Lemma display_some v : is_Some (de_issuer_display v) ↔ object_of display_members v.
Proof. unfold de_issuer_display, display_members. apply obj_some. intros m. cr; [ct|]. co; [ct|]. apply chain_end. Qed.
Lemma display_ok_iff v : display_ok v = true ↔ list_of (object_of display_members) v.
Proof.
  unfold display_ok, list_of. split.
  - destruct v as [| | | |l|]; try done. intros H. exists l. split; [done|]. apply Forall_forall. intros x Hx. apply display_some.
    rewrite forallb_forall in H. specialize (H x (proj1 (elem_of_list_In _ _) Hx)). unfold de_issuer_display.
    destruct x as [| | | | |m]; cbn [obj] in *; try done. destruct (req de_str "name" m); [|done]. destruct (opt de_str "locale" m); [|done]. by eexists.
  - intros (l & -> & H). apply forallb_forall. intros x Hx%elem_of_list_In. rewrite Forall_forall in H. apply H, display_some in Hx.
    unfold de_issuer_display in Hx. destruct x as [| | | | |m]; cbn [obj] in *; try (by destruct Hx).
    destruct (req de_str "name" m); [|by destruct Hx]. by destruct (opt de_str "locale" m); [|by destruct Hx].
Qed.
Lemma value_type_iff v : value_type_ok v = true ↔ name_value ["string"; "number"; "image"] v.
Proof.
  unfold value_type_ok. rewrite <-(unit_variant_some [("string", ()); ("number", ()); ("image", ())] v).
  destruct (unit_variant _ v); split; try done; by intros [? ?].
Qed.
Definition claim_member (k : string) (v : json) : Prop :=
  (k = "mandatory" → flag v) ∧ (k = "value_type" → name_value ["string"; "number"; "image"] v) ∧
  (k = "display" → list_of (object_of display_members) v) ∧ (k ∉ reserved → is_Some (de_claim v)).
Lemma not_reserved k : k ≠ "mandatory" → k ≠ "value_type" → k ≠ "display" → k ∉ reserved.
Proof. unfold reserved. rewrite !not_elem_of_cons. intros. split_and!; try done. apply not_elem_of_nil. Qed.
Lemma claim_loop_some m : ∀ o set, is_Some (claim_loop m o set) ↔ ∀ k v, (k, v) ∈ m → claim_member k v.
Proof.
  induction m as [|[k v] m IH]; intros o set; cbn [claim_loop].
  - split; [by intros _ k v ?%elem_of_nil|by eexists].
  - assert (∀ o set, claim_member k v → is_Some (claim_loop m o set) ↔ ∀ k' v', (k', v') ∈ (k, v) :: m → claim_member k' v') as Hgo.
    { intros o' set' Hc. rewrite IH. split; intros H k' v'; [|intros; apply H; by right]. by intros [[= -> ->]|?]%elem_of_cons; [|apply H]. }
    assert (¬ claim_member k v → is_Some (@None claim) ↔ ∀ k' v', (k', v') ∈ (k, v) :: m → claim_member k' v') as Hno.
    { intros Hc. split; [by intros [? ?]|]. intros H. destruct Hc. apply H. by left. }
    case_bool_decide as E1; [subst k|case_bool_decide as E2; [subst k|case_bool_decide as E3; [subst k|]]].
    + destruct (de_bool v) eqn:E.
      * apply Hgo. split_and!; try done; [intros _; apply flag_some; by eexists|]. intros H. destruct H. by left.
      * apply Hno. intros (H & _). destruct (proj2 (flag_some v) (H eq_refl)). congruence.
    + destruct (value_type_ok v) eqn:E.
      * apply Hgo. split_and!; try done; [intros _; by apply value_type_iff|]. intros H. destruct H. right. by left.
      * apply Hno. intros (_ & H & _). apply value_type_iff in H; [|done]. congruence.
    + destruct (display_ok v) eqn:E.
      * apply Hgo. split_and!; try done; [intros _; by apply display_ok_iff|]. intros H. destruct H. do 2 right. by left.
      * apply Hno. intros (_ & _ & H & _). specialize (H eq_refl). apply display_ok_iff in H. congruence.
    + destruct (de_claim v) eqn:E.
      * apply Hgo. by split_and!.
      * apply Hno. intros (_ & _ & _ & H). rewrite E in H. destruct H; [|done]. by apply not_reserved.
Qed.
Lemma claim_some v : is_Some (de_claim v) ↔ claim_value v.
Proof.
  induction v as [|b|t|s|l IH|m IH] using json_ind'.
  1-5: split; [by intros [? ?]|by inversion 1].
  rewrite de_claim_obj, claim_loop_some. rewrite Forall_forall in IH. split.
  - intros H. constructor. intros k v Hin. destruct (H k v Hin) as (H1 & H2 & H3 & H4). split_and!; try done.
    intros Hk. by apply (IH (k, v) Hin), H4.
  - inversion 1 as [m' Hm]; subst. intros k v Hin. destruct (Hm k v Hin) as (H1 & H2 & H3 & H4). split_and!; try done.
    intros Hk. by apply (IH (k, v) Hin), H4.
Qed.
Lemma claims_some v : is_Some (de_claimset v) ↔ map_of claim_value v.
Proof. apply map_some, claim_some. Qed.
Lemma definition_some v : is_Some (de_definition v) ↔ object_of definition_members v.
Proof.
  unfold de_definition. apply obj_some. intros m. unfold definition_members, members_as. rewrite !Forall_cons, Forall_nil. cbn [fst snd].
  rewrite <-(opt_ok de_strs texts "@context" m) by apply texts_some. rewrite <-(opt_ok de_strs texts "type" m) by apply texts_some.
  rewrite <-(opt_ok de_claimset (map_of claim_value) "credentialSubject" m) by apply claims_some.
  destruct (opt de_strs "@context" m) as [a|]; [|split; [by intros [? ?]|by intros ([? ?] & _)]].
  destruct (opt de_strs "type" m) as [b|]; [|split; [by intros [? ?]|by intros (_ & [? ?] & _)]].
  destruct (opt de_claimset "credentialSubject" m) as [c|]; [|split; [by intros [? ?]|by intros (_ & _ & [? ?] & _)]].
  split; [intros _; split_and!; by eexists|by eexists].
Qed.
Lemma members_one k n P m : members_as [(k, n, P)] m ↔ member_ok k n P m.
Proof. unfold members_as. rewrite Forall_singleton. done. Qed.
Lemma members_two k n P k' n' P' m : members_as [(k, n, P); (k', n', P')] m ↔ member_ok k n P m ∧ member_ok k' n' P' m.
Proof. unfold members_as. rewrite Forall_cons, Forall_singleton. done. Qed.
Lemma some_fmap {A B} (f : A → B) o : is_Some (f <$> o) ↔ is_Some o.
Proof. apply fmap_is_Some. Qed.
Lemma format_some m : is_Some (de_format m) ↔ format_members m.
Proof.
  unfold de_format, format_members.
  pose proof (members_one "credential_definition" Required (object_of definition_members) m) as H1.
  rewrite <-(req_ok de_definition _ _ m definition_some) in H1.
  pose proof (members_two "doctype" Required text "claims" Optional (map_of claim_value) m) as H2.
  rewrite <-(req_ok de_str _ _ m text_some), <-(opt_ok de_claimset _ _ m claims_some) in H2.
  pose proof (members_two "vct" Required text "claims" Optional (map_of claim_value) m) as H3.
  rewrite <-(req_ok de_str _ _ m text_some), <-(opt_ok de_claimset _ _ m claims_some) in H3.
  revert H1 H2 H3. generalize (members_as [("credential_definition", Required, object_of definition_members)] m)
    (members_as [("doctype", Required, text); ("claims", Optional, map_of claim_value)] m)
    (members_as [("vct", Required, text); ("claims", Optional, map_of claim_value)] m). intros M1 M2 M3 H1 H2 H3.
  pose proof (req_ok de_str text "format" m text_some) as Hf. cbn [member_ok] in Hf.
  destruct (req de_str "format" m) as [tag|] eqn:E.
  - assert (values_of "format" m = [JStr tag]) as Hv.
    { unfold req in E. rewrite values_lookups. destruct (lookups "format" m) as [|j [|]]; try done. destruct j; try done. by injection E as ->. }
    rewrite Hv. clear Hf E Hv.
    assert (∀ (Q : string → Prop), (∃ f, [JStr tag] = [JStr f] ∧ Q f) ↔ Q tag) as He.
    { intros Q. split; [by intros (f & [= ->] & H)|intros; by exists tag]. }
    rewrite He. clear He. rewrite !elem_of_cons, elem_of_nil.
    case_bool_decide; [subst; rewrite some_fmap; naive_solver|].
    case_bool_decide; [subst; rewrite some_fmap; naive_solver|].
    case_bool_decide; [subst; rewrite some_fmap; naive_solver|].
    case_bool_decide; [|case_bool_decide].
    + subst. transitivity M2; [rewrite H2; destruct (req de_str "doctype" m), (opt de_claimset "claims" m)|naive_solver];
        (split; [intros [? ?]; try done; by split; eexists|intros [[? ?] [? ?]]; try done; by eexists]).
    + subst. transitivity M3; [rewrite H3; destruct (req de_str "vct" m), (opt de_claimset "claims" m)|naive_solver];
        (split; [intros [? ?]; try done; by split; eexists|intros [[? ?] [? ?]]; try done; by eexists]).
    + split; [by intros [? ?]|naive_solver].
  - split; [by intros [? ?]|]. intros (f & Hv & _). destruct Hf as [_ Hf]. destruct Hf as [? ?]; [|done].
    exists (JStr f). split; [done|by eexists].
Qed.

(** ** Issuers *)
Lemma image_some v : is_Some (de_image v) ↔ object_of image_members v.
Proof. unfold de_image. apply obj_some. intros m. co; [ct|]. co; [ct|]. apply chain_end. Qed.
Lemma credential_display_some v : is_Some (de_display v) ↔ object_of credential_display_members v.
Proof.
  unfold de_display. apply obj_some. intros m. cr; [ct|]. co; [ct|]. co; [apply image_some|]. co; [ct|]. co; [ct|]. co; [apply image_some|].
  co; [ct|]. apply chain_end.
Qed.
Lemma proof_type_some v : is_Some (de_proof_type v) ↔ object_of [("proof_signing_alg_values_supported", Required, texts)] v.
Proof. unfold de_proof_type. apply obj_some. intros m. rewrite members_one. apply req_ok, texts_some. Qed.
Lemma configuration_some v : is_Some (de_configuration v) ↔ configuration_value v.
Proof.
  unfold de_configuration, configuration_value.
  assert (∀ m f (K : format → option configuration_metadata), de_format m = Some f → (∀ f, is_Some (K f) ↔ members_as configuration_members m) →
    is_Some (de_format m ≫= K) ↔ members_as configuration_members m) as Hb by (intros m f K -> HK; apply HK).
  assert (∀ m, (∀ f, is_Some (s ← opt de_str "scope" m; b ← opt de_strs "cryptographic_binding_methods_supported" m;
      a ← opt de_strs "credential_signing_alg_values_supported" m; p ← opt (de_map de_proof_type) "proof_types_supported" m;
      d ← opt (de_list de_display) "display" m; Some (ConfigurationMetadata f s b a p d)) ↔ members_as configuration_members m)) as Hc.
  { intros m f. co; [ct|]. co; [ct|]. co; [ct|]. co; [apply map_some, proof_type_some|]. co; [apply list_some, credential_display_some|].
    apply chain_end. }
  split.
  - destruct v as [| | | | |m]; try (by intros [? ?]). cbn [obj]. intros H. exists m. split; [done|].
    destruct (de_format m) as [f|] eqn:E; [|by destruct H]. split; [apply format_some; by eexists|]. by apply (Hc m f).
  - intros (m & -> & [f Hf]%format_some & H). cbn [obj]. rewrite Hf. cbn [mbind option_bind]. by apply Hc.
Qed.
Lemma encryption_some v : is_Some (de_encryption v) ↔
  object_of [("alg_values_supported", Required, texts); ("enc_values_supported", Required, texts); ("encryption_required", Required, flag)] v.
Proof. unfold de_encryption. apply obj_some. intros m. cr; [ct|]. cr; [ct|]. cr; [ct|]. apply chain_end. Qed.
Lemma batch_some v : is_Some (de_batch v) ↔ object_of [("batch_size", Required, number ser_int)] v.
Proof. unfold de_batch. apply obj_some. intros m. rewrite members_one. apply req_ok. intros x. apply de_int_some. Qed.
Lemma issuer_some v : is_Some (de_issuer_metadata v) ↔ object_of (issuer_members ser_int) v.
Proof.
  unfold de_issuer_metadata. apply obj_some. intros m.
  eapply chain; [apply dflt_ok; intros ?; ct|intros ?]. co; [ct|]. cr; [ct|]. co; [ct|]. co; [ct|]. co; [apply encryption_some|].
  co; [apply batch_some|]. co; [ct|]. co; [apply display_some|]. cr; [apply map_some, configuration_some|]. apply chain_end.
Qed.

(** ** Authorization servers *)
Ltac cn := apply list_some; intros ?; apply unit_variant_some.
Lemma server_some v : is_Some (de_server_metadata v) ↔ object_of server_members v.
Proof.
  unfold de_server_metadata. apply obj_some. intros m.
  cr; [ct|]. cr; [ct|]. cr; [ct|]. co; [ct|]. co; [ct|]. co; [ct|]. cr; [cn|]. co; [cn|]. co; [cn|]. co; [cn|]. co; [cn|].
  co; [ct|]. co; [ct|]. co; [ct|]. co; [ct|]. co; [ct|]. co; [ct|]. co; [ct|]. co; [ct|]. co; [ct|]. co; [ct|].
  co; [cn|]. co; [ct|]. co; [ct|]. co; [ct|]. cr; [ct|]. apply chain_end.
Qed.

(** ** What was read can be written *)
Lemma de_configuration_readable v c : de_configuration v = Some c → readable_configuration c.
Proof.
  unfold de_configuration. destruct v as [| | | | |m]; try done. cbn [obj]. intros H.
  destruct (de_format m) as [f|] eqn:Ef; [|done]. cbn [mbind option_bind] in H.
  destruct (opt de_str "scope" m) as [s|]; [|done]. cbn [mbind option_bind] in H.
  destruct (opt de_strs "cryptographic_binding_methods_supported" m) as [b|]; [|done]. cbn [mbind option_bind] in H.
  destruct (opt de_strs "credential_signing_alg_values_supported" m) as [a|]; [|done]. cbn [mbind option_bind] in H.
  destruct (opt (de_map de_proof_type) "proof_types_supported" m) as [p|] eqn:Ep; [|done]. cbn [mbind option_bind] in H.
  destruct (opt (de_list de_display) "display" m) as [d|]; [|done]. cbn [mbind option_bind] in H. injection H as <-.
  split; [exact (de_format_readable m f Ef)|]. cbn [cm_proof_types]. intros l ->. apply opt_inv in Ep as (j & _ & Ep).
  by apply de_map_inv in Ep as [? _].
Qed.
Lemma de_issuer_metadata_readable v i : de_issuer_metadata v = Some i → readable_issuer i.
Proof.
  unfold de_issuer_metadata. destruct v as [| | | | |m]; try done. cbn [obj]. intros H.
  repeat (match type of H with (?e ≫= _) = _ => destruct e eqn:? end; [|done]; cbn [mbind option_bind] in H).
  injection H as <-. split_and!; cbn [im_batch im_configurations].
  - intros z ->. match goal with E : opt de_batch _ m = _ |- _ => apply opt_inv in E as (j & _ & HE); revert HE end.
    unfold de_batch. destruct j as [| | | | |m']; try done. cbn [obj]. intros (j & _ & H)%req_inv. by apply (de_int_inv 64 j).
  - match goal with E : req (de_map _) _ m = _ |- _ => apply req_inv in E as (j & _ & HE) end. by apply de_map_inv in HE as [? _].
  - intros k c Hc. match goal with E : req (de_map _) _ m = _ |- _ => apply req_inv in E as (j & _ & HE) end.
    apply de_map_inv in HE as [_ HE]. destruct (HE k c Hc) as (m' & v & _ & _ & Hv). by apply (de_configuration_readable v).
Qed.

(** ** Other members, in any order *)
Lemma exactly_self l (f : list (string * json)) : exactly l (JObj f) → NoDup (keys l) → ∀ m x, m ≡ₚ f ++ x →
  (∀ k, k ∈ keys x → k ∉ keys l) → reads l m.
Proof. intros H Hn m x Hm Hx. eapply reads_more; [by apply exactly_reads|done|done]. Qed.
Lemma issuer_others i m0 x m : readable_issuer i → ser_issuer_metadata i = JObj m0 → m ≡ₚ m0 ++ x →
  (∀ k, k ∈ keys x → k ∉ keys (issuer_document i)) → de_issuer_metadata (JObj m) = Some i.
Proof.
  intros Hi Hm0 Hm Hx. apply issuer_reads; [done|]. pose proof (issuer_values i) as He. rewrite Hm0 in He.
  by apply (exactly_self _ _ He (issuer_nodup i) m x).
Qed.
Lemma configuration_others c m0 x m : readable_configuration c → ser_configuration c = JObj m0 → m ≡ₚ m0 ++ x →
  (∀ k, k ∈ keys x → k ∉ keys (configuration_document c)) → de_configuration (JObj m) = Some c.
Proof.
  intros Hi Hm0 Hm Hx. apply configuration_reads; [done|]. pose proof (configuration_values c) as He. rewrite Hm0 in He.
  by apply (exactly_self _ _ He (configuration_nodup c) m x).
Qed.
Lemma server_others s m0 x m : ser_server_metadata s = JObj m0 → m ≡ₚ m0 ++ x →
  (∀ k, k ∈ keys x → k ∉ keys (server_document s)) → de_server_metadata (JObj m) = Some s.
Proof.
  intros Hm0 Hm Hx. apply server_reads. pose proof (server_values s) as He. rewrite Hm0 in He.
  by apply (exactly_self _ _ He (server_nodup s) m x).
Qed.

(** ** What cannot be read *)
Lemma member_elem t m k n P v : members_as t m → (k, n, P) ∈ t → (k, v) ∈ m → (n = Optional ∧ v = JNull) ∨ P v.
Proof.
  intros Ht Hk Hv. unfold members_as in Ht. rewrite Forall_forall in Ht. specialize (Ht _ Hk). cbn [fst snd] in Ht.
  assert (∀ w, values_of k m = [w] → w = v) as Hw.
  { intros w Hw. rewrite values_lookups in Hw. symmetry. by apply (lookups_of m k w v). }
  assert (values_of k m ≠ []) as Hne.
  { rewrite values_lookups. intros H. apply lookups_elem in Hv. rewrite H in Hv. by apply elem_of_nil in Hv. }
  destruct n; cbn [member_ok] in Ht.
  - destruct Ht as (w & Hl & HP). rewrite (Hw w Hl) in HP. by right.
  - destruct Ht as [?|[Hl|(w & Hl & HP)]]; [done| |]; [left; split; [done|symmetry; by apply Hw]|]. rewrite (Hw w Hl) in HP. by right.
  - destruct Ht as [?|(w & Hl & HP)]; [done|]. rewrite (Hw w Hl) in HP. by right.
Qed.
Lemma not_some {A} (o : option A) : ¬ is_Some o → o = None.
Proof. destruct o; [|done]. intros H. destruct H. by eexists. Qed.
Ltac member := repeat first [apply elem_of_list_here | apply elem_of_list_further].
Lemma issuer_display_list m l : ("display", JArr l) ∈ m → de_issuer_metadata (JObj m) = None.
Proof.
  intros Hin. apply not_some. rewrite issuer_some. intros (m' & [= <-] & H).
  destruct (member_elem _ _ "display" Optional (object_of display_members) _ H ltac:(member) Hin) as [[_ ?]|(? & ? & _)]; done.
Qed.
Lemma issuer_configuration m cs k v : ("credential_configurations_supported", JObj cs) ∈ m → (k, v) ∈ cs →
  is_Some (de_issuer_metadata (JObj m)) → configuration_value v.
Proof.
  intros Hin Hk (m' & [= <-] & H)%issuer_some.
  destruct (member_elem _ _ "credential_configurations_supported" Required (map_of configuration_value) _ H ltac:(member) Hin)
    as [[? _]|(m' & [= <-] & Hm)]; [done|]. by apply (Hm k).
Qed.
Lemma issuer_format m cs k c f : ("credential_configurations_supported", JObj cs) ∈ m → (k, JObj c) ∈ cs → ("format", JStr f) ∈ c →
  f ∉ ["jwt_vc_json"; "ldp-vc"; "jwt_vc_json-ld"; "mso_mdoc"; "vc+sd-jwt"] → de_issuer_metadata (JObj m) = None.
Proof.
  intros Hm Hk Hf Hn. apply not_some. intros H. destruct (issuer_configuration _ _ _ _ Hm Hk H) as (c' & [= <-] & (f' & Hv & Hc) & _).
  rewrite values_lookups in Hv. apply lookups_elem in Hf. rewrite Hv in Hf. apply elem_of_list_singleton in Hf. injection Hf as ->.
  destruct Hn. destruct Hc as [[Hc _]|[[-> _]|[-> _]]]; [|do 3 right; by left|do 4 right; by left].
  do 3 (apply elem_of_cons in Hc as [->|Hc]; [member|]). by apply elem_of_nil in Hc.
Qed.
Lemma issuer_value_type m cs k c f d s n cl t : ("credential_configurations_supported", JObj cs) ∈ m → (k, JObj c) ∈ cs →
  ("format", JStr f) ∈ c → f ∈ ["jwt_vc_json"; "ldp-vc"; "jwt_vc_json-ld"] → ("credential_definition", JObj d) ∈ c →
  ("credentialSubject", JObj s) ∈ d → (n, JObj cl) ∈ s → ("value_type", JStr t) ∈ cl → t ∉ ["string"; "number"; "image"] →
  de_issuer_metadata (JObj m) = None.
Proof.
  intros Hm Hk Hf Hin Hd Hs Hn Ht Hnot. apply not_some. intros H.
  destruct (issuer_configuration _ _ _ _ Hm Hk H) as (c' & [= <-] & (f' & Hv & Hc) & _).
  rewrite values_lookups in Hv. apply lookups_elem in Hf. rewrite Hv in Hf. apply elem_of_list_singleton in Hf. injection Hf as ->.
  assert (members_as [("credential_definition", Required, object_of definition_members)] c) as Hc'.
  { destruct Hc as [[_ Hc]|[[-> _]|[-> _]]]; [done| |]; exfalso; revert Hin; rewrite !elem_of_cons, elem_of_nil; intuition congruence. }
  destruct (member_elem _ _ "credential_definition" Required _ _ Hc' ltac:(member) Hd) as [[? _]|(d' & [= <-] & Hd')]; [done|].
  destruct (member_elem _ _ "credentialSubject" Optional (map_of claim_value) _ Hd' ltac:(member) Hs) as [[_ ?]|(s' & [= <-] & Hs')]; [done|].
  specialize (Hs' n _ Hn). inversion Hs' as [cl' Hcl]; subst. destruct (Hcl _ _ Ht) as (_ & Hvt & _). destruct (Hvt eq_refl) as (t' & Ht' & [[= <-]|?]); done.
Qed.
Lemma server_needs m k : k ∈ ["issuer"; "authorization_endpoint"; "token_endpoint"; "response_types_supported";
    "pre-authorized_grant_anonymous_access_supported"] → k ∉ keys m → de_server_metadata (JObj m) = None.
Proof.
  intros Hk Hn. apply not_some. rewrite server_some. intros (m' & [= <-] & H).
  assert (∀ P, (k, Required, P) ∈ server_members → False) as Hf.
  { intros P Hin. unfold members_as in H. rewrite Forall_forall in H. destruct (H _ Hin) as (v & Hv & _). cbn [fst snd] in Hv.
    rewrite values_lookups in Hv. destruct Hn. assert (v ∈ lookups k m) as Hl by (rewrite Hv; by left). apply lookups_elem in Hl.
    apply elem_of_list_fmap. by exists (k, v). }
  unfold server_members in Hf. rewrite !elem_of_cons, elem_of_nil in Hk.
  destruct Hk as [->|[->|[->|[->|[->|[]]]]]]; (eapply Hf; member).
Qed.
Lemma server_other_names k l m vs s : (k, l) ∈ name_lists → (k, JArr vs) ∈ m → JStr s ∈ vs → s ∉ l → de_server_metadata (JObj m) = None.
Proof.
  intros Hk Hm Hs Hn. apply not_some. rewrite server_some. intros (m' & [= <-] & H).
  assert (∃ nd, (k, nd, names_of l) ∈ server_members) as (nd & Hin).
  { unfold name_lists in Hk. rewrite !elem_of_cons, elem_of_nil in Hk.
    destruct Hk as [Hk|[Hk|[Hk|[Hk|[Hk|[Hk|[]]]]]]]; injection Hk as -> ->; eexists; unfold server_members; member. }
  destruct (member_elem _ _ _ _ _ _ H Hin Hm) as [[_ ?]|(l' & [= <-] & Hl)]; [done|]. rewrite Forall_forall in Hl.
  destruct (Hl _ Hs) as (t & Ht & [[= <-]|?]); done.
Qed.

Lemma object_of_obj t m : object_of t (JObj m) ↔ members_as t m.
Proof. unfold object_of. split; [by intros (m' & [= <-] & H)|intros; by exists m]. Qed.
Lemma issuer_some_obj m : is_Some (de_issuer_metadata (JObj m)) ↔ members_as (issuer_members ser_int) m.
Proof. by rewrite issuer_some, object_of_obj. Qed.
Lemma server_some_obj m : is_Some (de_server_metadata (JObj m)) ↔ members_as server_members m.
Proof. by rewrite server_some, object_of_obj. Qed.
