(** What can be read of presentation definitions and client metadata, and the members of the
    verifier's messages. *)
From Coq Require Import Lia.
From Verif Require Import Base StringSpec Json MatcherModel JsonParse JsonText CoreModel VcModel Prog IssuerTypes VerifierModel
  IssuerClaims SerdeSpec SerdeModel SerdeFacts SerdeTrips SerdeText SerdeProps ErrorModel VcSpec VcSerde VcTrips VcText WireSpec WireFacts
  DifSpec DifSerde DifTrips.
Local Arguments String.append : simpl never.

(** ** Members *)
Lemma claim_format_members f : exactly [("alg", option_map ser_strs (cf_alg f)); ("proof_type", option_map ser_strs (cf_proof_type f))]
  (ser_claim_format f).
Proof. exact_members. Qed.
Lemma field_members f : exactly [("path", Some (ser_strs (fd_path f))); ("filter", option_map ser_filter (fd_filter f));
  ("optional", option_map JBool (fd_optional f))] (ser_field f).
Proof. exact_members. Qed.
Lemma constraints_members c : exactly [("fields", option_map (ser_list ser_field) (cn_fields c))] (ser_constraints c).
Proof. exact_members. Qed.
Lemma descriptor_members d : exactly [("id", Some (JStr (id_id d))); ("name", option_map JStr (id_name d));
  ("purpose", option_map JStr (id_purpose d)); ("format", option_map (ser_map ser_claim_format) (id_format d));
  ("constraints", Some (ser_constraints (id_constraints d)))] (ser_descriptor d).
Proof. exact_members. Qed.
Lemma presentation_definition_members d : exactly [("id", Some (JStr (pd_id d)));
  ("input_descriptors", Some (ser_list ser_descriptor (pd_input_descriptors d))); ("name", option_map JStr (pd_name d));
  ("purpose", option_map JStr (pd_purpose d)); ("format", option_map (ser_map ser_claim_format) (pd_format d))]
  (ser_presentation_definition d).
Proof. exact_members. Qed.
Lemma nested_members n : exactly [("format", Some (JStr (pn_format n))); ("path", Some (JStr (pn_path n)))] (ser_nested n).
Proof. exact_members. Qed.
Lemma mapping_members d : exactly [("id", Some (JStr (dm_id d))); ("format", Some (JStr (dm_format d))); ("path", Some (JStr (dm_path d)));
  ("path_nested", Some (ser_nested (dm_nested d)))] (ser_mapping d).
Proof. exact_members. Qed.
Lemma submission_members s : exactly [("id", Some (JStr (pb_id s))); ("definition_id", Some (JStr (pb_definition_id s)));
  ("descriptor_map", Some (ser_list ser_mapping (pb_descriptor_map s)))] (ser_submission s).
Proof. exact_members. Qed.
Lemma metadata_document c : exactly
  [("client_id", Some (JStr (mt_client_id c))); ("client_id_issued_at", option_map ser_int (mt_issued_at c));
   ("client_secret", option_map JStr (mt_secret c)); ("client_secret_expires_at", option_map ser_int (mt_secret_expires_at c));
   ("redirect_uris", option_map ser_strs (mt_redirect_uris c));
   ("token_endpoint_auth_method", option_map ser_endpoint_auth (mt_endpoint_auth c));
   ("grant_types", option_map (ser_list ser_grant_type) (mt_grant_types c));
   ("response_types", option_map (ser_list ser_response_type) (mt_response_types c));
   ("client_name", option_map JStr (mt_name c)); ("client_uri", option_map JStr (mt_uri c)); ("logo_uri", option_map JStr (mt_logo c));
   ("scope", option_map JStr (mt_scope c)); ("contacts", option_map JStr (mt_contacts c)); ("tos_uri", option_map JStr (mt_tos c));
   ("policy_uri", option_map JStr (mt_policy c)); ("jwks_uri", option_map JStr (mt_jwks_uri c)); ("jwks", option_map JStr (mt_jwks c));
   ("software_id", option_map JStr (mt_software_id c)); ("software_version", option_map JStr (mt_software_version c));
   ("require_pushed_authorization_requests", option_map JBool (mt_pushed c));
   ("credential_offer_endpoint", option_map JStr (mt_offer_endpoint c)); ("vp_formats", option_map ser_vp_formats (mt_vp_formats c))]
  (ser_client_metadata c).
Proof. exact_members. Qed.
Lemma vp_request_members r : exactly
  [("response_type", Some (ser_vp_response_type (vo_response_type r))); ("client_id", Some (JStr (vo_client_id r)));
   ("redirect_uri", option_map JStr (vo_redirect_uri r)); ("response_mode", option_map JStr (vo_response_mode r));
   ("response_uri", option_map JStr (vo_response_uri r)); ("scope", option_map JStr (vo_scope r)); ("nonce", Some (JStr (vo_nonce r)));
   ("state", option_map JStr (vo_state r)); ("presentation_definition", Some (ser_kind ser_presentation_definition (vo_definition r)));
   ("client_id_scheme", option_map ser_scheme (vo_client_id_scheme r)); ("client_metadata", Some (vo_client_metadata r))]
  (ser_vp_request r).
Proof. exact_members. Qed.
Lemma response_members cx r : exactly
  [("vp_token", option_map (ser_list (ser_kind (ser_vp cx))) (rq_vp_token r));
   ("presentation_submission", option_map ser_submission (rq_submission r)); ("state", option_map JStr (rq_state r))]
  (ser_response_request cx r).
Proof. exact_members. Qed.

(** ** Filters *)
Lemma values_lookups k m : values_of k m = lookups k m.
Proof.
  unfold values_of, lookups. induction m as [|[k' v] m IH]; [done|]. simpl. case_bool_decide; simpl; by rewrite IH.
Qed.
Lemma flattened_elem taken m k v : (k, v) ∈ flattened taken m ↔ (k, v) ∈ m ∧ k ∉ taken.
Proof.
  unfold flattened. rewrite elem_of_list_In, filter_In, <-elem_of_list_In. simpl. by rewrite bool_decide_eq_true.
Qed.
Lemma split_type m : m ≡ₚ map (λ v, ("type", v)) (lookups "type" m) ++ flattened ["type"] m.
Proof.
  induction m as [|[k v] m IH]; [done|]. destruct (decide (k = "type")) as [->|Hne].
  - rewrite lookups_eq. unfold flattened in *. simpl. by constructor.
  - rewrite lookups_ne by done. unfold flattened in *. simpl.
    rewrite bool_decide_true by (by intros ?%elem_of_list_singleton). rewrite <-Permutation_middle. by constructor.
Qed.
Lemma filter_iff m f : de_filter (JObj m) = Some f ↔ filter_members f m.
Proof.
  unfold de_filter, filter_members. cbn [obj]. split.
  - intros H. destruct (req de_str "type" m) as [t|] eqn:Et; [|done].
    destruct (de_filter_value (flattened ["type"] m)) as [v|] eqn:Ev; [|done]. injection H as <-. cbn [fl_type fl_value].
    unfold req in Et. destruct (lookups "type" m) as [|j [|]] eqn:El; [done| |done]. destruct j; try done. injection Et as <-.
    unfold de_filter_value in Ev. destruct (flattened ["type"] m) as [|[k j] [|]] eqn:Ef; [done| |done].
    pose proof (split_type m) as Hp. rewrite El, Ef in Hp. simpl in Hp.
    destruct j; try (by repeat case_bool_decide). exists k, s0. split; [exact Hp|].
    repeat case_bool_decide; simplify_eq/=; done.
  - intros (k & s & Hp & Hv). destruct f as [t v]. cbn [fl_type fl_value] in *.
    assert (k ≠ "type") as Hk by (destruct v; destruct Hv as [-> ->]; done).
    assert (lookups "type" m = [JStr t]) as El.
    { assert (lookups "type" m ≡ₚ lookups "type" [("type", JStr t); (k, JStr s)]) as H by (unfold lookups; by rewrite Hp).
      rewrite lookups_eq, lookups_ne in H by done. change (lookups "type" []) with (@nil json) in H.
      by apply Permutation_singleton_r in H. }
    assert (flattened ["type"] m = [(k, JStr s)]) as Ef.
    { pose proof (split_type m) as H. rewrite El in H. simpl in H. apply (Permutation_trans (symmetry Hp)), Permutation_cons_inv in H.
      by apply Permutation_singleton_l in H. }
    rewrite (req_of _ _ _ _ El), Ef. cbn [de_str de_filter_value].
    destruct v; destruct Hv as [-> ->]; reflexivity.
Qed.
Lemma lookups_of {A} (m : list (string * A)) k v w : lookups k m = [v] → (k, w) ∈ m → w = v.
Proof. intros H Hin. apply lookups_elem in Hin. rewrite H in Hin. by apply elem_of_list_singleton in Hin. Qed.
Lemma req_elem {A} (d : json → option A) k m a v : req d k m = Some a → (k, v) ∈ m → d v = Some a.
Proof.
  unfold req. destruct (lookups k m) as [|j [|]] eqn:E; [done| |done]. intros H Hin. by rewrite (lookups_of _ _ _ _ E Hin).
Qed.
Lemma opt_elem {A} (d : json → option A) k m o v : opt d k m = Some o → (k, v) ∈ m → v = JNull ∨ ∃ a, o = Some a ∧ d v = Some a.
Proof.
  unfold opt. destruct (lookups k m) as [|j [|]] eqn:E.
  - intros _ Hin. apply lookups_elem in Hin. rewrite E in Hin. by apply elem_of_nil in Hin.
  - intros H Hin. rewrite (lookups_of _ _ _ _ E Hin). destruct j; [by left|..]; right;
      (destruct (d _) as [a|]; [|done]; injection H as <-; eauto).
  - by destruct j.
Qed.
Lemma de_list_elem {A} (d : json → option A) l r j : de_list d (JArr l) = Some r → j ∈ l → ∃ a, d j = Some a.
Proof.
  unfold de_list. revert r. induction l as [|x l IH]; intros r H; [by intros ?%elem_of_nil|].
  simpl in H. destruct (d x) as [a|] eqn:E; [|done]. simpl in H. destruct (mapM d l) as [r'|]; [|done].
  intros [->|Hin]%elem_of_cons; [eauto|]. by apply (IH r').
Qed.
Ltac parts H := repeat match type of H with match ?x with Some _ => _ | None => _ end = _ => destruct x eqn:?; [|done] end.
Lemma filters_simple j d v : de_presentation_definition j = Some d → filter_in j v → simple_filter v.
Proof.
  intros H (dm & l & x & c & fs & f & -> & Hl & Hx & Hc & Hfs & Hf & Hv).
  unfold de_presentation_definition in H. cbn [obj] in H. parts H.
  match goal with E : req (de_list de_descriptor) _ dm = _ |- _ => apply (req_elem _ _ _ _ _) with (2 := Hl) in E; rename E into E1 end.
  apply (de_list_elem _ _ _ (JObj x)) in E1 as (a & E1); [|done]. clear H.
  unfold de_descriptor in E1. cbn [obj] in E1. parts E1.
  match goal with E : req de_constraints _ x = _ |- _ => apply (req_elem _ _ _ _ _) with (2 := Hc) in E; rename E into E2 end.
  unfold de_constraints in E2. cbn [obj] in E2. destruct (opt (de_list de_field) "fields" c) as [o5|] eqn:E3; [|done].
  apply (opt_elem _ _ _ _ _) with (2 := Hfs) in E3 as [?|(a' & -> & E3)]; [done|].
  apply (de_list_elem _ _ _ (JObj f)) in E3 as (ff & E3); [|done].
  unfold de_field in E3. cbn [obj] in E3. parts E3.
  match goal with E : opt de_filter _ f = _ |- _ => apply (opt_elem _ _ _ _ _) with (2 := Hv) in E as [->|(g & -> & Hg)] end; [by left|].
  right. destruct v as [| | | | |m]; try done. exists g, m. split; [done|]. by apply filter_iff.
Qed.
(** ** Client metadata *)
Lemma opt_is_some {A} (d : json → option A) (P : json → Prop) k m : (∀ v, is_Some (d v) ↔ P v) →
  is_Some (opt d k m) ↔ left_out_or P k m.
Proof.
  intros HP. unfold opt, left_out_or. rewrite values_lookups. destruct (lookups k m) as [|j [|]] eqn:E.
  - split; [by left|by eexists].
  - destruct j eqn:Ej; (split; [|intros [?|[?|(v & ? & Hv)]]; simplify_eq]);
      try (by right; left); try (by eexists);
      try (by apply HP in Hv as [a ->]; eexists);
      (intros H; right; right; eexists; split; [done|]; apply HP; destruct (d _); [by eexists|by destruct H]).
  - split; [|intros [?|[?|(v & ? & Hv)]]; done]. by destruct j; intros [? ?].
Qed.
Lemma de_str_some v : is_Some (de_str v) ↔ ∃ s, v = JStr s.
Proof. split; [|by intros [s ->]; eexists]. destruct v; intros [? H]; try done. by eexists. Qed.
Lemma de_bool_some v : is_Some (de_bool v) ↔ ∃ s, v = JBool s.
Proof. split; [|by intros [s ->]; eexists]. destruct v; intros [? H]; try done. by eexists. Qed.
Lemma de_list_some {A} (d : json → option A) (P : json → Prop) v : (∀ v, is_Some (d v) ↔ P v) →
  is_Some (de_list d v) ↔ ∃ l, v = JArr l ∧ Forall P l.
Proof.
  intros HP. split.
  - destruct v; intros [a H]; try done. eexists; split; [done|]. unfold de_list in H. apply mapM_Some in H.
    eapply Forall2_Forall_l; [done|]. apply Forall_true. intros x y Hy. apply HP. by eexists.
  - intros (l & -> & H). unfold de_list. rewrite mapM_is_Some. eapply Forall_impl; [done|]. intros x. by apply HP.
Qed.
Lemma de_strs_some v : is_Some (de_strs v) ↔ texts v.
Proof.
  unfold de_strs. rewrite (de_list_some _ (λ v, ∃ s, v = JStr s)) by apply de_str_some. unfold texts. split.
  - intros (l & -> & H). induction H as [|x l [s ->] H [l' IH]]; [by exists []|]. injection IH as ->. by exists (s :: l').
  - intros (l & ->). eexists; split; [done|]. apply Forall_forall. intros x (s & -> & _)%elem_of_list_fmap. by eexists.
Qed.
Lemma unit_variant_some {A} (names : list (string * A)) v : is_Some (unit_variant names v) ↔ name_value (keys names) v.
Proof.
  assert (∀ s, is_Some (assoc s names) ↔ s ∈ keys names) as Ha.
  { intros s. induction names as [|[k a] l IH]; simpl.
    - split; [by intros [? ?]|by intros ?%elem_of_nil].
    - unfold assoc in *. simpl. rewrite elem_of_cons. case_bool_decide; [subst; split; [by left|by eexists]|].
      rewrite IH. split; [by right|by intros [?|?]]. }
  unfold unit_variant, name_value. split.
  - destruct v as [| | |s| |[|[k j] [|]]]; simpl; try (by intros [? ?]).
    + intros H%Ha. eauto.
    + destruct j; try (by intros [? ?]). intros H%Ha. eauto.
  - intros (s & Hs%Ha & [-> | ->]); exact Hs.
Qed.
Lemma de_int_some n v : is_Some (de_int n v) ↔ ∃ z, v = ser_int z ∧ fits n z.
Proof.
  split; [|intros (z & -> & H); rewrite de_int_ser by done; by eexists].
  intros [z H]. exists z. split; [|by apply (de_int_inv n v)].
  unfold de_int in H. destruct v as [| |t| | |]; try done. destruct (DecimalString.NilZero.int_of_string t) as [i|]; [|done].
  cbv zeta in H. destruct (bool_decide (int_text (Z.of_int i) = t)) eqn:E; [|done]. apply bool_decide_eq_true in E.
  destruct (int_range n (Z.of_int i)); [|done]. simpl in H. injection H as <-. unfold ser_int. by rewrite E.
Qed.
Lemma de_claim_format_some v : is_Some (de_claim_format v) ↔ format_value v.
Proof.
  unfold format_value, de_claim_format. split.
  - destruct v as [| | | | |m]; intros [f H]; try done. exists m. split; [done|]. cbn [obj] in H.
    destruct (opt de_strs "alg" m) eqn:E1; [|done]. destruct (opt de_strs "proof_type" m) eqn:E2; [|done].
    split; apply (opt_is_some de_strs texts _ _ de_strs_some); by eexists.
  - intros (m & -> & H1 & H2). cbn [obj].
    apply (opt_is_some de_strs texts _ _ de_strs_some) in H1 as [a ->], H2 as [b ->]. by eexists.
Qed.
Lemma de_vp_formats_some v : is_Some (de_vp_formats v) ↔ has_kind ser_int Formats v.
Proof.
  unfold de_vp_formats. cbn [has_kind].
  assert (∀ m acc, is_Some (de_vp_format_entries m acc) ↔ ∀ k x, (k, x) ∈ m → k = "jwt_vp_json" ∧ format_value x) as Hm.
  { induction m as [|[k x] m IH]; intros acc; cbn [de_vp_format_entries].
    - split; [by intros _ k x ?%elem_of_nil|by eexists].
    - case_bool_decide as Hk.
      + destruct (de_claim_format x) as [f|] eqn:E.
        * rewrite IH. split; intros H k' x'; [intros [[= -> ->]|?]%elem_of_cons|intros ?; apply H; by right]; [|by apply H].
          split; [done|]. apply de_claim_format_some. by eexists.
        * split; [by intros [? ?]|]. intros H. destruct (H k x) as [_ [? Hx]%de_claim_format_some]; [by left|]. congruence.
      + split; [by intros [? ?]|]. intros H. by destruct (H k x) as [? _]; [left|]. }
  split.
  - destruct v as [| | | | |m]; try (by intros [? ?]). intros H. exists m. split; [done|]. by apply (Hm m None).
  - intros (m & -> & H). cbn [obj]. by apply Hm.
Qed.
Lemma somes8 {A B C D E F G H R} (a : option A) (b : option B) (c : option C) (d : option D) (e : option E) (f : option F) (g : option G) (h : option H)
  (r : A → B → C → D → E → F → G → H → option R) :
  is_Some (match a, b, c, d, e, f, g, h with
           | Some a, Some b, Some c, Some d, Some e, Some f, Some g, Some h => r a b c d e f g h
           | _, _, _, _, _, _, _, _ => None end) →
  is_Some a ∧ is_Some b ∧ is_Some c ∧ is_Some d ∧ is_Some e ∧ is_Some f ∧ is_Some g ∧ is_Some h.
Proof. destruct a, b, c, d, e, f, g, h; intros [? H0]; solve [discriminate H0|repeat (split; [by eexists|]); by eexists]. Qed.
Lemma client_id_some m : is_Some (req de_str "client_id" m) ↔ ∃ s, values_of "client_id" m = [JStr s].
Proof.
  unfold req. rewrite values_lookups. destruct (lookups "client_id" m) as [|j [|]].
  - split; [by intros [? ?]|by intros [? ?]].
  - rewrite de_str_some. split; intros [s H]; exists s; [by rewrite H|by injection H].
  - split; [by intros [? ?]|by intros [? ?]].
Qed.
Lemma kind_text k m : is_Some (opt de_str k m) ↔ left_out_or (has_kind ser_int Text) k m.
Proof. apply opt_is_some, de_str_some. Qed.
Lemma kind_number k m : is_Some (opt (de_int 64) k m) ↔ left_out_or (has_kind ser_int Number) k m.
Proof. apply opt_is_some, de_int_some. Qed.
Lemma kind_flag k m : is_Some (opt de_bool k m) ↔ left_out_or (has_kind ser_int Flag) k m.
Proof. apply opt_is_some, de_bool_some. Qed.
Lemma kind_texts k m : is_Some (opt de_strs k m) ↔ left_out_or (has_kind ser_int Texts) k m.
Proof. apply opt_is_some, de_strs_some. Qed.
Lemma kind_formats k m : is_Some (opt de_vp_formats k m) ↔ left_out_or (has_kind ser_int Formats) k m.
Proof. apply opt_is_some, de_vp_formats_some. Qed.
Lemma kind_auth k m : is_Some (opt de_endpoint_auth k m) ↔
  left_out_or (has_kind ser_int (OneOf ["none"; "client_secret_jwt"; "private_key_jwt"])) k m.
Proof. apply opt_is_some. intros v. apply unit_variant_some. Qed.
Lemma kind_grants k m : is_Some (opt (de_list de_grant_type) k m) ↔
  left_out_or (has_kind ser_int (SomeOf ["authorization_code"; "urn:ietf:params:oauth:grant-type:pre-authorized_code"])) k m.
Proof. apply opt_is_some. intros v. apply de_list_some. intros w. apply unit_variant_some. Qed.
Lemma kind_responses k m : is_Some (opt (de_list de_response_type) k m) ↔
  left_out_or (has_kind ser_int (SomeOf ["code"; "vp_token"; "id_token vp_token"])) k m.
Proof. apply opt_is_some. intros v. apply de_list_some. intros w. apply unit_variant_some. Qed.
Lemma metadata_iff m : is_Some (de_client_metadata (JObj m)) ↔ metadata_members ser_int m.
Proof.
  unfold metadata_members, de_client_metadata. cbn [obj]. rewrite <-client_id_some. split.
  - intros H. pose proof H as H0. apply somes8 in H0 as (H1 & H2 & H3 & H4 & H5 & H6 & H7 & H8). split; [done|].
    destruct H1 as [? E1], H2 as [? E2], H3 as [? E3], H4 as [? E4], H5 as [? E5], H6 as [? E6], H7 as [? E7], H8 as [? E8].
    rewrite E1, E2, E3, E4, E5, E6, E7, E8 in H.
    pose proof H as H0. apply somes8 in H0 as ([? F1] & [? F2] & [? F3] & [? F4] & [? F5] & [? F6] & [? F7] & [? F8]).
    rewrite F1, F2, F3, F4, F5, F6, F7, F8 in H.
    destruct (opt de_str "jwks_uri" m) eqn:G1; [|by destruct H]. destruct (opt de_str "jwks" m) eqn:G2; [|by destruct H].
    destruct (opt de_str "software_id" m) eqn:G3; [|by destruct H]. destruct (opt de_str "software_version" m) eqn:G4; [|by destruct H].
    destruct (opt de_str "credential_offer_endpoint" m) eqn:G5; [|by destruct H].
    destruct (opt de_vp_formats "vp_formats" m) eqn:G6; [|by destruct H]. clear H.
    intros k t Hin. unfold optional_members in Hin.
    repeat (apply elem_of_cons in Hin as [[= -> ->]|Hin];
      [first [apply kind_text|apply kind_number|apply kind_flag|apply kind_texts|apply kind_formats|apply kind_auth|apply kind_grants|apply kind_responses]; by eexists|]).
    by apply elem_of_nil in Hin.
  - intros [[? E1] H].
    pose proof (λ k t Hin, H k t (proj2 (elem_of_list_In _ _) Hin)) as K. clear H. unfold optional_members in K.
    assert (∀ k, In (k, Text) optional_members → is_Some (opt de_str k m)) as KT by (intros; by apply kind_text, K).
    assert (∀ k, In (k, Number) optional_members → is_Some (opt (de_int 64) k m)) as KN by (intros; by apply kind_number, K).
    unfold optional_members in KT, KN.
    destruct (KN "client_id_issued_at") as [? E2]; [simpl; tauto|]. destruct (KN "client_secret_expires_at") as [? E3]; [simpl; tauto|].
    destruct (proj2 (kind_texts "redirect_uris" m)) as [? E4]; [apply K; simpl; tauto|].
    destruct (proj2 (kind_auth "token_endpoint_auth_method" m)) as [? E5]; [apply K; simpl; tauto|].
    destruct (proj2 (kind_grants "grant_types" m)) as [? E6]; [apply K; simpl; tauto|].
    destruct (proj2 (kind_responses "response_types" m)) as [? E7]; [apply K; simpl; tauto|].
    destruct (proj2 (kind_flag "require_pushed_authorization_requests" m)) as [? E8]; [apply K; simpl; tauto|].
    destruct (proj2 (kind_formats "vp_formats" m)) as [? E9]; [apply K; simpl; tauto|].
    rewrite E1, E2, E3, E4, E5, E6, E7, E8, E9.
    repeat match goal with |- context [opt de_str ?k m] =>
      let E := fresh "E" in destruct (KT k) as [? E]; [simpl; tauto|]; rewrite E; clear E end.
    by eexists.
Qed.

(** ** What cannot be read *)
Lemma req_missing {A} (d : json → option A) k m : k ∉ keys m → req d k m = None.
Proof.
  intros H. unfold req. destruct (lookups k m) as [|j l] eqn:E; [done|]. exfalso. apply H.
  assert (j ∈ lookups k m) as Hj by (rewrite E; left). apply lookups_elem in Hj. unfold keys.
  apply elem_of_list_fmap. by exists (k, j).
Qed.
Lemma vp_request_needs m : "client_metadata" ∉ keys m ∨ "presentation_definition" ∉ keys m → de_vp_request (JObj m) = None.
Proof.
  unfold de_vp_request. cbn [obj].
  intros [H|H]; rewrite (req_missing _ _ _ H);
    repeat match goal with |- match ?x with _ => _ end = None => destruct x; try reflexivity end.
Qed.
Lemma metadata_formats m f k x : ("vp_formats", JObj f) ∈ m → (k, x) ∈ f → k ≠ "jwt_vp_json" → de_client_metadata (JObj m) = None.
Proof.
  intros Hm Hf Hk. destruct (de_client_metadata (JObj m)) as [c|] eqn:E; [|done]. exfalso.
  destruct (proj1 (metadata_iff m) (mk_is_Some _ _ E)) as [_ H].
  assert (("vp_formats", Formats) ∈ optional_members) as Hin by (apply elem_of_list_In; unfold optional_members; simpl; tauto).
  specialize (H _ _ Hin). unfold left_out_or in H. rewrite values_lookups in H. apply lookups_elem in Hm.
  destruct H as [H|[H|(v & H & Hv)]]; rewrite H in Hm; [by apply elem_of_nil in Hm|by apply elem_of_list_singleton in Hm|].
  apply elem_of_list_singleton in Hm as <-. destruct Hv as (f' & [= <-] & Hv). by destruct (Hv _ _ Hf).
Qed.
Lemma metadata_contacts m l : ("contacts", JArr l) ∈ m → de_client_metadata (JObj m) = None.
Proof.
  intros Hm. destruct (de_client_metadata (JObj m)) as [c|] eqn:E; [|done]. exfalso.
  destruct (proj1 (metadata_iff m) (mk_is_Some _ _ E)) as [_ H].
  assert (("contacts", Text) ∈ optional_members) as Hin by (apply elem_of_list_In; unfold optional_members; simpl; tauto).
  specialize (H _ _ Hin). unfold left_out_or in H. rewrite values_lookups in H. apply lookups_elem in Hm.
  destruct H as [H|[H|(v & H & Hv)]]; rewrite H in Hm; [by apply elem_of_nil in Hm|by apply elem_of_list_singleton in Hm|].
  apply elem_of_list_singleton in Hm as <-. by destruct Hv.
Qed.
Lemma response_needs_list cx m t : ("vp_token", JStr t) ∈ m → de_response_request cx (JObj m) = None.
Proof.
  intros H. unfold de_response_request. cbn [obj].
  destruct (opt (de_list (de_kind (de_vp cx))) "vp_token" m) eqn:E; [|done].
  apply (opt_elem _ _ _ _ _) with (2 := H) in E as [?|(a & _ & ?)]; done.
Qed.
