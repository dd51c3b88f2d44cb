(** Metadata survives being written and read. *)
From Coq Require Import Lia.
From Verif Require Import Base StringSpec Json MatcherModel JsonParse JsonText CoreModel VcModel Prog IssuerTypes
  SerdeSpec SerdeModel SerdeFacts SerdeTrips SerdeText SerdeProps ErrorModel WireSpec WireFacts VcSpec VcSerde VcTrips DifSerde MetaSerde MetaSpec.
Local Arguments String.append : simpl never.
Global Arguments depth_limit : simpl never.

(** ** What a table of members says about a document *)
Definition reads (l : list (string * option json)) (m : list (string * json)) : Prop :=
  ∀ k o, (k, o) ∈ l → lookups k m = opt_list o.
Lemma lookups_nodup {A} k (v : A) m : NoDup (keys m) → (k, v) ∈ m → lookups k m = [v].
Proof.
  induction m as [|[k' v'] m IH]; intros Hn Hin; [by apply elem_of_nil in Hin|]. apply NoDup_cons in Hn as [Hk Hn].
  apply elem_of_cons in Hin as [[= <- <-]|Hin].
  - rewrite lookups_eq. f_equal. destruct (lookups k m) as [|x l] eqn:E; [done|]. destruct Hk.
    assert (x ∈ lookups k m) as Hx%lookups_elem by (rewrite E; by left). apply elem_of_list_fmap. by exists (k, x).
  - rewrite lookups_ne; [by apply IH|]. intros ->. destruct Hk. apply elem_of_list_fmap. by exists (k, v).
Qed.
Lemma exactly_reads l m : exactly l (JObj m) → NoDup (keys l) → reads l m.
Proof.
  intros (m' & [= <-] & Hn & Hm) Hl k o Hin. destruct o as [v|]; simpl.
  - apply lookups_nodup; [done|]. by apply Hm.
  - destruct (lookups k m) as [|x r] eqn:E; [done|]. assert (x ∈ lookups k m) as Hx%lookups_elem by (rewrite E; by left).
    apply Hm in Hx. clear -Hl Hin Hx. induction l as [|[k' o'] l IH]; [by apply elem_of_nil in Hx|]. apply NoDup_cons in Hl as [Hk Hl].
    apply elem_of_cons in Hx as [Hx|Hx]; apply elem_of_cons in Hin as [Hin|Hin]; simplify_eq.
    + destruct Hk. apply elem_of_list_fmap. by exists (k', None).
    + destruct Hk. apply elem_of_list_fmap. by exists (k', Some x).
    + by apply IH.
Qed.
Lemma lookups_perm {A} k (m m' : list (string * A)) : m ≡ₚ m' → lookups k m ≡ₚ lookups k m'.
Proof.
  induction 1 as [|[k' v] m m' _ IH|[k1 v1] [k2 v2] m|m m' m'' _ IH _ IH']; [done| | |by etransitivity].
  - destruct (decide (k' = k)) as [->|]; [rewrite !lookups_eq; by constructor|by rewrite !lookups_ne].
  - destruct (decide (k1 = k)) as [->|], (decide (k2 = k)) as [->|];
      rewrite ?lookups_eq, ?lookups_ne, ?lookups_eq, ?lookups_ne by done; try done. apply Permutation_swap.
Qed.
Lemma reads_more l m0 x m : reads l m0 → m ≡ₚ m0 ++ x → (∀ k, k ∈ keys x → k ∉ keys l) → reads l m.
Proof.
  intros H Hm Hx k o Hin. assert (lookups k m ≡ₚ lookups k m0) as Hp.
  { rewrite (lookups_perm k _ _ Hm), lookups_app. replace (lookups k x) with (@nil json); [by rewrite app_nil_r|].
    destruct (lookups k x) as [|v r] eqn:E; [done|]. assert (v ∈ lookups k x) as Hv%lookups_elem by (rewrite E; by left).
    destruct (Hx k); [|apply elem_of_list_fmap; by exists (k, o)]. apply elem_of_list_fmap. by exists (k, v). }
  rewrite (H k o Hin) in Hp. destruct o as [v|]; simpl in *; [by apply Permutation_singleton_r in Hp|by apply Permutation_nil_r in Hp].
Qed.

(** ** One member after the other *)
Lemma step_req {A B} (d : json → option A) k m a j (K : A → option B) r :
  lookups k m = [j] → d j = Some a → K a = r → (req d k m ≫= K) = r.
Proof. intros Hl Hd <-. by rewrite (req_of _ _ _ j), Hd. Qed.
Lemma step_opt {A B} (d : json → option A) (f : A → json) k m o (K : option A → option B) r :
  lookups k m = opt_list (option_map f o) → (∀ a, o = Some a → d (f a) = Some a ∧ f a ≠ JNull) →
  K o = r → (opt d k m ≫= K) = r.
Proof. intros Hl Hd <-. rewrite (opt_of _ f _ _ o); [done|by destruct o|done]. Qed.
Lemma step_dflt {B} k m s (K : string → option B) r :
  lookups k m = opt_list (given s) → K s = r → (dflt de_str "" k m ≫= K) = r.
Proof. intros Hl <-. rewrite (dflt_str _ _ s); [done|]. rewrite Hl. unfold given. by case_bool_decide. Qed.
Ltac look := match goal with H : reads _ _ |- _ => apply (H _ (Some _)) | H : reads _ _ |- _ => apply H end;
  repeat first [apply elem_of_list_here | apply elem_of_list_further].
Ltac so := eapply step_opt; [look|intros; split; [|done]; try done; try apply de_strs_ser|].
Ltac sr := eapply step_req; [look|try done; try apply de_strs_ser|].
Ltac nd := apply (bool_decide_unpack _); vm_compute; exact I.

(** ** Issuers *)
Lemma image_values i : exactly (image_document i) (ser_image i).
Proof. exact_members. Qed.
Lemma image_reads i m : reads (image_document i) m → de_image (JObj m) = Some i.
Proof. destruct i as [u a]. intros H. unfold de_image, image_document in *. cbn [obj img_uri img_alt] in *. so. so. done. Qed.
Lemma of_reads {A} (d : json → option A) (f : A → json) (l : list (string * option json)) a :
  exactly l (f a) → NoDup (keys l) → (∀ m, reads l m → d (JObj m) = Some a) → d (f a) = Some a.
Proof. intros He Hn H. pose proof He as (m & Hm & _). rewrite Hm in *. apply H. by apply exactly_reads. Qed.
Lemma de_image_ser i : de_image (ser_image i) = Some i.
Proof. apply (of_reads _ _ _ _ (image_values i)); [nd|apply image_reads]. Qed.
Lemma display_values d : exactly (display_document d) (ser_display d).
Proof. exact_members. Qed.
Lemma de_display_ser d : de_display (ser_display d) = Some d.
Proof.
  apply (of_reads _ _ _ _ (display_values d)); [nd|]. intros m H. destruct d as [n l g d c b t]. unfold de_display, display_document in *.
  cbn [obj ds_name ds_locale ds_logo ds_description ds_background_color ds_background_image ds_text_color] in *.
  sr. so. so; [apply de_image_ser|]. so. so. so; [apply de_image_ser|]. so. done.
Qed.
Lemma de_proof_type_ser l : de_proof_type (ser_proof_type l) = Some l.
Proof. unfold de_proof_type, ser_proof_type. cbn [obj]. erewrite req_of by (by lk). apply de_strs_ser. Qed.
Global Arguments de_display : simpl never.
Global Arguments ser_display : simpl never.
Global Arguments de_proof_type : simpl never.

Lemma format_present f r : ser_format f ++ present r = present (format_document f ++ r).
Proof. destruct f as [d|d|d|t [c|]|t [c|]]; done. Qed.
Lemma configuration_values c : exactly (configuration_document c) (ser_configuration c).
Proof.
  unfold ser_configuration, configuration_document. apply exactly_intro; [|by destruct (cm_format c)].
  rewrite <-format_present. f_equal. do 4 apply present_some. apply present_last.
Qed.
Lemma configuration_nodup c : NoDup (keys (configuration_document c)).
Proof. unfold configuration_document. rewrite keys_app. destruct (cm_format c); nd. Qed.
Lemma reads_app l l' m : reads (l ++ l') m ↔ reads l m ∧ reads l' m.
Proof.
  split; [intros H; split; intros k o Hin; apply H, elem_of_app; auto|]. intros [H H'] k o [Hin|Hin]%elem_of_app; auto.
Qed.
(** A format is read from its members when the others are not there. *)
Lemma format_reads f m : readable_format f → reads (format_document f) m → de_format m = Some f.
Proof.
  intros Hf H. destruct f as [d|d|d|t c|t c]; unfold de_format, format_document in *; simpl in Hf.
  1-3: erewrite req_of by look; simpl; erewrite req_of by look; by rewrite de_definition_ser.
  1-2: erewrite req_of by look; simpl; erewrite req_of by look; simpl;
    (rewrite (opt_of _ ser_claimset _ _ c); [done|rewrite (H "claims" (option_map ser_claimset c)) by
      (repeat first [apply elem_of_list_here | apply elem_of_list_further]); by destruct c|]);
    intros l ->; (split; [|done]); apply de_claimset_ser; by apply Hf.
Qed.
Lemma configuration_reads c m : readable_configuration c → reads (configuration_document c) m → de_configuration (JObj m) = Some c.
Proof.
  destruct c as [f s b a p d]. intros [Hf Hp] H. unfold de_configuration, configuration_document in *.
  cbn [obj cm_format cm_scope cm_binding_methods cm_signing_algs cm_proof_types cm_display] in *.
  apply reads_app in H as [Hform H]. rewrite (format_reads f) by done. clear Hform. cbn [mbind option_bind].
  so. so. so.
  eapply (step_opt _ (ser_map ser_proof_type)); [look|intros; split; [|done]|].
  { apply de_map_ser; [|by apply Hp]. intros. apply de_proof_type_ser. }
  eapply (step_opt _ (ser_list ser_display)); [look|intros; split; [|done]|done].
  apply de_list_ser. apply Forall_forall. intros. apply de_display_ser.
Qed.
Lemma de_configuration_ser c : readable_configuration c → de_configuration (ser_configuration c) = Some c.
Proof.
  intros H. apply (of_reads _ _ _ _ (configuration_values c)); [apply configuration_nodup|]. intros m. by apply configuration_reads.
Qed.
Global Arguments de_configuration : simpl never.
Global Arguments ser_configuration : simpl never.

Lemma encryption_values e : exactly (encryption_document e) (ser_encryption e).
Proof. exact_members. Qed.
Lemma de_encryption_ser e : de_encryption (ser_encryption e) = Some e.
Proof.
  apply (of_reads _ _ _ _ (encryption_values e)); [nd|]. intros m H. destruct e as [a e r]. unfold de_encryption, encryption_document in *.
  cbn [obj en_algs en_encs en_required] in *. sr. sr. sr. done.
Qed.
Lemma de_batch_ser z : fits 64 z → de_batch (ser_batch z) = Some z.
Proof. intros H. unfold de_batch, ser_batch. cbn [obj]. erewrite req_of by (by lk). by apply de_int_ser. Qed.
Lemma issuer_display_values e : exactly (issuer_display_document e) (ser_issuer_display e).
Proof. exact_members. Qed.
Lemma de_issuer_display_ser d : de_issuer_display (ser_issuer_display d) = Some d.
Proof.
  apply (of_reads _ _ _ _ (issuer_display_values d)); [nd|]. intros m H. destruct d as [n l]. unfold de_issuer_display, issuer_display_document in *.
  cbn [obj id_display_name id_display_locale] in *. sr. so. done.
Qed.
Global Arguments de_encryption : simpl never.
Global Arguments de_batch : simpl never.
Global Arguments de_issuer_display : simpl never.
Lemma issuer_values i : exactly (issuer_document i) (ser_issuer_metadata i).
Proof. exact_members. Qed.
Lemma issuer_nodup i : NoDup (keys (issuer_document i)).
Proof. nd. Qed.
Lemma issuer_reads i m : readable_issuer i → reads (issuer_document i) m → de_issuer_metadata (JObj m) = Some i.
Proof.
  destruct i as [i s e d n c b g p l]. intros (Hb & Hnd & Hl) H. unfold de_issuer_metadata, issuer_document in *.
  cbn [obj im_credential_issuer im_authorization_servers im_credential_endpoint im_deferred_endpoint im_notification_endpoint im_encryption
       im_batch im_signed_metadata im_display im_configurations] in *.
  eapply step_dflt; [look|]. so. sr. so. so. so; [apply de_encryption_ser|].
  eapply (step_opt _ ser_batch); [look|intros; split; [by apply de_batch_ser, Hb|done]|].
  so. so; [apply de_issuer_display_ser|].
  sr; [|done]. apply (de_map_ser _ ser_configuration); [|done]. intros k x Hx. by apply de_configuration_ser, (Hl k).
Qed.
Lemma de_issuer_metadata_ser i : readable_issuer i → de_issuer_metadata (ser_issuer_metadata i) = Some i.
Proof. intros H. apply (of_reads _ _ _ _ (issuer_values i)); [apply issuer_nodup|]. intros m. by apply issuer_reads. Qed.

(** ** Authorization servers *)
Lemma de_response_modes_ser l : de_list de_response_mode (names response_mode_name l) = Some l.
Proof. apply (de_list_ser _ ser_response_mode). apply Forall_forall. by intros []. Qed.
Lemma de_endpoint_algs_ser l : de_list de_endpoint_alg (names endpoint_alg_name l) = Some l.
Proof. apply (de_list_ser _ ser_endpoint_alg). apply Forall_forall. by intros []. Qed.
Lemma names_of_ser {A} (d : json → option A) (f : A → string) l : (∀ a, d (JStr (f a)) = Some a) → de_list d (names f l) = Some l.
Proof. intros H. apply (de_list_ser _ (λ a, JStr (f a))). apply Forall_forall. intros. apply H. Qed.
Lemma server_values s : exactly (server_document s) (ser_server_metadata s).
Proof.
  assert (∀ l, ser_list ser_response_type l = names response_type_name l) as H1.
  { intros l. unfold ser_list, names. f_equal; apply map_ext; by intros []. }
  assert (∀ l, ser_list ser_response_mode l = names response_mode_name l) as H2.
  { intros l. unfold ser_list, names. f_equal. }
  assert (∀ l, ser_list ser_grant_type l = names grant_type_name l) as H3.
  { intros l. unfold ser_list, names. f_equal; apply map_ext; by intros []. }
  assert (∀ l, ser_list ser_endpoint_auth l = names auth_method_name l) as H4.
  { intros l. unfold ser_list, names. f_equal. }
  assert (∀ l, ser_list ser_endpoint_alg l = names endpoint_alg_name l) as H5.
  { intros l. unfold ser_list, names. f_equal. }
  assert (∀ l, ser_list ser_method l = names (λ _, "S256") l) as H6.
  { intros l. unfold ser_list, names. f_equal; apply map_ext; by intros []. }
  assert (∀ {A} (f g : A → json) o, (∀ a, f a = g a) → option_map f o = option_map g o) as Ho by (intros A f g [a|] H; simpl; congruence).
  unfold server_document. rewrite <-H1, <-(Ho _ _ _ _ H2), <-(Ho _ _ _ _ H3), <-(Ho _ _ _ _ H4), <-(Ho _ _ _ _ H5), <-(Ho _ _ _ _ H6).
  exact_members.
Qed.
Lemma server_nodup s : NoDup (keys (server_document s)).
Proof. nd. Qed.
Lemma server_reads s m : reads (server_document s) m → de_server_metadata (JObj m) = Some s.
Proof.
  destruct s as [i ae te ju re sc rt rm gt am aa sd ul pu tu ve vm va ne nm na cm sm pe rp an]. intros H.
  unfold de_server_metadata, server_document in *.
  cbn [obj sm_issuer sm_authorization_endpoint sm_token_endpoint sm_jwks_uri sm_registration_endpoint sm_scopes sm_response_types
       sm_response_modes sm_grant_types sm_auth_methods sm_auth_algs sm_documentation sm_ui_locales sm_policy_uri sm_tos_uri
       sm_revocation_endpoint sm_revocation_methods sm_revocation_algs sm_introspection_endpoint sm_introspection_methods
       sm_introspection_algs sm_challenge_methods sm_signed_metadata sm_par_endpoint sm_require_par sm_anonymous_access] in *.
  Ltac names := apply names_of_ser; by intros [].
  sr. sr. sr. so. so. so. sr; [names|]. so; [names|]. so; [names|]. so; [names|]. so; [names|].
  so. so. so. so. so. so. so. so. so. so. so; [names|]. so. so. so. sr. done.
Qed.
Lemma de_server_metadata_ser s : de_server_metadata (ser_server_metadata s) = Some s.
Proof. apply (of_reads _ _ _ _ (server_values s)); [apply server_nodup|apply server_reads]. Qed.

(** ** As text *)
Lemma fine_image n i : fine (S n) (ser_image i).
Proof. apply fine_obj. fns. Qed.
Lemma fine_display n d : fine (2 + n) (ser_display d).
Proof. unfold ser_display. apply fine_obj. fns; apply fine_image. Qed.
Lemma fine_configuration n c : (∀ l, l ∈ opt_list (format_claims (cm_format c)) → claims_depth l ≤ n) → fine (4 + n) (ser_configuration c).
Proof.
  intros H. unfold ser_configuration. apply (fine_obj (3 + n)). fns.
  - eapply Forall_impl; [by apply (fines_format n)|]. intros [k v] [H1 H2]. split; [done|]. simpl in *. lia.
  - apply (fine_map (2 + n)). intros. unfold ser_proof_type. apply (fine_obj (S n)). fns.
  - apply (fine_list (2 + n)). intros. apply fine_display.
Qed.
Lemma fine_issuer_metadata n i : (∀ l, l ∈ issuer_claims i → claims_depth l ≤ n) → fine (6 + n) (ser_issuer_metadata i).
Proof.
  intros H. unfold ser_issuer_metadata. apply (fine_obj (5 + n)). fns.
  - apply (fine_obj (4 + n)). fns.
  - apply (fine_obj (4 + n)). fns. apply fine_int.
  - apply (fine_obj (4 + n)). fns.
  - apply (fine_map (4 + n)). intros k c Hc. apply fine_configuration. intros l Hl. apply H. unfold issuer_claims.
    apply elem_of_list_In, in_flat_map. exists (k, c). split; by apply elem_of_list_In.
Qed.
Lemma fine_server_metadata s : fine 2 (ser_server_metadata s).
Proof.
  unfold ser_server_metadata. apply fine_obj. fns; apply (fine_list 0); intros [] _; apply fine_str.
Qed.
Lemma read_issuer_metadata i : readable_issuer i → (∀ l, l ∈ issuer_claims i → 6 + claims_depth l < depth_limit) →
  read de_issuer_metadata (write ser_issuer_metadata i) = Some i.
Proof.
  intros H Hd. apply (read_write _ _ _ (6 + list_max (map claims_depth (issuer_claims i)))); [| |by apply de_issuer_metadata_ser].
  - apply fine_issuer_metadata. intros l Hl. pose proof (proj1 (list_max_le (map claims_depth (issuer_claims i)) _) (le_n _)) as Hm.
    apply (proj1 (Forall_forall _ _) Hm), elem_of_list_fmap. by exists l.
  - assert (6 < depth_limit) as H6 by (apply Nat.ltb_lt; reflexivity). revert Hd H6. generalize depth_limit. intros dl Hd H6.
    assert (list_max (map claims_depth (issuer_claims i)) ≤ dl - 7); [|lia]. apply list_max_le. apply Forall_forall.
    intros x (l & -> & Hl)%elem_of_list_fmap. specialize (Hd l Hl). lia.
Qed.
Lemma read_server_metadata s : read de_server_metadata (write ser_server_metadata s) = Some s.
Proof. apply (read_write _ _ _ 2); [apply fine_server_metadata|apply Nat.ltb_lt; reflexivity|apply de_server_metadata_ser]. Qed.
