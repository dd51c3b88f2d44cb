(** The messages and the saved state survive being written as text and read from it. *)
From Coq Require Import Lia DecimalString DecimalFacts.
From Verif Require Import Base StringSpec Json MatcherModel JsonParse JsonText CoreModel VcModel Prog IssuerTypes
  IssuerClaims SerdeSpec SerdeModel SerdeFacts SerdeTrips.
Local Arguments String.append : simpl never.

Definition fine (n : nat) (j : json) : Prop := jnumbers j ∧ jdepth j ≤ n.
Definition fines (n : nat) (m : list (string * json)) : Prop := Forall (λ kv, fine n kv.2) m.
Lemma fine_obj n m : fines n m → fine (S n) (JObj m).
Proof.
  intros H. split.
  - apply jnumbers_obj. eapply Forall_impl; [exact H|]. by intros ? [].
  - cbn [jdepth]. induction H as [|kv m [_ Hv] _ IH]; simpl; lia.
Qed.
Lemma fine_arr n l : Forall (fine n) l → fine (S n) (JArr l).
Proof.
  intros H. split.
  - apply jnumbers_arr. eapply Forall_impl; [exact H|]. by intros ? [].
  - cbn [jdepth]. induction H as [|v l [_ Hv] _ IH]; simpl; lia.
Qed.
Lemma fine_str n s : fine n (JStr s).
Proof. split; [done|simpl; lia]. Qed.
Lemma fine_bool n b : fine n (JBool b).
Proof. split; [done|simpl; lia]. Qed.
Lemma fine_null n : fine n JNull.
Proof. split; [done|simpl; lia]. Qed.
Lemma fine_strs n l : fine (S n) (ser_strs l).
Proof. apply fine_arr. apply Forall_fmap. apply Forall_forall. intros. apply fine_str. Qed.
Lemma fine_list {A} n (f : A → json) l : (∀ a, a ∈ l → fine n (f a)) → fine (S n) (ser_list f l).
Proof. intros H. apply fine_arr. apply Forall_fmap. apply Forall_forall. intros. by apply H. Qed.
Lemma fine_map {A} n (f : A → json) l : (∀ k a, (k, a) ∈ l → fine n (f a)) → fine (S n) (ser_map f l).
Proof. intros H. apply fine_obj. apply Forall_fmap. apply Forall_forall. intros [k a]. apply H. Qed.
Lemma fines_app n a b : fines n a → fines n b → fines n (a ++ b).
Proof. intros. by apply Forall_app. Qed.
Lemma fines_cons n k v m : fine n v → fines n m → fines n ((k, v) :: m).
Proof. intros. by constructor. Qed.
Lemma fines_some {A} n k (f : A → json) o : (∀ a, o = Some a → fine n (f a)) → fines n (some_entry k f o).
Proof. intros H. destruct o; repeat constructor; by apply H. Qed.
Lemma fines_entry n k s : fines n (str_entry k s).
Proof. unfold str_entry. case_bool_decide; repeat constructor. simpl. lia. Qed.
Lemma fine_method n c : fine n (ser_method c).
Proof. destruct c. apply fine_str. Qed.
Ltac fns := repeat first
  [ apply fines_app | apply fines_entry | apply fines_some; intros ? ? | apply fines_cons | apply Forall_nil_2
  | apply fine_str | apply fine_method | apply fine_bool | apply fine_null | apply fine_strs ].

Lemma digits_uint d : digits (DecimalString.NilEmpty.string_of_uint d) = (DecimalString.NilEmpty.string_of_uint d, "").
Proof. induction d; simpl; rewrite ?IHd; done. Qed.
Lemma parse_unsigned_int s : parse_int s = Some (s, "") → parse_unsigned s = Some (s, "").
Proof. unfold parse_unsigned. intros ->. simpl. by rewrite append_nil_r. Qed.
Lemma parse_int_uint d : Decimal.unorm d = d →
  parse_int (DecimalString.NilZero.string_of_uint d) = Some (DecimalString.NilZero.string_of_uint d, "").
Proof.
  intros H. destruct d; simpl; rewrite ?digits_uint; try done.
  pose proof (DecimalFacts.unorm_D0 d) as H0. rewrite H in H0.
  destruct d; try done; exfalso; clear -H0;
  match type of H0 with ?a = Decimal.unorm ?x => assert (Decimal.nb_digits (Decimal.unorm x) ≤ Decimal.nb_digits x) as Hl by
    (apply DecimalFacts.nb_digits_unorm; discriminate); rewrite <-H0 in Hl; simpl in Hl; lia end.
Qed.
Lemma fine_int n z : fine n (ser_int z).
Proof.
  split; [|simpl; lia]. unfold ser_int. cbn [jnumbers]. unfold int_text. pose proof (int_text_norm z) as H.
  destruct (Z.to_int z) as [d|d]; cbn [Decimal.norm NilZero.string_of_int] in *.
  - assert (Decimal.unorm d = d) as Hd by congruence. apply parse_int_uint in Hd.
    pose proof (parse_unsigned_int _ Hd) as Hu.
    destruct (DecimalString.NilZero.string_of_uint d) as [|c r] eqn:E; [done|]. rewrite parse_number_eq.
    destruct (Ascii.eqb_spec c "-"); [by subst|done].
  - assert (Decimal.unorm d = d) as Hd.
    { destruct (Decimal.nzhead d) eqn:En; simplify_eq; unfold Decimal.unorm; rewrite En; done. }
    apply parse_int_uint, parse_unsigned_int in Hd. rewrite parse_number_eq. cbn match. by rewrite Hd.
Qed.

Lemma claim_le k c (l : claimset) : (k, c) ∈ l → claim_depth c ≤ list_max (map (λ kc, claim_depth kc.2) l).
Proof.
  induction l as [|[k' c'] l IH]; [by intros ?%elem_of_nil|]. intros [[= <- <-]|H]%elem_of_cons; cbn; [lia|].
  specialize (IH H). unfold list_max in IH. lia.
Qed.
Lemma fine_claim c : fine (claim_depth c) (ser_claim c).
Proof.
  induction c as [m|l IH] using claim_ind'.
  - simpl. apply fine_obj. fns.
  - rewrite ser_claim_set. apply fine_obj. apply Forall_fmap. apply Forall_forall. intros [k c] Hin. simpl.
    pose proof (proj1 (Forall_forall _ _) IH _ Hin) as [H1 H2]. split; [done|]. simpl in H2. etransitivity; [exact H2|].
    by apply (claim_le k).
Qed.
Lemma fine_claimset n l : claims_depth l ≤ n → fine (S n) (ser_claimset l).
Proof.
  intros H. apply fine_map. intros k c Hin. destruct (fine_claim c) as [H1 H2]. split; [done|].
  etransitivity; [exact H2|]. etransitivity; [|exact H]. by apply (claim_le k).
Qed.

Lemma fine_definition n d : (∀ l, l ∈ opt_list (cd_subject d) → claims_depth l ≤ n) → fine (2 + n) (ser_definition d).
Proof.
  intros H. apply fine_obj. fns. apply fine_claimset, H. rewrite H0. by left.
Qed.
Lemma fines_format n f : (∀ l, l ∈ opt_list (format_claims f) → claims_depth l ≤ n) → fines (2 + n) (ser_format f).
Proof.
  intros H. destruct f; simpl in *; repeat apply fines_cons; try apply fine_str; try apply Forall_nil_2;
    try by apply fine_definition.
  - apply fines_some. intros l ->. destruct (fine_claimset n l) as [H1 H2]; [apply H; by left|]. split; [done|lia].
  - apply fines_some. intros l ->. destruct (fine_claimset n l) as [H1 H2]; [apply H; by left|]. split; [done|lia].
Qed.
Lemma fines_authorization n c : (∀ l, l ∈ authorization_claims c → claims_depth l ≤ n) → fines (2 + n) (ser_authorization c).
Proof.
  intros H. destruct c as [id [[d|l|l]|]|f]; simpl in H.
  - unfold ser_authorization. fns. by apply fine_definition.
  - unfold ser_authorization. fns. destruct (fine_claimset n l) as [H1 H2]; [apply H; by left|]. split; [done|lia].
  - unfold ser_authorization. fns. destruct (fine_claimset n l) as [H1 H2]; [apply H; by left|]. split; [done|lia].
  - unfold ser_authorization. fns.
  - by apply fines_format.
Qed.
Lemma fines_detail n d : (∀ l, l ∈ authorization_claims (ad_credential d) → claims_depth l ≤ n) →
  fines (2 + n) (ser_detail_entries d).
Proof. intros H. unfold ser_detail_entries. fns. by apply fines_authorization. Qed.
Lemma fine_details n l : (∀ c, c ∈ details_claims (Some l) → claims_depth c ≤ n) → fine (4 + n) (ser_list ser_detail l).
Proof.
  intros H. apply fine_list. intros d Hd. apply fine_obj, fines_detail. intros c Hc. apply H. simpl.
  apply elem_of_list_bind. by exists d.
Qed.
Lemma fine_mono n n' j : n ≤ n' → fine n j → fine n' j.
Proof. intros Hn [H1 H2]. split; [done|lia]. Qed.
Lemma fine_request n r : (∀ c, c ∈ details_claims (ro_authorization_details r) → claims_depth c ≤ n) →
  fine (5 + n) (ser_request r).
Proof.
  intros H. apply fine_obj. unfold ser_request_entries. fns.
  apply fine_details. by rewrite <-H0.
Qed.
Lemma fine_credential_request n r : (∀ c, c ∈ issuance_claims (cr_credential r) → claims_depth c ≤ n) →
  fine (3 + n) (ser_credential_request r).
Proof.
  intros H. apply fine_obj. fns.
  - destruct (cr_credential r); simpl in *; fns. by apply fines_format.
  - destruct (cr_proof r) as [[]|]; simpl; fns; apply fine_obj; fns.
Qed.
Lemma fine_items n l : (∀ c, c ∈ items_claims l → claims_depth c ≤ n) → fine (5 + n) (ser_list ser_item l).
Proof.
  intros H. apply fine_list. intros i Hi. apply fine_obj. destruct i as [it c ids]. simpl.
  destruct it as [d|s]; fns. apply fine_obj, fines_detail. intros l' Hl. apply H. unfold items_claims.
  apply elem_of_list_bind. eexists. by split; [|exact Hi].
Qed.
Lemma fine_offer n o : fine (4 + n) (ser_offer o).
Proof.
  apply fine_obj. fns. apply fine_obj. fns.
  - apply (fine_obj (S n)). fns.
  - apply fine_obj. fns. apply fine_obj. fns. apply fine_int.
Qed.
Lemma fine_state cx n s : (∀ c, s_stage s = Issued c → fine (5 + n) (vc_json cx c)) →
  (∀ c, c ∈ stage_claims (s_stage s) → claims_depth c ≤ n) → fine (8 + n) (ser_state cx s).
Proof.
  intros Hv H. apply fine_obj. fns. destruct s as [su st e]. simpl in H, Hv |- *.
  destruct st as [ |o|o|r e'|a|t|c|t r]; simpl in H |- *.
  - apply fine_str.
  - apply fine_obj. fns. apply (fine_offer (2 + n)).
  - apply fine_obj. fns. apply (fine_obj (5 + n)). fns. destruct (off_items o); [|apply fine_null].
    by apply fine_items.
  - apply fine_obj. fns. apply fine_obj. fns. by apply fine_request.
  - apply fine_obj. fns. apply fine_obj. fns. by apply fine_items.
  - apply fine_obj. fns. apply fine_obj. fns. apply fine_map. intros k a _. apply fine_obj. fns.
  - apply fine_obj. fns. apply fine_obj. fns. by apply Hv.
  - apply fine_obj. fns. apply fine_obj. fns. apply (fine_mono (3 + n)); [lia|]. by apply fine_credential_request.
Qed.
Lemma read_write {A} (f : A → json) d a n : fine n (f a) → n < depth_limit → d (f a) = Some a → read d (write f a) = Some a.
Proof.
  intros [H1 H2] Hn H. unfold read, write. rewrite parse_json_text; [done|done|]. lia.
Qed.
