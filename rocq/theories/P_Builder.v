(** Properties C61, C65-C69: multi-valued properties, builders, signed claims. *)
From Coq Require Import Ascii.
From Verif Require Import Base Json CoreModel VcModel VpParseModel BuilderSpec BuilderFacts.

(** C61.  After any additions the values are the old ones and then the new ones, in order,
    and the length and emptiness tests agree with the values. *)
Theorem C61_adds_accumulate {A} (q : quota A) xs : values (foldl quota_add q xs) = values q ++ xs.
Proof. exact (adds_values q xs). Qed.
Print Assumptions C61_adds_accumulate.
Theorem C61_counts {A} (q : quota A) :
  quota_len q = length (values q) ∧ (quota_is_empty q = true ↔ values q = []).
Proof. exact (quota_counts q). Qed.
Print Assumptions C61_counts.
Theorem C61_shapes {A} (q : quota A) (k : kind A) :
  (quota_is_one q = true ↔ ∃ x, q = QOne x) ∧ (quota_is_many q = true ↔ ∃ l, q = QMany l) ∧
  (kind_is_string k = true ↔ ∃ s, k = KString s) ∧ (kind_is_object k = true ↔ ∃ x, k = KObject x).
Proof. exact (shapes q k). Qed.
Print Assumptions C61_shapes.
Example C61_example :
  foldl quota_add (QOne 1) [2; 3] = QMany [1; 2; 3] ∧ quota_len (QMany [1; 2; 3]) = 3 ∧
  quota_is_empty (@QMany nat []) = true ∧ foldl quota_add (QMany []) [7] = QMany [7].
Proof. done. Qed.

(** C68.  Translations accumulate in order, *)
Theorem C68_translations_accumulate ls vs : translations (foldl ls_add ls vs) = translations ls ++ vs.
Proof. exact (adds_translations ls vs). Qed.
Print Assumptions C68_translations_accumulate.
Theorem C68_counts ls : ls_len ls = length (translations ls) ∧ (ls_is_empty ls = true ↔ translations ls = []).
Proof. exact (ls_counts ls). Qed.
Print Assumptions C68_counts.
(** and a lookup gives the first value with the asked language tag, if there is one. *)
Theorem C68_lookup q lang s : ls_value (KObject q) lang = Some s ↔
  ∃ l1 v l2, values q = l1 ++ v :: l2 ∧ lv_language v = Some lang ∧ lv_value v = s ∧
    ∀ v', v' ∈ l1 → lv_language v' ≠ Some lang.
Proof. exact (ls_value_spec q lang s). Qed.
Print Assumptions C68_lookup.
(** "Adding a translation does not change what other languages see" fails: a plain string
    is given for every language until the first translation is added, and then for none. *)
Theorem C68_plain_string_lost_refuted s v :
  (∀ lang, ls_value (KString s) lang = Some s) ∧
  (∀ lang, lv_language v ≠ Some lang → ls_value (ls_add (KString s) v) lang = None).
Proof.
  split; [done|]. intros lang H. unfold ls_add, ls_value, find_lang. cbn [lv_language].
  rewrite bool_decide_eq_false_2 by done. by rewrite bool_decide_eq_false_2.
Qed.
Print Assumptions C68_plain_string_lost_refuted.
Definition c68_en := LangValue "A card" (Some "en") (Some Ltr).
Definition c68_nl := LangValue "Een kaart" (Some "nl") None.
Example C68_example :
  ls_value (foldl ls_add (ls_new_object c68_en) [c68_nl]) "nl" = Some "Een kaart" ∧
  ls_value (foldl ls_add (ls_new_object c68_en) [c68_nl]) "fr" = None ∧
  ls_value (ls_new_string "Card") "fr" = Some "Card" ∧
  ls_value (ls_add (ls_new_string "Card") c68_nl) "fr" = None.
Proof. done. Qed.

(** C65.  Whatever calls are made on a credential builder, build succeeds exactly when
    enough was given, fails (and never panics) otherwise, *)
Theorem C65_builds_iff_complete cs : (∃ v, vcb_build (vc_builder cs) = Ok v) ↔ complete cs.
Proof. exact (build_iff cs). Qed.
Print Assumptions C65_builds_iff_complete.
Theorem C65_fails_otherwise cs : (∃ e, vcb_build (vc_builder cs) = Err e) ↔ ¬ complete cs.
Proof. exact (build_err cs). Qed.
Print Assumptions C65_fails_otherwise.
(** and the result carries everything that was added, in order (leading subjects without
    content aside), and the last value of what can be set. *)
Theorem C65_carries_everything cs v :
  vcb_build (vc_builder cs) = Ok v →
  vc_context v = KString "https://www.w3.org/2018/credentials/v1" :: contexts_given cs ∧
  values (vc_type v) = "VerifiableCredential" :: types_given cs ∧
  (∃ before, subjects_given cs = before ++ values (vc_subject v) ∧ ∀ s, s ∈ before → s = empty_subject) ∧
  (∃ i, vc_issuer v = KString i ∧ last (issuers_given cs) = Some i) ∧
  vc_id v = last (ids_given cs) ∧
  vc_name v = default None (last (names_given cs)) ∧
  vc_description v = default None (last (descriptions_given cs)) ∧
  vc_status v = default None (last (statuses_given cs)) ∧
  from_option values [] (vc_proof v) = proofs_given cs.
Proof. exact (build_carries cs v). Qed.
Print Assumptions C65_carries_everything.
Definition c65_subject (i : string) := CredentialSubject (Some i) [("given", JStr "Ada")].
Definition c65_calls : list vc_call :=
  [AddType "EmployeeID"; SetIssuer "https://one.example"; AddSubject empty_subject; AddContext (KString "https://ctx.example");
   AddSubject (c65_subject "did:a"); SetIssuer "https://two.example"; AddSubject (c65_subject "did:b"); SetId "id1"].
Example C65_example :
  (∃ v, vcb_build (vc_builder c65_calls) = Ok v ∧ vc_issuer v = KString "https://two.example" ∧
        values (vc_subject v) = [c65_subject "did:a"; c65_subject "did:b"]) ∧
  complete c65_calls ∧ ¬ complete [AddType "EmployeeID"; SetIssuer "https://one.example"] ∧
  vcb_build (vc_builder [AddContext (KString "x"); AddType "T"; SetIssuer "i"; AddSubject empty_subject]) =
    Err "no credential_subject set".
Proof.
  split; [eexists; split; [vm_compute; reflexivity|done]|]. split.
  { apply build_iff. eexists. vm_compute. reflexivity. }
  split; [|done]. by intros (H & _).
Qed.

(** C66.  The claims to be signed carry the credential's own values; *)
Theorem C66_claims_mirror (E : Type) v at_ s rest :
  values (vc_subject v) = s :: rest →
  ∃ c, @vc_claims_from E v at_ = Ok c ∧
    vcc_sub c = default "" (cs_id s) ∧ vcc_jti c = default "" (vc_id v) ∧
    (∀ i, vc_issuer v = KString i ∨ vc_issuer v = KObject i → vcc_iss c = i) ∧
    vcc_iat c = at_ ∧ vcc_exp c = option_map timestamp (vc_valid_until v) ∧ vcc_vc c = v.
Proof. exact (claims_ok v at_ s rest). Qed.
Print Assumptions C66_claims_mirror.
(** without any subject there is a panic, and only then; *)
Theorem C66_panics_without_subject (E : Type) v at_ :
  (∃ w, @vc_claims_from E v at_ = Panic w) ↔ values (vc_subject v) = [].
Proof. exact (claims_panic v at_). Qed.
Print Assumptions C66_panics_without_subject.
(** so never on a credential that a builder built. *)
Theorem C66_built_never_panics (E : Type) cs v at_ w :
  vcb_build (vc_builder cs) = Ok v → @vc_claims_from E v at_ ≠ Panic w.
Proof. exact (built_never_panics cs v at_ w). Qed.
Print Assumptions C66_built_never_panics.
Example C66_example :
  (∃ v c, vcb_build (vc_builder c65_calls) = Ok v ∧ @vc_claims_from string v 1700000000 = Ok c ∧
    vcc_sub c = "did:a" ∧ vcc_iss c = "https://two.example" ∧ vcc_jti c = "id1") ∧
  (∃ w, @vc_claims_from string (VC [] None (QMany []) None None (KString "i") (QMany []) None None None None) 0 = Panic w).
Proof.
  split; [|by eexists]. eexists _, _. split; [vm_compute; reflexivity|]. split; [vm_compute; reflexivity|]. done.
Qed.

(** C67.  A presentation builder succeeds exactly when a context and a type were given, *)
Theorem C67_builds_iff_complete uuid cs :
  (∃ v, vpb_build (vp_builder uuid cs) = Ok v) ↔ vp_contexts_given cs ≠ [] ∧ vp_types_given cs ≠ [].
Proof. exact (vp_build_iff uuid cs). Qed.
Print Assumptions C67_builds_iff_complete.
Theorem C67_fails_otherwise uuid cs :
  (∃ e, vpb_build (vp_builder uuid cs) = Err e) ↔ vp_contexts_given cs = [] ∨ vp_types_given cs = [].
Proof. exact (vp_build_err uuid cs). Qed.
Print Assumptions C67_fails_otherwise.
(** and keeps everything in order. *)
Theorem C67_carries_everything uuid cs v :
  vpb_build (vp_builder uuid cs) = Ok v →
  vp_context v = KString "https://www.w3.org/2018/credentials/v1" :: vp_contexts_given cs ∧
  values (vp_type v) = "VerifiablePresentation" :: vp_types_given cs ∧
  default [] (vp_credential v) = vp_credentials_given cs ∧
  vp_holder v = last (vp_holders_given cs) ∧ vp_id v = Some ("urn:uuid:" +:+ uuid).
Proof. exact (vp_build_carries uuid cs v). Qed.
Print Assumptions C67_carries_everything.
(** So [VerifiablePresentation::new()] (vp.rs 72-74), a builder with nothing added, fails
    every time. *)
Theorem C67_new_always_fails uuid : ∃ e, vpb_build (vp_builder uuid []) = Err e.
Proof. exact (vp_new_fails uuid). Qed.
Print Assumptions C67_new_always_fails.
Example C67_example :
  ∃ v, vpb_build (vp_builder "u" [VpCredential (KString "a"); VpType "P"; VpHolder "did:h"; VpContext (KString "c");
                                  VpCredential (KString "b"); VpHolder "did:g"]) = Ok v ∧
    vp_credential v = Some [KString "a"; KString "b"] ∧ vp_holder v = Some "did:g".
Proof. eexists. split; [vm_compute; reflexivity|done]. Qed.

(** C69.  "Reading a presentation from a string never panics" fails: whatever the
    libraries do, it panics exactly on the empty string and on strings whose first
    character is not a single byte. *)
Definition multi_byte_first (s : string) : Prop :=
  ∃ a b rest, s = String a (String b rest) ∧ 128 ≤ nat_of_ascii b < 192.
Theorem C69_from_str_panics_refuted decode read :
  (∃ w, vp_from_str decode read "" = Panic w) ∧
  (∀ s, (∃ w, vp_from_str decode read s = Panic w) ↔ s = "" ∨ multi_byte_first s).
Proof.
  split; [by eexists|]. intros s. unfold vp_from_str, multi_byte_first.
  assert (slice_0_1 s = None ↔ s = "" ∨ ∃ a b rest, s = String a (String b rest) ∧ 128 ≤ nat_of_ascii b < 192) as <-.
  { destruct s as [|a [|b s]]; simpl; [naive_solver| |].
    - split; [done|]. intros [[=]|(? & ? & ? & [=] & _)].
    - destruct (continuation_byte b) eqn:E; unfold continuation_byte in E.
      + split; [|done]. intros _. right. exists a, b, s. split; [done|].
        apply andb_true_iff in E as [?%Nat.leb_le ?%Nat.ltb_lt]. done.
      + split; [done|]. intros [[=]|(? & ? & ? & [= -> -> ->] & H1 & H2)].
        apply andb_false_iff in E as [?%Nat.leb_gt|?%Nat.ltb_ge]; lia. }
  destruct (slice_0_1 s) as [f|]; [|split; [done|by eexists]].
  split; [|done]. intros (w & H). repeat case_match; done.
Qed.
Print Assumptions C69_from_str_panics_refuted.
(** Otherwise an object is read as JSON, anything else as base64url of JSON. *)
Theorem C69_reads_partial decode read s v :
  vp_from_str decode read s = Ok v ↔
  s ≠ "" ∧ ¬ multi_byte_first s ∧
  ((∃ rest, s = String "{" rest) ∧ read s = Some v ∨
   (¬ ∃ rest, s = String "{" rest) ∧ ∃ text, decode s = Some text ∧ read text = Some v).
Proof.
  unfold vp_from_str, multi_byte_first. destruct s as [|a s]; [simpl; split; [done|by intros (? & _)]|].
  assert (Hb : (∃ rest, String a s = String "{" rest) ↔ String.eqb (String a "") "{" = true).
  { rewrite String.eqb_eq. split; [by intros (r & [= -> ->])|]. intros [= ->]. by exists s. }
  rewrite Hb. clear Hb.
  assert (slice_0_1 (String a s) = Some (String a "") ∧ (¬ ∃ a' b rest, String a s = String a' (String b rest) ∧ 128 ≤ nat_of_ascii b < 192) ∨
          slice_0_1 (String a s) = None ∧ ∃ a' b rest, String a s = String a' (String b rest) ∧ 128 ≤ nat_of_ascii b < 192) as [[-> Hn]|[-> Hm]].
  { destruct s as [|b s]; simpl; [left; split; [done|by intros (? & ? & ? & [=] & _)]|].
    destruct (continuation_byte b) eqn:E; unfold continuation_byte in E.
    - right. split; [done|]. exists a, b, s. split; [done|].
      apply andb_true_iff in E as [?%Nat.leb_le ?%Nat.ltb_lt]. done.
    - left. split; [done|]. intros (? & ? & ? & [= -> -> ->] & H1 & H2).
      apply andb_false_iff in E as [?%Nat.leb_gt|?%Nat.ltb_ge]; lia. }
  2:{ split; [done|]. by intros (_ & ? & _). }
  destruct (String.eqb (String a "") "{").
  - destruct (read (String a s)) as [v'|]; (split; [|naive_solver]).
    + intros [= ->]. naive_solver.
    + done.
  - destruct (decode (String a s)) as [d|]; [|naive_solver].
    destruct (read d) as [v'|] eqn:E; (split; [|naive_solver]); [|done].
    intros [= ->]. split; [done|]. split; [done|]. right. split; [done|]. by exists d.
Qed.
Print Assumptions C69_reads_partial.
Definition c69_vp : vp := vp_builder "u" [VpType "P"; VpContext (KString "c")].
Example C69_example :
  multi_byte_first "é" ∧
  vp_from_str (λ _, None) (λ _, Some c69_vp) "{}" = Ok c69_vp ∧
  vp_from_str (λ _, Some "{}") (λ s, if String.eqb s "{}" then Some c69_vp else None) "e30" = Ok c69_vp.
Proof. split; [|done]. eexists _, _, _. split; [reflexivity|]. vm_compute. lia. Qed.
