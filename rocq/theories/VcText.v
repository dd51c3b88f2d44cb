(** Credentials and presentations survive being written as text and read from it; those that
    are signed, in particular. *)
From Coq Require Import Lia.
From Verif Require Import Base StringSpec Json MatcherModel JsonParse JsonText CoreModel VcModel Prog ProgFacts ExecSpec ExecFacts
  Sched IssuerTypes ClaimsModel Sha256 IssuerModel IssuerSpec IssuerNonce
  SerdeSpec SerdeModel SerdeFacts SerdeTrips SerdeText ErrorModel VcSpec VcSerde VcTrips.
Local Arguments String.append : simpl never.

(** ** Depth *)
Lemma fine_usize n u : fine n (ser_usize u).
Proof. apply fine_int. Qed.
Lemma fine_quota {A} n (f : A → json) q : (∀ a, a ∈ quota_elems q → fine n (f a)) → fine (S n) (ser_quota f q).
Proof.
  intros H. destruct q as [a|l]; simpl.
  - apply (fine_mono n); [lia|]. apply H. by left.
  - by apply fine_list.
Qed.
Lemma fine_lang_string n s : fine (2 + n) (ser_lang_string s).
Proof.
  destruct s as [s|q]; [apply fine_str|]. apply fine_quota. intros v _. apply fine_obj. fns.
Qed.
Lemma fine_contexts n l : (∀ j, KObject j ∈ l → fine n j) → fine (S n) (ser_list (ser_kind (λ j : json, j)) l).
Proof. intros H. apply fine_list. intros [s|j] Hk; [apply fine_str|by apply H]. Qed.
Lemma fine_proof n q : fine (2 + n) (ser_quota ser_integrity q).
Proof. apply fine_quota. intros p _. apply fine_obj. fns. Qed.
Lemma fine_subject n s : (∀ j, j ∈ map snd (cs_claims s) → fine n j) → fine (S n) (ser_subject s).
Proof.
  intros H. apply fine_obj. fns. apply Forall_forall. intros [k j] Hin. apply H. apply elem_of_list_fmap. by exists (k, j).
Qed.
Lemma fine_vc cx n v : shallow n (vc_values v) → fine (3 + n) (ser_vc cx v).
Proof.
  intros H. apply fine_obj. unfold shallow, vc_values in H. fns.
  - apply (fine_mono (S n)); [lia|]. apply fine_contexts. intros j Hj. apply H, elem_of_app. left.
    apply elem_of_list_In, in_flat_map. eexists. split; [apply elem_of_list_In; exact Hj|by left].
  - destruct (vc_id v); [apply fine_str|apply fine_null].
  - apply (fine_quota (S n)). intros; apply fine_str.
  - apply fine_lang_string.
  - apply fine_lang_string.
  - destruct (vc_issuer v); [apply fine_str|]. apply (fine_obj (S n)). fns.
  - apply fine_quota. intros s Hs. apply fine_subject. intros j Hj. apply H, elem_of_app. right.
    apply elem_of_list_In, in_flat_map. exists s. split; by apply elem_of_list_In.
  - destruct (vc_valid_from v); [apply fine_str|apply fine_null].
  - apply fine_quota. intros s _. apply fine_obj. fns; apply fine_usize.
  - apply fine_proof.
Qed.
Lemma fine_vp cx n p : shallow n (vp_values p) → fine (5 + n) (ser_vp cx p).
Proof.
  intros H. apply fine_obj. unfold shallow, vp_values in H. fns.
  - apply (fine_mono (S n)); [lia|]. apply fine_contexts. intros j Hj. apply H, elem_of_app. left.
    apply elem_of_list_In, in_flat_map. eexists. split; [apply elem_of_list_In; exact Hj|by left].
  - apply (fine_quota (3 + n)). intros; apply fine_str.
  - apply fine_list. intros [s|v] Hv; [apply fine_str|]. apply fine_vc. intros j Hj. apply H, elem_of_app. right.
    apply elem_of_list_In, in_flat_map. rewrite H0. eexists. split; [apply elem_of_list_In; exact Hv|by apply elem_of_list_In].
  - apply (fine_mono (2 + n)); [lia|]. apply fine_proof.
Qed.
Lemma fine_vc_claims cx n c : shallow n (vc_values (vcc_vc c)) → fine (4 + n) (ser_vc_claims cx c).
Proof.
  intros H. apply fine_obj. fns; try apply fine_int; [|by apply fine_vc]. destruct (vcc_nbf c); [apply fine_int|apply fine_null].
Qed.
Lemma fine_vp_claims cx n c : shallow n (vp_values (vpc_vp c)) → fine (6 + n) (ser_vp_claims cx c).
Proof. intros H. apply fine_obj. fns; try apply fine_int. by apply fine_vp. Qed.

(** ** Text *)
Lemma vc_text cx n v : dates_read cx → readable_vc v → shallow n (vc_values v) → 3 + n < depth_limit →
  read (de_vc cx) (write (ser_vc cx) v) = Some v.
Proof. intros ? ? ? ?. apply (read_write _ _ _ (3 + n)); [by apply fine_vc|done|by apply de_vc_ser]. Qed.
Lemma vp_text cx n p : dates_read cx → readable_vp p → shallow n (vp_values p) → 5 + n < depth_limit →
  read (de_vp cx) (write (ser_vp cx) p) = Some p.
Proof. intros ? ? ? ?. apply (read_write _ _ _ (5 + n)); [by apply fine_vp|done|by apply de_vp_ser]. Qed.

(** ** Credentials that cannot be read back *)
Lemma vc_read_iff cx v : dates_read cx → de_vc cx (ser_vc cx v) = Some v ↔ readable_vc v.
Proof. intros Hd. split; [apply de_vc_readable|by apply de_vc_ser]. Qed.
Lemma vp_read_iff cx p : dates_read cx → de_vp cx (ser_vp cx p) = Some p ↔ readable_vp p.
Proof. intros Hd. split; [apply de_vp_readable|by apply de_vp_ser]. Qed.

(** A claim called "id" beside the subject's identifier. *)
Lemma lookups_some (m : list (string * json)) k : k ∈ keys m → ∃ j l, lookups k m = j :: l.
Proof.
  unfold keys. induction m as [|[k' j] m IH]; [by intros ?%elem_of_nil|]. cbn [map fst].
  intros [->|H]%elem_of_cons.
  - rewrite lookups_eq. eauto.
  - destruct (decide (k' = k)) as [->|Hne]; [rewrite lookups_eq; eauto|]. rewrite lookups_ne by done. by apply IH.
Qed.
Lemma subject_clash i m : "id" ∈ keys m → de_subject (ser_subject (CredentialSubject (Some i) m)) = None.
Proof.
  intros H. apply lookups_some in H as (j & l & H). unfold de_subject, ser_subject. cbn [obj cs_id cs_claims].
  assert (lookups "id" (some_entry "id" JStr (Some i) ++ m) = JStr i :: j :: l) as E.
  { by rewrite lookups_app, H. }
  unfold opt. by rewrite E.
Qed.
Lemma vc_clash cx v i m : vc_subject v = QOne (CredentialSubject (Some i) m) → "id" ∈ keys m →
  de_vc cx (ser_vc cx v) = None.
Proof.
  intros Hs Hid. unfold de_vc, ser_vc. cbn [obj].
  match goal with |- context [dflt (de_quota de_subject) ?d "credentialSubject" ?l] =>
    assert (dflt (de_quota de_subject) d "credentialSubject" l = None) as E end.
  { unfold dflt. match goal with |- context [lookups "credentialSubject" ?l] =>
      assert (lookups "credentialSubject" l = [ser_quota ser_subject (vc_subject v)]) as -> end.
    { destruct (vc_name v), (vc_description v), (vc_valid_until v), (vc_status v), (vc_proof v); reflexivity. }
    rewrite Hs. unfold de_quota, ser_quota. rewrite subject_clash by done. reflexivity. }
  rewrite E. repeat case_match; congruence.
Qed.
Lemma vc_claims_clash cx c i m : vc_subject (vcc_vc c) = QOne (CredentialSubject (Some i) m) → "id" ∈ keys m →
  de_vc_claims cx (ser_vc_claims cx c) = None.
Proof.
  intros Hs Hid. unfold de_vc_claims, ser_vc_claims. cbn [obj].
  match goal with |- context [req (de_vc cx) "vc" ?l] => assert (req (de_vc cx) "vc" l = None) as E end.
  { unfold req. match goal with |- context [lookups "vc" ?l] =>
      assert (lookups "vc" l = [ser_vc cx (vcc_vc c)]) as -> by (destruct (vcc_exp c); reflexivity) end.
    by eapply vc_clash. }
  rewrite E. repeat case_match; congruence.
Qed.
Lemma vc_claims_clash_text cx n c i m : vc_subject (vcc_vc c) = QOne (CredentialSubject (Some i) m) → "id" ∈ keys m →
  shallow n (vc_values (vcc_vc c)) → 4 + n < depth_limit →
  read (de_vc_claims cx) (write (ser_vc_claims cx) c) = None.
Proof.
  intros Hs Hid Hsh Hn. destruct (fine_vc_claims cx n c Hsh) as [H1 H2]. unfold read, write.
  rewrite parse_json_text; [|done|lia]. by eapply vc_claims_clash.
Qed.

(** Any object without the members of a credential is one. *)
Definition vc_members : list string :=
  ["@context"; "id"; "type"; "name"; "description"; "issuer"; "credentialSubject"; "validFrom"; "validUntil";
   "credentialStatus"; "proof"].
Lemma lookups_none (m : list (string * json)) k : k ∉ keys m → lookups k m = [].
Proof.
  unfold keys. induction m as [|[k' j] m IH]; [done|]. cbn [map fst]. intros [H1 H2]%not_elem_of_cons.
  rewrite lookups_ne by congruence. by apply IH.
Qed.
Lemma vc_anything cx m : (∀ k, k ∈ keys m → k ∉ vc_members) → de_vc cx (JObj m) = Some vc_default.
Proof.
  intros H. unfold de_vc. cbn [obj]. unfold dflt, opt.
  assert (∀ k, k ∈ vc_members → lookups k m = []) as L.
  { intros k Hk. apply lookups_none. intros Hm. by apply (H k). }
  repeat rewrite L by (apply elem_of_list_In; simpl; tauto). reflexivity.
Qed.

(** ** Credentials that are signed *)
Lemma restrict_sublist ids l : sublist (restrict ids l) l.
Proof.
  destruct ids as [ids|]; simpl; [|done]. induction l as [|p l IH]; [done|].
  destruct (decide (p.1 ∈ ids)); [rewrite filter_cons_True by done|rewrite filter_cons_False by done];
    [by apply sublist_skip|by apply sublist_cons].
Qed.
Lemma sublist_elem {A} (l l' : list A) x : sublist l l' → x ∈ l → x ∈ l'.
Proof. induction 1; [done|..]; rewrite ?elem_of_cons; tauto. Qed.
Lemma sublist_keys (l l' : list (string * json)) : sublist l l' → sublist (keys l) (keys l').
Proof. unfold keys. induction 1; simpl; by constructor. Qed.
Lemma sublist_nodup {A} (l l' : list A) : sublist l l' → NoDup l' → NoDup l.
Proof.
  induction 1 as [|x l1 l2 Hs IH|x l1 l2 Hs IH]; [done|..]; rewrite NoDup_cons; intros [H1 H2]; [|by apply IH].
  apply NoDup_cons. split; [|by apply IH]. intros Hin. by apply H1, (sublist_elem l1).
Qed.
Lemma sublist_readable l l' i j : sublist l l' → readable_subject (CredentialSubject i l') → readable_subject (CredentialSubject j l).
Proof.
  intros H [H1 H2]. cbn [cs_claims] in *. apply proper_obj in H2 as [H2 H3]. split.
  - cbn [cs_claims]. intros Hin. apply H1. by apply (sublist_elem _ _ _ (sublist_keys _ _ H)).
  - apply proper_obj. split; [by apply (sublist_nodup (keys l) (keys l')); [apply sublist_keys|]|].
    apply Forall_forall. intros p Hp. apply (proj1 (Forall_forall _ _) H3). by eapply sublist_elem.
Qed.

Lemma signed_readable n iss did type status l ds date v :
  signed_claims iss did type status l date v → sublist l (ds_claims ds) →
  "id" ∉ keys (ds_claims ds) → proper (JObj (ds_claims ds)) → shallow n (map snd (ds_claims ds)) →
  (∀ q s, status = Some q → s ∈ quota_elems q → readable_status s) → fits 64 (timestamp date) →
  ∀ cx, dates_read cx → 4 + n < depth_limit → read (de_vc_claims cx) (write (ser_vc_claims cx) v) = Some v.
Proof.
  intros [Hiss Hsub Hiat Hjti Hi Hs Ht Hid Hst Hexp Hnbf Hcx Hvf Hvu Hpf] Hsl Hnid Hpr Hsh Hstat Hd cx Hcxr Hn.
  assert (readable_vc (vcc_vc v)) as Hr.
  { split; [|split; [|split]].
    - intros k. rewrite Hcx. intros [->|[->|[]%elem_of_nil]%elem_of_cons]%elem_of_cons; exact I.
    - intros s. rewrite Hs. intros ->%elem_of_list_singleton. by eapply (sublist_readable _ _ None).
    - rewrite Hst. exact Hstat.
    - rewrite Hpf. discriminate. }
  assert (shallow n (vc_values (vcc_vc v))) as Hv.
  { unfold vc_values. rewrite Hcx, Hs. cbn [flat_map app quota_elems cs_claims]. rewrite app_nil_r.
    intros j Hj. apply Hsh. apply elem_of_list_fmap in Hj as (p & -> & Hp). apply elem_of_list_fmap. exists p. split; [done|].
    by eapply sublist_elem. }
  apply (read_write _ _ _ (4 + n)); [by apply fine_vc_claims|done|].
  apply de_vc_claims_ser; try done.
  - by rewrite Hiat.
  - rewrite Hnbf. discriminate.
  - rewrite Hexp. discriminate.
Qed.
Lemma signed_reads (c : config ISig irequest (outcome error ireply)) cx n m en signer v jwt :
  reachable ihandler ∅ c → dates_read cx → 4 + n < depth_limit →
  c_log c !! m = Some en → e_ev en = X (VSignVc signer v jwt) →
  readable_answers n (calls_of (e_who en) (take m (c_log c))) →
  read (de_vc_claims cx) (write (ser_vc_claims cx) v) = Some v.
Proof.
  intros Hr Hcx Hn Hm He Ha. destruct (pos_path _ _ _ _ _ Hr Hm) as (q & p & es2 & Hq & Hp). rewrite He in Hp.
  apply signed_content in Hp as (r & h0 & h1 & st & tok & subj & iss & auth & cfg & did & def & types & type & ds & status & date &
    Hh & _ & _ & _ & _ & _ & _ & Hds & _ & Hst & Hnow & _ & Hsc).
  apply Ha in Hds as (D1 & D2 & D3). apply Ha in Hst. apply Ha in Hnow.
  eapply signed_readable; try done.
  - etrans; apply restrict_sublist.
  - intros qq s ->. apply Hst.
Qed.

(** ** Members *)
Lemma signed_document cx iss did type status l date v :
  signed_claims iss did type status l date v →
  credential_document ser_int iss did type l (option_map (ser_quota ser_status) status) date (ser_vc_claims cx v).
Proof.
  intros [Hiss Hsub Hiat Hjti Hi Hs Ht Hid Hst Hexp Hnbf Hcx Hvf Hvu Hpf].
  destruct v as [sub nbf is iat jti exp [ctx id ty nm ds isr sj vf vu st pf]]. simpl in *. subst.
  exists (some_entry "name" ser_lang_string nm ++ some_entry "description" ser_lang_string ds). split.
  - intros k. unfold keys. rewrite fmap_app, elem_of_app. destruct nm, ds; simpl; rewrite ?elem_of_list_singleton, ?elem_of_nil; tauto.
  - unfold ser_vc_claims, ser_vc. simpl. rewrite <-app_assoc. destruct status; reflexivity.
Qed.
Lemma signed_members q p h signer v jwt h' cx :
  path (ihandler q) (h ++ X (VSignVc signer v jwt) :: h') p →
  ∃ iss did type subj id ds claims status date,
    X (VIssuer signer (Some iss)) ∈ h ∧ X (VDataset subj id (Some ds)) ∈ h ∧ (∀ x, x ∈ claims → x ∈ ds_claims ds) ∧
    X (VStatus subj "credential_identifier" (Some status)) ∈ h ∧ X (VNow date) ∈ h ∧
    credential_document ser_int (is_credential_issuer iss) did type claims (option_map (ser_quota ser_status) status) date
      (ser_vc_claims cx v).
Proof.
  intros Hp. apply signed_content in Hp as (r & h0 & h1 & st & tok & subj & iss & auth & cfg & did & def & types & type & ds & status & date &
    Hh & _ & He & _ & _ & _ & _ & Hds & _ & Hst & Hnow & -> & Hsc).
  exists iss, did, type, subj, (au_identifier auth), ds,
    (restrict (named (cr_credential r)) (restrict (au_claim_ids auth) (ds_claims ds))), status, date. split_and!.
  - subst h. apply elem_of_app. right. apply He.
  - exact Hds.
  - intros x. apply sublist_elem. etrans; apply restrict_sublist.
  - exact Hst.
  - exact Hnow.
  - by apply signed_document.
Qed.
Lemma standard_unread p i l : de_status (standard_status p i l) = None.
Proof. reflexivity. Qed.
Lemma standard_vc_unread cx m p i l : lookups "credentialStatus" m = [standard_status p i l] → de_vc cx (JObj m) = None.
Proof.
  intros H. unfold de_vc. cbn [obj].
  assert (opt (de_quota de_status) "credentialStatus" m = None) as E by (unfold opt; rewrite H; reflexivity).
  rewrite E. repeat case_match; congruence.
Qed.
Lemma status_names s : ∃ m, ser_status s = JObj m ∧
  ∀ k, k ∈ keys m → k ∈ ["id"; "type"; "status_purpose"; "status_list_index"; "status_list_credential"; "status_size"].
Proof.
  eexists. split; [reflexivity|]. intros k. destruct (st_id s), (st_size s); simpl; set_solver.
Qed.

(** What is read as the issuer, the subject and the type. *)
Lemma vc_read_issuer cx m v : de_vc cx (JObj m) = Some v →
  (lookups "issuer" m = [] ∧ vc_issuer v = KString "") ∨
  (∃ s, lookups "issuer" m = [JStr s] ∧ vc_issuer v = KString s) ∨
  (∃ o, lookups "issuer" m = [JObj o] ∧
     ((lookups "id" o = [] ∧ vc_issuer v = KObject "") ∨ ∃ s, lookups "id" o = [JStr s] ∧ vc_issuer v = KObject s)).
Proof.
  unfold de_vc. cbn [obj]. intros H. repeat case_match; simplify_eq. cbn [vc_issuer].
  match goal with E : dflt (de_kind de_issuer_id) _ _ _ = Some _ |- _ => revert E end.
  clear. unfold dflt. destruct (lookups "issuer" m) as [|j [|]]; [intros [= <-]; by left| |done].
  unfold de_kind. destruct j as [| | |s| |o]; try done.
  - intros [= <-]. right; left. by exists s.
  - intros H. right; right. exists o. split; [done|]. unfold de_issuer_id in H. cbn [obj] in H. unfold dflt in H.
    destruct (lookups "id" o) as [|j [|]]; simpl in H; simplify_eq; [by left|right].
    destruct j; simpl in H; simplify_eq. by eexists.
Qed.
